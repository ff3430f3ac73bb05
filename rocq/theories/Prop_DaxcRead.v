(** * Prop_DaxcRead: C161-C163, READ, ADD TYPE and ADD MAP of the command line client *)
From Verif Require Import LuaConv LuaConvProofs LuaApi LuaApiProofs Prop_LuaApi.
From Verif Require Import Base Const Types State Lib Events Atomic Server Spec Reach TypesProofs Text Prop_Text Prop_Data ClientTypes Cache Path ClientMsg ClientData Prop_ClientData CdtNew ClientMap Prop_Groups Prop_ClientMap Daxc Prop_DaxcCmd DaxcRead Demo Inv Prop_Tags Prop_Wire.

(** ** C161 *)
(** the number of elements asked for: the second word; 0 (all of them) without it *)
Definition asked (a : list name) (n : Z) : Prop := (a = [] /\ n = 0) \/ exists c r, a = c :: r /\ 0 <= number c < 2147483648 /\ n = number c.
(** the text of a decimal number *)
Definition decimal (l : name) : Prop := exists d, (l = d \/ l = 45 :: d) /\ d <> [] /\ forall c, In c d -> isdigit c = true.

Lemma unsigned_number w : 0 <= number w <= 18446744073709551615 -> fst (strtoul0 w) = number w.
Proof.
  destruct (signed w) as (neg & m & Hm & _ & -> & -> & _). intros B. unfold strtoul_neg, sgn in *. replace (18446744073709551615 <? m) with false by (destruct neg; lia).
  cbn [fst]. unfold u64. destruct neg; lia.
Qed.
Lemma asked_count a n : asked a n -> match a with [] => 0 | c :: _ => s32 (fst (strtoul0 c)) end = n.
Proof. intros [(-> & ->)|(c & r & -> & B & ->)]; [reflexivity|]. rewrite unsigned_number by lia. unfold s32. rewrite Z.mod_small by lia. cbv zeta. replace (number c <? 2147483648) with true by lia. reflexivity. Qed.
Lemma zlen_fresh G n : 0 <= n -> zlen (fresh G n) = n.
Proof. intros H. unfold zlen, fresh. rewrite map_length, seq_length. lia. Qed.
Lemma dec_str_some n : dec_str n <> [].
Proof. unfold dec_str. change 20%nat with (Datatypes.S 19). cbn [dec_rev]. destruct (n <? 10); cbn [rev]; intros H; apply app_eq_nil in H as [_ H]; discriminate. Qed.
Lemma print_decimal v : - 2 ^ 63 <= v < 2 ^ 64 -> decimal (print_dec v).
Proof.
  intros H. assert (X : forall x, 0 <= x < 2 ^ 64 -> forall c, In c (dec_str x) -> isdigit c = true) by (intros x Hx c I; destruct (dec_str_spec x Hx) as (A & _); rewrite forallb_forall in A; auto).
  unfold print_dec. destruct (v <? 0) eqn:Q; [exists (dec_str (- v)) | exists (dec_str v)]; (split; [tauto|]; split; [apply dec_str_some|]); apply X; lia.
Qed.
Lemma shown_value T t lo hi w val i : int_type t lo hi w -> t <> T_CHAR -> bytes_ok (slice (i * w) w val) -> in_bounds (i * w) w (zlen val) = true ->
  exists line, val_to_string T 32 t val i = Done (line ++ [0]) /\ cstr (line ++ [0]) = Some line /\ decimal line /\ number line = Prop_Text.value lo w (slice (i * w) w val).
Proof.
  intros I NC Bx B1. set (x := slice (i * w) w val) in *. assert (W0 : 0 < w) by (destruct I; lia). assert (Lx : zlen x = w) by (apply zlen_slice; exact B1).
  assert (El : elem val w i = Done x) by (unfold elem, rd; rewrite B1; reflexivity).
  destruct (value_ok t lo hi w x I Bx Lx) as [V1 V2]. clearbody x. assert (V3 : - 2 ^ 63 <= Prop_Text.value lo w x < 2 ^ 64) by (destruct I; lia).
  destruct (print_number _ V3) as (P1 & P2 & P3 & P4). assert (Dc := print_decimal _ V3). set (v := Prop_Text.value lo w x) in *. exists (print_dec v).
  assert (CS : cstr (print_dec v ++ [0]) = Some (print_dec v)).
  { apply cstr_dec. intros c Hc. destruct (P2 c Hc) as [->|D]; [lia|]. unfold isdigit in D. lia. }
  split; [|auto].
  assert (U : lo = 0 -> snprint 32 (print_dec (le_val x)) = print_dec v ++ [0]).
  { intros ->. unfold v, Prop_Text.value. cbn [Z.ltb Z.compare]. apply snprint_fits. unfold v, Prop_Text.value in P4. cbn [Z.ltb Z.compare] in P4. lia. }
  assert (Ng : lo < 0 -> snprint 32 (print_dec (wrap_s w (le_val x))) = print_dec v ++ [0]).
  { intros N. rewrite (wrap_value t lo hi w x I N Bx Lx). fold v. apply snprint_fits. lia. }
  unfold val_to_string. destruct I; try congruence;
  cbn [Z.eqb Pos.eqb orb T_BOOL T_BYTE T_SINT T_CHAR T_WORD T_INT T_UINT T_DWORD T_DINT T_UDINT T_LWORD T_LINT T_ULINT];
  cbv zeta; rewrite El; cbn [rbind]; f_equal; first [apply U; reflexivity | apply Ng; lia].
Qed.
Lemma lines_of (P : Z -> name -> Prop) T t buff : forall k n, (forall i, n <= i < n + Z.of_nat k -> exists line, val_to_string T 32 t buff i = Done (line ++ [0]) /\ cstr (line ++ [0]) = Some line /\ P i line) ->
  exists l, value_lines T t buff k n = Done l /\ zlen l = Z.of_nat k /\ forall i, 0 <= i < Z.of_nat k -> exists line, znth l i = Some line /\ P (n + i) line.
Proof.
  induction k as [|k IH]; intros n H; cbn [value_lines]; [exists []; split; [reflexivity|]; split; [reflexivity|]; intros i Hi; lia|].
  destruct (H n ltac:(lia)) as (line & -> & C & Pn). cbn [rbind]. rewrite C. destruct (IH (n + 1)) as (l & -> & L & A); [intros i Hi; apply H; lia|]. cbn [rbind]. exists (line :: l).
  split; [reflexivity|]. split; [rewrite zlen_cons; lia|]. intros i Hi. destruct (Z.eq_dec i 0) as [->|N]; [exists line; split; [apply znth_0 | replace (n + 0) with n by lia; exact Pn]|].
  destruct (A (i - 1) ltac:(lia)) as (x & Zx & Px). exists x. replace i with (i - 1 + 1) at 1 by lia. rewrite znth_S by lia. split; [exact Zx|]. replace (n + i) with (n + 1 + (i - 1)) by lia. exact Px.
Qed.
Lemma not_custom t lo hi w : int_type t lo hi w -> is_custom t = false.
Proof. intros []; reflexivity. Qed.
Lemma slice_slice a n c k (b : list Z) : 0 <= c -> 0 <= a -> c + k <= n -> slice c k (slice a n b) = slice (a + c) k b.
Proof. intros. unfold slice. rewrite skipn_firstn_comm, Prop_Groups.skipn_skipn', firstn_firstn. f_equal; [lia|]. f_equal. lia. Qed.
(** READ of integers prints, one line per element, the numbers that are stored *)
Theorem C161_values : forall E T G db cc fd s nm a n h lo hi w b cc1,
  reachable E s -> stored s (h_index h) b -> bytes_ok b -> no_override s (h_index h) -> zlen b < 2147483648 -> inside h b -> int_type (h_type h) lo hi w -> h_type h <> T_CHAR -> 0 <= h_count h -> h_size h = w * h_count h ->
  asked a n -> tag_handle (s_types s) db cc nm n = Done (cc1, inl h) ->
  exists s' l, tag_read_cmd E T G db cc fd s (nm :: a) = Done (cc1, s', Some (ShLines l), 0) /\ s_db s' = s_db s /\ zlen l = h_count h /\
    forall k, 0 <= k < h_count h -> exists line, znth l k = Some line /\ decimal line /\ number line = Prop_Text.value lo w (slice (h_byte h + w * k) w b).
Proof.
  intros E T G db cc fd s nm a n h lo hi w b cc1 R St Bb No Hz In I Nc C Z A Th. assert (W := width_cases _ _ _ _ I). assert (In0 := In). destruct In0 as (I1 & I2 & I3).
  unfold tag_read_cmd. cbv zeta. rewrite (asked_count _ _ A), Th. cbn [rbind]. assert (Lf : zlen (fresh G (h_size h + 1)) = h_size h + 1) by (apply zlen_fresh; lia). assert (Lb : h_size h <= zlen (fresh G (h_size h + 1))) by lia.
  destruct (C45_read_succeeds E cc1 fd s h (fresh G (h_size h + 1)) b w) as (s' & buf & H); try assumption; [destruct I; cbn; tauto|].
  rewrite H. cbn [rbind Z.eqb negb]. rewrite (not_custom _ _ _ _ I). replace (h_type h =? T_CHAR) with false by lia.
  assert (Nb : h_type h <> T_BOOL) by (destruct I; discriminate). destruct (C45_read _ _ _ _ _ _ b _ _ R St No Hz In Lb Nb H) as (D & L & Sl & _).
  assert (Sk : forall k, 0 <= k < h_count h -> slice (k * w) w buf = slice (h_byte h + w * k) w b).
  { intros k Hk. change (k * w) with (0 + k * w). rewrite <- (slice_slice 0 (h_size h) (k * w) w buf) by (destruct W as [->|[->|[->| ->]]]; lia). rewrite Sl. rewrite slice_slice by (destruct W as [->|[->|[->| ->]]]; lia). f_equal. lia. }
  destruct (lines_of (fun k line => decimal line /\ number line = Prop_Text.value lo w (slice (h_byte h + w * k) w b)) T (h_type h) buf (Z.to_nat (h_count h)) 0) as (l & Hl & Ll & Al).
  { intros i Hi. assert (Hk : 0 <= i < h_count h) by lia.
    assert (Bd : in_bounds (i * w) w (zlen buf) = true) by (apply in_bounds_iff; rewrite L, Lf; destruct W as [->|[->|[->| ->]]]; lia).
    assert (Bs : in_bounds (h_byte h + w * i) w (zlen b) = true) by (apply in_bounds_iff; destruct W as [->|[->|[->| ->]]]; lia).
    assert (Bx : bytes_ok (slice (i * w) w buf)) by (rewrite Sk by exact Hk; apply bytes_ok_slice; exact Bb).
    destruct (shown_value T (h_type h) lo hi w buf i I Nc Bx Bd) as (line & V1 & V2 & V3 & V4). exists line. rewrite Sk in V4 by exact Hk. auto. }
  rewrite Hl. cbn [rbind]. exists s', l. split; [reflexivity|]. split; [exact D|]. split; [lia|]. intros k Hk. destruct (Al k ltac:(lia)) as (line & Q). exists line. exact Q.
Qed.
(** READ of bits prints 1 for a bit that is set and 0 for one that is not *)
Theorem C161_bits : forall E T G db cc fd s nm a n h b cc1,
  reachable E s -> stored s (h_index h) b -> no_override s (h_index h) -> zlen b < 2147483648 -> inside h b -> h_type h = T_BOOL -> 0 <= h_bit h -> 0 <= h_count h -> h_bit h + h_count h <= 8 * h_size h ->
  asked a n -> tag_handle (s_types s) db cc nm n = Done (cc1, inl h) ->
  exists s' l, tag_read_cmd E T G db cc fd s (nm :: a) = Done (cc1, s', Some (ShLines l), 0) /\ s_db s' = s_db s /\ zlen l = h_count h /\
    forall k, 0 <= k < h_count h -> znth l k = Some (if bit b (8 * h_byte h + h_bit h + k) then str "1" else str "0").
Proof.
  intros E T G db cc fd s nm a n h b cc1 R St No Hz In I Hb C Z A Th. assert (In0 := In). destruct In0 as (I1 & I2 & I3).
  unfold tag_read_cmd. cbv zeta. rewrite (asked_count _ _ A), Th. cbn [rbind]. assert (Lf : zlen (fresh G (h_size h + 1)) = h_size h + 1) by (apply zlen_fresh; lia). assert (Lb : h_size h <= zlen (fresh G (h_size h + 1))) by lia.
  destruct (C46_read_bits E cc1 fd s h (fresh G (h_size h + 1)) b) as (s' & buf & H & D & L & K & _); try assumption.
  rewrite H, I. cbn [rbind Z.eqb negb]. change (is_custom T_BOOL) with false. change (T_BOOL =? T_CHAR) with false. cbv iota.
  destruct (lines_of (fun k line => line = if bit b (8 * h_byte h + h_bit h + k) then str "1" else str "0") T T_BOOL buf (Z.to_nat (h_count h)) 0) as (l & Hl & Ll & Al).
  { intros i Hi. exists (if bit b (8 * h_byte h + h_bit h + i) then str "1" else str "0"). split; [|split; [destruct (bit _ _); reflexivity | reflexivity]].
    unfold val_to_string. cbn [Z.eqb Pos.eqb T_BOOL]. replace (i <? 0) with false by lia. destruct (znth_some buf (i / 8) ltac:(lia)) as (x & Hx). rewrite Hx. specialize (K i ltac:(lia)). replace (i <? h_count h) with true in K by lia. cbn [andb] in K.
    unfold bit in K at 1. rewrite (nthb_znth _ _ _ Hx) in K. rewrite K. destruct (bit b _); reflexivity. }
  rewrite Hl. cbn [rbind]. exists s', l. split; [reflexivity|]. split; [exact D|]. split; [lia|]. intros k Hk. destruct (Al k ltac:(lia)) as (line & Q & ->). exact Q.
Qed.
(** READ of characters prints them and ends the line; so it is for texts without zeros *)
Theorem C161_text_partial : forall E T G db cc fd s nm a n h b cc1,
  reachable E s -> stored s (h_index h) b -> no_override s (h_index h) -> zlen b < 2147483648 -> inside h b -> h_type h = T_CHAR -> h_size h = h_count h -> ~ In 0 (slice (h_byte h) (h_size h) b) ->
  asked a n -> tag_handle (s_types s) db cc nm n = Done (cc1, inl h) ->
  exists s', tag_read_cmd E T G db cc fd s (nm :: a) = Done (cc1, s', Some (ShText (slice (h_byte h) (h_size h) b ++ [10])), 0) /\ s_db s' = s_db s.
Proof.
  intros E T G db cc fd s nm a n h b cc1 R St No Hz In I Z N A Th. assert (In0 := In). destruct In0 as (I1 & I2 & I3).
  unfold tag_read_cmd. cbv zeta. rewrite (asked_count _ _ A), Th. cbn [rbind]. assert (Lf : zlen (fresh G (h_size h + 1)) = h_size h + 1) by (apply zlen_fresh; lia). assert (Lb : h_size h <= zlen (fresh G (h_size h + 1))) by lia.
  destruct (C45_read_succeeds E cc1 fd s h (fresh G (h_size h + 1)) b 1) as (s' & buf & H); try assumption; [rewrite I; cbn; tauto | lia | lia|].
  assert (Nb : h_type h <> T_BOOL) by (rewrite I; discriminate). destruct (C45_read _ _ _ _ _ _ b _ _ R St No Hz In Lb Nb H) as (D & L & Sl & _).
  rewrite H, I. cbn [rbind Z.eqb negb]. change (is_custom T_CHAR) with false. change (T_CHAR =? T_CHAR) with true. cbv iota. exists s'. split; [|exact D].
  replace (firstn (Z.to_nat (h_size h)) buf) with (slice (h_byte h) (h_size h) b) by (rewrite <- Sl; reflexivity). do 4 f_equal. unfold char_text. f_equal.
  revert N. generalize (slice (h_byte h) (h_size h) b). intros t. induction t as [|c t IH]; intros N; [reflexivity|]. cbn [flat_map]. replace (c =? 0) with false by (symmetry; apply Z.eqb_neq; intros ->; apply N; left; reflexivity).
  cbn [app]. rewrite IH; [reflexivity|]. intros J. apply N. right. exact J.
Qed.
Lemma put_values_ok T t lo hi w : int_type t lo hi w -> forall vs n buff mask buff' mask', Forall (good_text t) vs -> 0 <= n -> (n + zlen vs) * w <= zlen buff -> zlen mask = zlen buff -> bytes_ok buff ->
  put_values T t vs n buff mask = Done (buff', mask') -> bytes_ok buff'.
Proof.
  intros I. assert (W := width_cases _ _ _ _ I). induction vs as [|v vs IH]; intros n buff mask buff' mask' G Hn L M B H; cbn [put_values] in H; [congruence|].
  apply Forall_cons_iff in G as [G1 G2]. rewrite zlen_cons in L. assert (Lv := zlen_nonneg vs). destruct (skips v) eqn:Sk; [eapply (IH (n + 1)); try eassumption; destruct W as [->|[->|[->| ->]]]; lia|].
  assert (Bd : in_bounds (n * w) w (zlen buff) = true) by (apply in_bounds_iff; destruct W as [->|[->|[->| ->]]]; lia).
  destruct (one_value T t lo hi w v n buff mask I G1 Sk Bd M) as (err & R). rewrite R in H. cbn [rbind] in H.
  assert (Lw : forall x, zlen (le_bytes (Z.to_nat w) x) = w) by (intros x; rewrite zlen_le_bytes; lia).
  assert (L1 : zlen (splice (n * w) (le_bytes (Z.to_nat w) (value t lo hi v)) buff) = zlen buff) by (apply zlen_splice; rewrite Lw; exact Bd).
  assert (L2 : zlen (splice (n * w) (ones w) mask) = zlen mask) by (apply zlen_splice; unfold ones; rewrite Lw, M; exact Bd).
  eapply (IH (n + 1)); [exact G2 | lia | | | | exact H]; [rewrite L1; destruct W as [->|[->|[->| ->]]]; lia | congruence | apply bytes_ok_splice; [apply le_bytes_ok | exact B]].
Qed.
Lemma write_keeps E T db cc fd s nm vs h lo hi w cc1 cc' s' e : holds_bytes E (h_index h) s -> 0 <= h_size h ->
  int_type (h_type h) lo hi w -> h_count h = zlen vs -> h_size h = w * zlen vs -> vs <> [] -> Forall (good_text (h_type h)) vs -> has_quote (hd [] vs) = false ->
  tag_handle (s_types s) db cc nm (zlen vs) = Done (cc1, inl h) -> tag_write_cmd E T db cc fd s (nm :: vs) = Done (cc', s', e) -> holds_bytes E (h_index h) s'.
Proof.
  intros P Z0 I C Z N G Q Th H. assert (Lv := zlen_nonneg vs).
  destruct vs as [|v r]; [congruence|]. cbn [hd] in Q. unfold tag_write_cmd in H. rewrite Q, Th in H. cbn [rbind] in H. cbv beta iota zeta in H.
  rewrite C in H. replace (firstn (Z.to_nat (zlen (v :: r))) (v :: r)) with (v :: r) in H by (unfold zlen; rewrite Nat2Z.id, firstn_all; reflexivity). set (vs := v :: r) in *.
  assert (Lz : zlen (zeros (h_size h)) = h_size h) by (apply zlen_zeros; assumption). assert (Lg : (0 + zlen vs) * w <= zlen (zeros (h_size h))) by (rewrite Lz, Z; lia).
  destruct (put_values_bits T (h_type h) lo hi w I vs 0 (zeros (h_size h)) (zeros (h_size h)) G ltac:(lia) Lg eq_refl (Prop_DaxcCmd.zeros_ok _)) as (bu & ma & Pv & _ & _ & Bm & _).
  assert (Bu := put_values_ok _ _ _ _ _ I _ _ _ _ _ _ G (Z.le_refl 0) Lg eq_refl (Prop_DaxcCmd.zeros_ok _) Pv).
  rewrite Pv in H. cbn [rbind] in H. cbv beta iota zeta in H. destruct (_ || _); apply rbind_done in H as ((s1 & e1) & H1 & H); unfold given in H; cbn [fst snd] in H; assert (s1 = s') by congruence; subst s1.
  - exact (LuaApiProofs.tag_mask_keeps _ _ _ _ _ _ _ _ _ P Bu Bm H1).
  - exact (LuaApiProofs.tag_write_keeps _ _ _ _ _ _ _ _ P Bu H1).
Qed.
Lemma same_bits l m : bytes_ok l -> bytes_ok m -> zlen l = zlen m -> (forall q, 0 <= q < 8 * zlen l -> bit l q = bit m q) -> l = m.
Proof.
  intros Bl Bm L H. apply znth_ext. intros i Hi. destruct (Z_lt_le_dec i (zlen l)) as [Q|Q]; [|rewrite (proj2 (znth_none l i)) by lia; rewrite (proj2 (znth_none m i)) by lia; reflexivity].
  destruct (znth_some l i ltac:(lia)) as (a & Ha). destruct (znth_some m i ltac:(lia)) as (b & Hb). rewrite Ha, Hb. f_equal.
  apply byte_of_bits; [unfold bytes_ok in Bl; rewrite Forall_forall in Bl; apply Bl; eapply znth_In; exact Ha | unfold bytes_ok in Bm; rewrite Forall_forall in Bm; apply Bm; eapply znth_In; exact Hb|].
  intros j Hj. specialize (H (8 * i + j) ltac:(lia)). unfold bit in H. replace ((8 * i + j) / 8) with i in H by lia. replace ((8 * i + j) mod 8) with j in H by lia. rewrite (nthb_znth _ _ _ Ha), (nthb_znth _ _ _ Hb) in H. exact H.
Qed.
Lemma value_back t lo hi w x : int_type t lo hi w -> lo <= x <= hi -> Prop_Text.value lo w (le_bytes (Z.to_nat w) x) = x.
Proof.
  intros I B. unfold Prop_Text.value. rewrite le_val_le_bytes. rewrite Z2Nat.id by (destruct I; lia).
  destruct I; match goal with |- context [?a ^ ?b] => idtac end; repeat match goal with |- context [?a ^ ?b] => let y := eval compute in (a ^ b) in change (a ^ b) with y end; cbn [Z.ltb Z.compare]; try (destruct (_ <? _) eqn:Q); lia.
Qed.
(** what WRITE has stored is what READ prints: the numbers given, moved into the range of the type *)
Theorem C161_written : forall E T G db cc fd fd' s nm vs h lo hi w b cc1 cc' s' c cc2,
  reachable E s -> stored s (h_index h) b -> bytes_ok b -> no_mapping s (h_index h) -> no_override s (h_index h) -> zlen b < 2147483648 -> inside h b ->
  int_type (h_type h) lo hi w -> h_type h <> T_CHAR -> h_count h = zlen vs -> h_size h = w * zlen vs -> vs <> [] -> Forall (good_text (h_type h)) vs -> has_quote (hd [] vs) = false ->
  tag_handle (s_types s) db cc nm (zlen vs) = Done (cc1, inl h) -> tag_write_cmd E T db cc fd s (nm :: vs) = Done (cc', s', 0) ->
  number c = zlen vs -> tag_handle (s_types s') db cc' nm (zlen vs) = Done (cc2, inl h) ->
  exists s2 l, tag_read_cmd E T G db cc' fd' s' [nm; c] = Done (cc2, s2, Some (ShLines l), 0) /\ zlen l = zlen vs /\
    forall k v, znth vs k = Some v -> skips v = false -> exists line, znth l k = Some line /\ decimal line /\ number line = Z.max lo (Z.min hi (number v)).
Proof.
  intros E T G db cc fd fd' s nm vs h lo hi w b cc1 cc' s' c cc2 R St Bb Nm No Hz In I Nc C Z N Gt Q Th H Hc Th2. assert (W := width_cases _ _ _ _ I). assert (In0 := In). destruct In0 as (I1 & I2 & I3). assert (Lv := zlen_nonneg vs).
  destruct (write_keeps E T db cc fd s nm vs h lo hi w cc1 cc' s' 0 (conj R (conj Nm (ex_intro _ b (conj St Bb)))) I2 I C Z N Gt Q Th H) as (R' & _ & b1 & S1 & B1).
  destruct (C154_values_partial E T db cc fd s nm vs h lo hi w b cc1 cc' s' R St Nm Hz In I C Z N Gt Q Th H) as (O & b' & S' & L' & New & _). assert (X := stored_fun _ _ _ _ S1 S'). subst b1.
  assert (A : asked [c] (zlen vs)) by (right; exists c, []; split; [reflexivity|]; split; [rewrite Hc; destruct W as [->|[->|[->| ->]]]; lia | lia]).
  destruct (C161_values E T G db cc' fd' s' nm [c] (zlen vs) h lo hi w b' cc2 R' S' B1 (only_no_override _ _ _ _ O St No) ltac:(lia) ltac:(unfold inside in *; lia) I Nc ltac:(lia) ltac:(rewrite C; exact Z) A Th2) as (s2 & l & Hr & _ & Ll & Al).
  exists s2, l. split; [exact Hr|]. split; [lia|]. intros k v Hk Sk. assert (Kr := znth_range _ _ _ Hk). destruct (Al k ltac:(lia)) as (line & Zl & D & V). exists line. split; [exact Zl|]. split; [exact D|]. rewrite V.
  assert (Bd : in_bounds (h_byte h + w * k) w (zlen b') = true) by (apply in_bounds_iff; destruct W as [->|[->|[->| ->]]]; lia).
  assert (Lw : zlen (le_bytes (Z.to_nat w) (value (h_type h) lo hi v)) = w) by (rewrite zlen_le_bytes; lia).
  assert (E1 : slice (h_byte h + w * k) w b' = le_bytes (Z.to_nat w) (value (h_type h) lo hi v)).
  { apply same_bits; [apply bytes_ok_slice; exact B1 | apply le_bytes_ok | rewrite zlen_slice by exact Bd; lia|]. rewrite zlen_slice by exact Bd. intros q Hq. rewrite slice_bit by (assumption || lia).
    specialize (New k v q Hk Hq). cbv zeta in New. rewrite Sk in New. rewrite bit_le by (rewrite Z2Nat.id; lia). rewrite <- New. f_equal. lia. }
  rewrite E1. unfold value. replace (h_type h =? T_CHAR) with false by lia. cbn [andb]. apply (value_back _ _ _ _ _ I). assert (lo <= hi) by (destruct I; lia). lia.
Qed.
(** a name that cannot be resolved prints nothing and reports an error *)
Theorem C161_unknown : forall E T G db cc fd s nm a n cc1 e, asked a n -> tag_handle (s_types s) db cc nm n = Done (cc1, inr e) -> tag_read_cmd E T G db cc fd s (nm :: a) = Done (cc1, s, None, E_ARG).
Proof. intros E T G db cc fd s nm a n cc1 e A H. unfold tag_read_cmd. cbv zeta. rewrite (asked_count _ _ A), H. reflexivity. Qed.
(** REFUTED for texts with zeros: for each of them two characters are printed, one of them the zero *)
Definition txt_server : server := after_ops env0 (demo_ops ++ [OpTagAdd 5 (str "txt") T_CHAR 3 0; OpWrite 5 16 0 [65; 0; 66]]).
Definition txt_db (n : name) : option ctag := if name_eqb n (str "txt") then Some (mk_ct n 16 T_CHAR 3 0) else ex_db n.
Theorem C161_zero_refuted : exists G cc' s', reachable env0 txt_server /\ stored txt_server 16 [65; 0; 66] /\
  tag_read_cmd env0 te0 G txt_db [] 6 txt_server [str "txt"] = Done (cc', s', Some (ShText [65; 32; 0; 66; 10]), 0).
Proof.
  exists (fun _ => 0). do 2 eexists. split; [apply after_reachable; vm_compute; reflexivity|]. split; [eexists; (split; [vm_compute; reflexivity|]; split; vm_compute; reflexivity)|]. vm_compute. reflexivity.
Qed.
Example C161_ex : exists cc1 h s1 s2 cc2 l, asked [str "3"] 3 /\ tag_handle (s_types demo) ex_db [] (str "foo[2]") 3 = Done (cc1, inl h) /\ int_type (h_type h) (-2147483648) 2147483647 4 /\ h_size h = 4 * h_count h /\
  tag_write_cmd env0 te0 ex_db [] 5 demo [str "foo[2]"; str "7"; str "-12"; str "99999999999"] = Done (cc1, s1, 0) /\
  tag_read_cmd env0 te0 (fun k => k + 200) ex_db cc1 6 s1 [str "foo[2]"; str "3"] = Done (cc2, s2, Some (ShLines l), 0) /\ l = [str "7"; str "-12"; str "2147483647"] /\
  exists cc3 s3, tag_read_cmd env0 te0 (fun k => k + 200) ex_db [] 6 demo [str "bar[1]"; str "2"] = Done (cc3, s3, Some (ShLines [str "0"; str "0"]), 0).
Proof.
  do 6 eexists. split; [right; exists (str "3"), []; split; [reflexivity|]; split; [vm_compute; split; [discriminate | reflexivity] | reflexivity]|]. split; [vm_compute; reflexivity|]. split; [apply it_dint|]. split; [vm_compute; reflexivity|].
  split; [vm_compute; reflexivity|]. split; [vm_compute; reflexivity|]. split; [reflexivity|]. do 2 eexists. vm_compute. reflexivity.
Qed.

(** ** C163 *)
Definition count_word (w : name) (n : Z) : Prop := n = number w /\ 0 < n < 2147483648.
Lemma count_word_is w n : count_word w n -> s32 (strtol0 w) = n.
Proof. intros (-> & B). rewrite strtol0_number. unfold sat64, s32. replace (Z.max (-9223372036854775808) (Z.min 9223372036854775807 (number w))) with (number w) by lia. rewrite Z.mod_small by lia. cbv zeta. replace (number w <? 2147483648) with true by lia. reflexivity. Qed.
(** ADD MAP makes the mapping from the elements named first to those named second *)
Theorem C163_mapped : forall E db cc fd s sn sc dn dc rest m n src dst cc1 cc2 cc' s' e i id,
  reachable E s -> ids_left s (h_index src) -> count_word sc m -> count_word dc n ->
  tag_handle (s_types s) db cc sn m = Done (cc1, inl src) -> tag_handle (s_types s) db cc1 dn n = Done (cc2, inl dst) ->
  map_add_cmd E db cc fd s (sn :: sc :: dn :: dc :: rest) = Done (cc', s', e, Some (i, id)) -> e = 0 /\ i = h_index src /\ mapped s' i id src dst.
Proof.
  intros E db cc fd s sn sc dn dc rest m n src dst cc1 cc2 cc' s' e i id R Lf Cs Cd Hs Hd H. unfold map_add_cmd in H. cbv zeta in H. rewrite (count_word_is _ _ Cs), (count_word_is _ _ Cd) in H. destruct Cs as (_ & Cs). destruct Cd as (_ & Cd).
  replace ((m <=? 0) || (n <=? 0)) with false in H by lia. rewrite Hs in H. cbn [rbind] in H. rewrite Hd in H. cbn [rbind] in H. apply rbind_done in H as ((s1 & r) & H1 & H). cbn [fst snd] in H. destruct r as [[j jd]|x]; [|congruence].
  assert (s1 = s') by congruence. assert (j = i) by congruence. assert (jd = id) by congruence. subst s1 j jd. destruct (C149_added _ _ _ _ _ _ _ _ R Lf H1) as (A & _ & B). split; [congruence|]. auto.
Qed.
(** it makes one, if the server agrees *)
Theorem C163_agreed : forall E db cc fd s sn sc dn dc rest m n src dst cc1 cc2 s' i id, count_word sc m -> count_word dc n ->
  tag_handle (s_types s) db cc sn m = Done (cc1, inl src) -> tag_handle (s_types s) db cc1 dn n = Done (cc2, inl dst) -> dax_map_add E fd s src dst = Done (s', inl (i, id)) ->
  map_add_cmd E db cc fd s (sn :: sc :: dn :: dc :: rest) = Done (cc2, s', 0, Some (i, id)).
Proof.
  intros E db cc fd s sn sc dn dc rest m n src dst cc1 cc2 s' i id Cs Cd Hs Hd H. unfold map_add_cmd. cbv zeta. rewrite (count_word_is _ _ Cs), (count_word_is _ _ Cd). destruct Cs as (_ & Cs). destruct Cd as (_ & Cd).
  replace ((m <=? 0) || (n <=? 0)) with false by lia. rewrite Hs. cbn [rbind]. rewrite Hd. cbn [rbind]. rewrite H. reflexivity.
Qed.
(** with a count that is not positive, or with a tag that cannot be found, nothing is sent *)
Lemma low_word w : -2147483648 <= number w <= 0 -> s32 (strtol0 w) <= 0.
Proof. intros B. rewrite strtol0_number. unfold sat64. replace (Z.max (-9223372036854775808) (Z.min 9223372036854775807 (number w))) with (number w) by lia. unfold s32. cbv zeta. destruct (_ <? _) eqn:Q; lia. Qed.
Theorem C163_refused : forall E db cc fd s sn sc dn dc rest,
  -2147483648 <= number sc <= 0 \/ -2147483648 <= number dc <= 0 \/
  (exists m cc1 e, count_word sc m /\ tag_handle (s_types s) db cc sn m = Done (cc1, inr e)) \/
  (exists m n src cc1 cc2 e, count_word sc m /\ count_word dc n /\ tag_handle (s_types s) db cc sn m = Done (cc1, inl src) /\ tag_handle (s_types s) db cc1 dn n = Done (cc2, inr e)) ->
  exists cc', map_add_cmd E db cc fd s (sn :: sc :: dn :: dc :: rest) = Done (cc', s, E_ARG, None).
Proof.
  intros E db cc fd s sn sc dn dc rest H. unfold map_add_cmd. cbv zeta. destruct H as [H|[H|[(m & cc1 & e & C & H)|(m & n & src & cc1 & cc2 & e & C & D & H & K)]]].
  - apply low_word in H. replace (s32 (strtol0 sc) <=? 0) with true by lia. cbn [orb]. eauto.
  - apply low_word in H. replace (s32 (strtol0 dc) <=? 0) with true by lia. rewrite orb_true_r. eauto.
  - rewrite (count_word_is _ _ C). destruct (_ || _); [eauto|]. rewrite H. cbn [rbind]. eauto.
  - rewrite (count_word_is _ _ C), (count_word_is _ _ D). destruct (_ || _); [eauto|]. rewrite H. cbn [rbind]. rewrite K. cbn [rbind]. eauto.
Qed.
(** REFUTED: when the server refuses the mapping, the command still reports success *)
Definition map_db (n : name) : option ctag :=
  if name_eqb n (str "src") then Some (mk_ct n 11 T_INT 4 0) else if name_eqb n (str "dst") then Some (mk_ct n 12 T_INT 8 0) else if name_eqb n (str "_lastindex") then Some (mk_ct n 1 T_DINT 1 2) else None.
Theorem C163_result_refuted : exists s cc' s' src dst s1 e, reachable env0 s /\ dax_map_add env0 5 s src dst = Done (s1, inr e) /\
  map_add_cmd env0 map_db [] 5 s [str "src"; str "2"; str "_lastindex"; str "1"] = Done (cc', s', 0, None) /\ tag_handle (s_types s) map_db [] (str "src") 2 = Done ([], inl src) /\ tag_handle (s_types s) map_db [] (str "_lastindex") 1 = Done ([], inl dst).
Proof.
  exists map_server. do 2 eexists. exists (mk_h 11 0 0 2 4 T_INT), (mk_h 1 0 0 1 4 T_DINT). do 2 eexists. split; [exact map_server_reachable|]. split; [vm_compute; reflexivity|]. split; [vm_compute; reflexivity|]. split; vm_compute; reflexivity.
Qed.
(** REFUTED for large counts: they are taken modulo 2^32 *)
Theorem C163_count_refuted : exists s cc' s', reachable env0 s /\ number (str "4294967298") = 4294967298 /\
  map_add_cmd env0 map_db [] 5 s [str "src"; str "4294967298"; str "dst"; str "2"] = Done (cc', s', 0, Some (11, 1)) /\ mapped s' 11 1 (mk_h 11 0 0 2 4 T_INT) (mk_h 12 0 0 2 4 T_INT).
Proof.
  exists map_server. do 2 eexists. split; [exact map_server_reachable|]. split; [vm_compute; reflexivity|]. split; [vm_compute; reflexivity|].
  do 3 eexists. split; [vm_compute; reflexivity|]. split; [vm_compute; reflexivity|]. split; [left; reflexivity|]. split; [reflexivity|]. split; reflexivity.
Qed.
Example C163_ex : exists cc' s', ids_left map_server 11 /\ count_word (str "2") 2 /\ map_add_cmd env0 map_db [] 5 map_server [str "src[1]"; str "2"; str "dst[4]"; str "2"] = Done (cc', s', 0, Some (11, 1)) /\
  mapped s' 11 1 (mk_h 11 2 0 2 4 T_INT) (mk_h 12 8 0 2 4 T_INT).
Proof.
  do 2 eexists. split; [intros t H; vm_compute in H; injection H as <-; vm_compute; reflexivity|].
  split; [split; [reflexivity|]; lia|]. split; [vm_compute; reflexivity|].
  do 3 eexists. split; [vm_compute; reflexivity|]. split; [vm_compute; reflexivity|]. split; [left; reflexivity|]. split; [reflexivity|]. split; reflexivity.
Qed.
