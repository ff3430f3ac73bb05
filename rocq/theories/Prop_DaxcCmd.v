(** * Prop_DaxcCmd: C154-C156, commands of the command line client *)
From Verif Require Import Base Const Types State Lib Events Atomic Server Spec Reach Text Prop_Text Prop_Data ClientTypes Cache Path ClientData Prop_ClientData ClientOvr Prop_ClientOvr LuaApi Daxc Demo Inv Prop_Tags Prop_Wire Prop_LuaApi.

(** ** C154 *)
(** the number a text stands for, moved into the range of the type; a single character for a CHAR is that character *)
Definition value (t lo hi : Z) (v : name) : Z := if (t =? T_CHAR) && (zlen v =? 1) then nthb v 0 else Z.max lo (Z.min hi (number v)).
(** a text that the conversion handles right (C54), or one that is to be skipped *)
Definition good_text (t : Z) (v : name) : Prop :=
  ~ In 0 v /\ (skips v = true \/ plain t v /\ (t = T_LWORD \/ t = T_ULINT -> 0 <= number v) /\ (t = T_CHAR -> v <> [] /\ bytes_ok v)).

Lemma width_cases t lo hi w : int_type t lo hi w -> w = 1 \/ w = 2 \/ w = 4 \/ w = 8.
Proof. intros []; auto. Qed.
Lemma cstr_txt (l : name) : ~ In 0 l -> cstr (l ++ [0]) = Some l.
Proof. induction l as [|c l IH]; intros I; cbn [app cstr]; [reflexivity|]. replace (c =? 0) with false by (symmetry; apply Z.eqb_neq; intros ->; apply I; left; reflexivity). rewrite IH; [reflexivity | intros J; apply I; right; exact J]. Qed.
Lemma one_value T t lo hi w v n buff mask : int_type t lo hi w -> good_text t v -> skips v = false -> in_bounds (n * w) w (zlen buff) = true -> zlen mask = zlen buff ->
  exists err, string_to_val T (v ++ [0]) t buff (Some mask) n = Done (splice (n * w) (le_bytes (Z.to_nat w) (value t lo hi v)) buff, Some (splice (n * w) (ones w) mask), err).
Proof.
  intros I (Z0 & [K|(P & U & C)]) Sk B M; [congruence|]. assert (Mb : forall m, Some mask = Some m -> in_bounds (n * w) w (zlen m) = true) by (intros m Hm; injection Hm as <-; rewrite M; exact B).
  destruct (Z.eqb_spec t T_CHAR) as [->|Nc]; [destruct (Z.eqb_spec (zlen v) 1) as [L1|L1]|].
  - destruct v as [|c [|? ?]]; [cbn in L1; discriminate| |unfold zlen in L1; cbn [length] in L1; lia]. inversion I; subst. clear I. eexists. unfold string_to_val. rewrite cstr_txt by exact Z0. cbv zeta. cbn [app]. cbn [Z.eqb Pos.eqb T_BOOL T_BYTE T_CHAR].
    assert (E1 : znth [c; 0] 1 = Some 0) by reflexivity. rewrite E1. rewrite store_done by assumption. reflexivity.
  - destruct (C54_clamp_partial T T_CHAR lo hi w (v ++ [0]) v buff (Some mask) n I (cstr_txt v Z0)) as (x & err & m' & N & R & M'); try assumption.
    { intros _. destruct v as [|a [|c v]]; [destruct (C eq_refl); congruence | cbn in L1; lia|]. exists c. split; [change 1 with (0 + 1); cbn [app]; rewrite znth_S, znth_0 by lia; reflexivity|]. intros ->. apply Z0. right. left. reflexivity. }
    exists err. rewrite R. destruct M' as [->|([Q|Q] & _)]; [|discriminate|discriminate]. unfold value. replace (zlen v =? 1) with false by lia. rewrite andb_false_r.
    assert (X : x = Z.max lo (Z.min hi (number v))) by (assert (lo <= hi) by (inversion I; lia); unfold nearest in N; lia). rewrite X. reflexivity.
  - destruct (C54_clamp_partial T t lo hi w (v ++ [0]) v buff (Some mask) n I (cstr_txt v Z0)) as (x & err & m' & N & R & M'); try assumption; [congruence|].
    exists err. rewrite R. unfold value. replace (t =? T_CHAR) with false by lia. cbn [andb].
    assert (X : x = Z.max lo (Z.min hi (number v))) by (assert (lo <= hi) by (inversion I; lia); unfold nearest in N; lia). rewrite X.
    destruct M' as [->|(Q & Ee & _)]; [reflexivity|]. exfalso. specialize (U Q). assert (lo = 0) by (destruct Q as [-> | ->]; inversion I; reflexivity). unfold nearest in N. subst err. unfold E_UNDERFLOW, E_OVERFLOW in N. lia.
Qed.
Lemma bit_le : forall n v k, 0 <= k < 8 * Z.of_nat n -> bit (le_bytes n v) k = Z.testbit v k.
Proof.
  induction n as [|n IH]; intros v k H; [lia|]. cbn [le_bytes]. unfold bit. destruct (Z_lt_le_dec k 8) as [L|L].
  - replace (k / 8) with 0 by lia. replace (k mod 8) with k by lia. change (nthb (v mod 256 :: le_bytes n (v / 256)) 0) with (v mod 256). change 256 with (2 ^ 8). rewrite Z.mod_pow2_bits_low by lia. reflexivity.
  - assert (X := IH (v / 256) (k - 8) ltac:(lia)). unfold bit in X. replace ((k - 8) / 8) with (k / 8 - 1) in X by lia. replace ((k - 8) mod 8) with (k mod 8) in X by lia.
    assert (N : nthb (v mod 256 :: le_bytes n (v / 256)) (k / 8) = nthb (le_bytes n (v / 256)) (k / 8 - 1)).
    { unfold nthb. replace (Z.to_nat (k / 8)) with (Datatypes.S (Z.to_nat (k / 8 - 1))) by lia. reflexivity. }
    rewrite N, X. change 256 with (2 ^ 8). rewrite Z.div_pow2_bits by lia. f_equal. lia.
Qed.
Lemma put_values_bits T t lo hi w : int_type t lo hi w -> forall vs n buff mask, Forall (good_text t) vs -> 0 <= n -> (n + zlen vs) * w <= zlen buff -> zlen mask = zlen buff -> bytes_ok mask ->
  exists buff' mask', put_values T t vs n buff mask = Done (buff', mask') /\ zlen buff' = zlen buff /\ zlen mask' = zlen buff /\ bytes_ok mask' /\
    (forall q, 0 <= q < 8 * w * n -> bit buff' q = bit buff q /\ bit mask' q = bit mask q) /\
    (forall k v r, znth vs k = Some v -> 0 <= r < 8 * w -> let q := 8 * w * (n + k) + r in
       bit buff' q = (if skips v then bit buff q else Z.testbit (value t lo hi v) r) /\ bit mask' q = (if skips v then bit mask q else true)).
Proof.
  intros I. assert (W := width_cases _ _ _ _ I). induction vs as [|v vs IH]; intros n buff mask G Hn L M Bm.
  - exists buff, mask. repeat (split; [reflexivity || assumption|]). split; [auto|]. intros k v r H. exfalso. apply znth_range in H. unfold zlen in H. cbn [length] in H. lia.
  - apply Forall_cons_iff in G as [G1 G2]. rewrite zlen_cons in L. assert (Lv := zlen_nonneg vs). cbn [put_values]. destruct (skips v) eqn:Sk.
    + destruct (IH (n + 1) buff mask G2 ltac:(lia) ltac:(replace (n + 1 + zlen vs) with (n + (1 + zlen vs)) by lia; destruct W as [->|[->|[->| ->]]]; lia) M Bm) as (b' & m' & P & L1 & L2 & B & Old & New).
      exists b', m'. split; [exact P|]. split; [exact L1|]. split; [exact L2|]. split; [exact B|]. split; [intros q Hq; apply Old; destruct W as [->|[->|[->| ->]]]; lia|].
      intros k x r Hk Hr. cbv zeta. destruct (Z.eq_dec k 0) as [->|Nk].
      * rewrite znth_0 in Hk. injection Hk as <-. rewrite Sk. apply Old. destruct W as [->|[->|[->| ->]]]; lia.
      * assert (0 <= k) by (apply znth_range in Hk; lia). replace k with (k - 1 + 1) in Hk by lia. rewrite znth_S in Hk by lia. specialize (New (k - 1) x r Hk Hr). cbv zeta in New. replace (n + 1 + (k - 1)) with (n + k) in New by lia. exact New.
    + assert (Bd : in_bounds (n * w) w (zlen buff) = true) by (apply in_bounds_iff; destruct W as [->|[->|[->| ->]]]; lia).
      destruct (one_value T t lo hi w v n buff mask I G1 Sk Bd M) as (err & R). rewrite R. cbn [rbind].
      set (b1 := splice (n * w) (le_bytes (Z.to_nat w) (value t lo hi v)) buff). set (m1 := splice (n * w) (ones w) mask).
      assert (Lw : forall x, zlen (le_bytes (Z.to_nat w) x) = w) by (intros x; rewrite zlen_le_bytes; lia).
      assert (Bd1 : in_bounds (n * w) (zlen (le_bytes (Z.to_nat w) (value t lo hi v))) (zlen buff) = true) by (rewrite Lw; exact Bd).
      assert (Bd2 : in_bounds (n * w) (zlen (ones w)) (zlen mask) = true) by (unfold ones; rewrite Lw, M; exact Bd).
      assert (L1 : zlen b1 = zlen buff) by (apply zlen_splice; exact Bd1). assert (L2 : zlen m1 = zlen buff) by (unfold m1; rewrite zlen_splice by exact Bd2; exact M).
      assert (Bm1 : bytes_ok m1) by (apply bytes_ok_splice; [apply le_bytes_ok | exact Bm]).
      destruct (IH (n + 1) b1 m1 G2 ltac:(lia) ltac:(rewrite L1; replace (n + 1 + zlen vs) with (n + (1 + zlen vs)) by lia; destruct W as [->|[->|[->| ->]]]; lia) ltac:(congruence) Bm1) as (b' & m' & P & L3 & L4 & B & Old & New).
      exists b', m'. split; [exact P|]. split; [congruence|]. split; [congruence|]. split; [exact B|].
      assert (S1 : forall q, 0 <= q < 8 * zlen buff -> bit b1 q = if (8 * (n * w) <=? q) && (q <? 8 * (n * w + w)) then Z.testbit (value t lo hi v) (q - 8 * (n * w)) else bit buff q).
      { intros q Hq. unfold b1. rewrite splice_bit by (assumption || exact Bd1). rewrite Lw. destruct ((_ <=? _) && _) eqn:Q; [|reflexivity]. apply bit_le. rewrite Z2Nat.id by (destruct W as [->|[->|[->| ->]]]; lia). lia. }
      assert (S2 : forall q, 0 <= q < 8 * zlen buff -> bit m1 q = if (8 * (n * w) <=? q) && (q <? 8 * (n * w + w)) then true else bit mask q).
      { intros q Hq. unfold m1. rewrite splice_bit by (exact Bd2 || (rewrite M; exact Hq)). unfold ones. rewrite Lw. destruct ((_ <=? _) && _) eqn:Q; [|reflexivity]. rewrite bit_le by (rewrite Z2Nat.id by (destruct W as [->|[->|[->| ->]]]; lia); lia). apply Z.bits_m1. lia. }
      split.
      * intros q Hq. destruct (Old q ltac:(destruct W as [->|[->|[->| ->]]]; lia)) as [-> ->]. rewrite S1, S2 by (destruct W as [->|[->|[->| ->]]]; lia). replace ((8 * (n * w) <=? q) && (q <? 8 * (n * w + w))) with false by (destruct W as [->|[->|[->| ->]]]; lia). auto.
      * intros k x r Hk Hr. cbv zeta. destruct (Z.eq_dec k 0) as [->|Nk].
        -- rewrite znth_0 in Hk. injection Hk as <-. rewrite Sk. destruct (Old (8 * w * (n + 0) + r) ltac:(destruct W as [->|[->|[->| ->]]]; lia)) as [-> ->]. rewrite S1, S2 by (destruct W as [->|[->|[->| ->]]]; lia).
           replace ((8 * (n * w) <=? 8 * w * (n + 0) + r) && (8 * w * (n + 0) + r <? 8 * (n * w + w))) with true by (destruct W as [->|[->|[->| ->]]]; lia).
           replace (8 * w * (n + 0) + r - 8 * (n * w)) with r by lia. auto.
        -- assert (Hk0 : 0 <= k) by (apply znth_range in Hk; lia). replace k with (k - 1 + 1) in Hk by lia. rewrite znth_S in Hk by lia. assert (Kl := znth_range _ _ _ Hk). 
           specialize (New (k - 1) x r Hk Hr). cbv zeta in New. replace (n + 1 + (k - 1)) with (n + k) in New by lia. destruct New as [-> ->].
           rewrite S1, S2 by (destruct W as [->|[->|[->| ->]]]; lia). replace ((8 * (n * w) <=? 8 * w * (n + k) + r) && (8 * w * (n + k) + r <? 8 * (n * w + w))) with false by (destruct W as [->|[->|[->| ->]]]; lia). auto.
Qed.
Lemma bits_zero n q : bit (zeros n) q = false.
Proof. unfold bit, nthb, zeros. destruct (Nat.lt_ge_cases (Z.to_nat (q / 8)) (Z.to_nat n)) as [L|L]; [rewrite nth_repeat | rewrite nth_overflow by (rewrite repeat_length; exact L)]; apply Z.bits_0. Qed.
Lemma zeros_ok n : bytes_ok (zeros n).
Proof. unfold bytes_ok, zeros. apply Forall_forall. intros x I. apply repeat_spec in I. subst. lia. Qed.
Lemma znth_existsb {A} (f : A -> bool) l k x : existsb f l = false -> znth l k = Some x -> f x = false.
Proof. intros H K. apply znth_In in K. destruct (f x) eqn:Q; [|reflexivity]. assert (existsb f l = true) by (apply existsb_exists; eauto). congruence. Qed.
(** FULL STATEMENT (false, see below): WRITE stores the values given, one after another from the place named on, leaves the elements
    whose value is ~, and everything else, as they are.  What holds: so it is for integer types, if the command reports no error. *)
Theorem C154_values_partial : forall E T db cc fd s nm vs h lo hi w b cc1 cc' s',
  reachable E s -> stored s (h_index h) b -> no_mapping s (h_index h) -> zlen b < 2147483648 -> inside h b ->
  int_type (h_type h) lo hi w -> h_count h = zlen vs -> h_size h = w * zlen vs -> vs <> [] -> Forall (good_text (h_type h)) vs -> has_quote (hd [] vs) = false ->
  tag_handle (s_types s) db cc nm (zlen vs) = Done (cc1, inl h) -> tag_write_cmd E T db cc fd s (nm :: vs) = Done (cc', s', 0) ->
  only_data s s' (h_index h) /\ exists b', stored s' (h_index h) b' /\ zlen b' = zlen b /\
    (forall k v r, znth vs k = Some v -> 0 <= r < 8 * w -> let q := 8 * (h_byte h + w * k) + r in
       bit b' q = if skips v then bit b q else Z.testbit (value (h_type h) lo hi v) r) /\
    (forall q, 0 <= q < 8 * zlen b -> q < 8 * h_byte h \/ 8 * (h_byte h + h_size h) <= q -> bit b' q = bit b q).
Proof.
  intros E T db cc fd s nm vs h lo hi w b cc1 cc' s' R St Nm Hz In I C Z N G Q Th H. assert (W := width_cases _ _ _ _ I). assert (Lv := zlen_nonneg vs).
  destruct vs as [|v r]; [congruence|]. cbn [hd] in Q. unfold tag_write_cmd in H. rewrite Q, Th in H. cbn [rbind] in H. cbv beta iota zeta in H.
  rewrite C in H. replace (firstn (Z.to_nat (zlen (v :: r))) (v :: r)) with (v :: r) in H by (unfold zlen; rewrite Nat2Z.id, firstn_all; reflexivity). set (vs := v :: r) in *.
  assert (Lz : zlen (zeros (h_size h)) = h_size h) by (apply zlen_zeros; destruct In as (_ & ? & _); assumption).
  destruct (put_values_bits T (h_type h) lo hi w I vs 0 (zeros (h_size h)) (zeros (h_size h)) G ltac:(lia) ltac:(rewrite Lz, Z; lia) eq_refl (zeros_ok _)) as (bu & ma & P & L1 & L2 & Bm & _ & New).
  rewrite P in H. cbn [rbind] in H. cbv beta iota zeta in H. rewrite Lz in L1, L2.
  assert (Nb : (h_type h =? T_BOOL) = false) by (destruct I; reflexivity). rewrite Nb in H. cbn [orb] in H. assert (Nb' : h_type h <> T_BOOL) by lia. destruct In as (I1 & I2 & I3).
  destruct (existsb skips vs) eqn:Sk.
  - apply rbind_done in H as ((s1 & e) & H1 & H). unfold given in H. cbn [fst snd] in H. assert (s1 = s') by congruence. assert (e = 0) by congruence. subst s1 e. clear H.
    destruct (C48_mask_partial _ _ _ _ _ _ _ b _ R St Nm Bm Hz (conj I1 (conj I2 I3)) (or_introl Nb') H1) as (O & b' & S1 & Lb & M). split; [exact O|]. exists b'. split; [exact S1|]. split; [exact Lb|]. split.
    + intros k x j Hk Hj. cbv zeta. assert (Kr := znth_range _ _ _ Hk). destruct (New k x j Hk Hj) as (N1 & N2). cbn [Z.add] in N1, N2. rewrite bits_zero in N1, N2.
      rewrite M by (destruct W as [->|[->|[->| ->]]]; lia). replace (8 * (h_byte h + w * k) + j - 8 * h_byte h) with (8 * w * k + j) by lia.
      replace ((8 * h_byte h <=? 8 * (h_byte h + w * k) + j) && (8 * (h_byte h + w * k) + j <? 8 * (h_byte h + h_size h))) with true by (destruct W as [->|[->|[->| ->]]]; lia). cbn [andb].
      rewrite N1, N2. destruct (skips x); reflexivity.
    + intros q Hq Ho. rewrite M by exact Hq. replace ((8 * h_byte h <=? q) && (q <? 8 * (h_byte h + h_size h))) with false by lia. reflexivity.
  - apply rbind_done in H as ((s1 & e) & H1 & H). unfold given in H. cbn [fst snd] in H. assert (s1 = s') by congruence. assert (e = 0) by congruence. subst s1 e. clear H.
    destruct (C45_write _ _ _ _ _ _ b _ R St Nm Hz (conj I1 (conj I2 I3)) (or_introl Nb') H1) as (_ & O & S1). split; [exact O|].
    replace (slice 0 (h_size h) bu) with bu in S1 by (rewrite <- L1, slice_full; reflexivity). assert (Bd : in_bounds (h_byte h) (zlen bu) (zlen b) = true) by (apply in_bounds_iff; lia).
    exists (splice (h_byte h) bu b). split; [exact S1|]. split; [apply zlen_splice; exact Bd|]. split.
    + intros k x j Hk Hj. cbv zeta. assert (Kr := znth_range _ _ _ Hk). destruct (New k x j Hk Hj) as (N1 & _). cbn [Z.add] in N1. rewrite (znth_existsb _ _ _ _ Sk Hk) in N1 |- *.
      rewrite splice_bit by (exact Bd || (destruct W as [->|[->|[->| ->]]]; lia)). replace ((8 * h_byte h <=? 8 * (h_byte h + w * k) + j) && (8 * (h_byte h + w * k) + j <? 8 * (h_byte h + zlen bu))) with true by (rewrite L1; destruct W as [->|[->|[->| ->]]]; lia).
      replace (8 * (h_byte h + w * k) + j - 8 * h_byte h) with (8 * w * k + j) by lia. exact N1.
    + intros q Hq Ho. rewrite splice_bit by (exact Bd || exact Hq). replace ((8 * h_byte h <=? q) && (q <? 8 * (h_byte h + zlen bu))) with false by lia. reflexivity.
Qed.
(** a text in quotes fills the whole tag, cut or filled up with zeros *)
Theorem C154_text : forall E T db cc fd s nm v rest h b cc1 cc' s',
  reachable E s -> stored s (h_index h) b -> no_mapping s (h_index h) -> zlen b < 2147483648 -> inside h b -> h_type h <> T_BOOL -> v <> [] ->
  tag_handle (s_types s) db cc nm 0 = Done (cc1, inl h) -> tag_write_cmd E T db cc fd s (nm :: ([34] ++ v ++ [34]) :: rest) = Done (cc', s', 0) ->
  only_data s s' (h_index h) /\ exists d, stored s' (h_index h) (splice (h_byte h) d b) /\ zlen d = h_size h /\ forall k, 0 <= k < h_size h -> nthb d k = if k <? zlen v then nthb v k else 0.
Proof.
  intros E T db cc fd s nm v rest h b cc1 cc' s' R St Nm Hz (I1 & I2 & I3) Nb N Th H. unfold tag_write_cmd in H. cbn [app has_quote existsb Z.eqb Pos.eqb orb] in H.
  replace (unquote (34 :: v ++ [34])) with (v, zlen v) in H.
  2: { unfold unquote. cbv zeta. rewrite zlen_app. change (zlen [34]) with 1. assert (Lv := zlen_nonneg v). replace (zlen v + 1 =? 0) with false by lia. rewrite last_last, removelast_last. cbn [Z.eqb Pos.eqb]. f_equal. lia. }
  assert (Lv : 0 < zlen v) by (destruct v; [congruence|]; rewrite zlen_cons; assert (X := zlen_nonneg v); lia).
  replace (zlen v <=? 0) with false in H by lia. rewrite Th in H. cbn [rbind] in H. cbv beta iota zeta in H. destruct (negb _); [assert (E_ARG = 0) by congruence; discriminate|].
  apply rbind_done in H as ((s1 & e) & H1 & H). unfold given in H. cbn [fst snd] in H. assert (s1 = s') by congruence. assert (e = 0) by congruence. subst s1 e. clear H.
  destruct (C45_write _ _ _ _ _ _ b _ R St Nm Hz (conj I1 (conj I2 I3)) (or_introl Nb) H1) as (_ & O & S1). split; [exact O|].
  set (d := text_buffer h v) in *. assert (Ld : zlen d = h_size h). { unfold d, text_buffer. rewrite zlen_firstn, zlen_app, zlen_zeros by lia. lia. }
  replace (slice 0 (h_size h) d) with d in S1 by (rewrite <- Ld, slice_full; reflexivity). exists d. split; [exact S1|]. split; [exact Ld|].
  intros k Hk. apply nthb_znth. unfold d, text_buffer. rewrite znth_firstn by lia. destruct (k <? zlen v) eqn:Q; [rewrite znth_app1 by lia; apply znth_nthb; lia|]. rewrite znth_app2 by lia. rewrite (znth_nthb (zeros (h_size h))) by (rewrite zlen_zeros; lia). f_equal.
  unfold nthb, zeros. apply nth_repeat.
Qed.
(** the tags of the example server as the library knows them *)
Definition ex_db (n : name) : option ctag :=
  if name_eqb n (str "foo") then Some (mk_ct n 13 T_DINT 10 0) else if name_eqb n (str "bar") then Some (mk_ct n 14 T_BOOL 12 0) else if name_eqb n (str "baz") then Some (mk_ct n 15 T_INT 4 0) else None.
(** REFUTED for single bits: ~ does not leave a BOOL as it is *)
Theorem C154_skip_refuted : exists s cc' s', reachable env0 s /\ stored s 14 [2; 0] /\ tag_write_cmd env0 te0 ex_db [] 5 s [str "bar"; str "1"; str "~"; str "1"] = Done (cc', s', 0) /\ stored s' 14 [5; 0].
Proof.
  exists (after_ops env0 (demo_ops ++ [OpWrite 5 14 0 [2]])). do 2 eexists. split; [apply after_reachable; vm_compute; reflexivity|].
  split; [eexists; (split; [vm_compute; reflexivity|]; split; vm_compute; reflexivity)|]. split; [vm_compute; reflexivity|]. eexists; (split; [vm_compute; reflexivity|]; split; vm_compute; reflexivity).
Qed.
(** REFUTED: a value written to a tag of a compound type sets it to zeros *)
Definition pair_ops := demo_ops ++ [OpCdtCreate 5 (str "Pair:a,INT,1:b,INT,1"); OpTagAdd 5 (str "pair") (cdt_type 2) 1 0; OpWrite 5 16 0 [1; 2; 3; 4]].
Definition pair_db (n : name) : option ctag := if name_eqb n (str "pair") then Some (mk_ct n 16 (cdt_type 2) 1 0) else None.
Theorem C154_compound_refuted : exists s cc' s', reachable env0 s /\ stored s 16 [1; 2; 3; 4] /\ tag_write_cmd env0 te0 pair_db [] 5 s [str "pair"; str "5"] = Done (cc', s', 0) /\ stored s' 16 [0; 0; 0; 0].
Proof.
  exists (after_ops env0 pair_ops). do 2 eexists. split; [apply after_reachable; vm_compute; reflexivity|].
  split; [eexists; (split; [vm_compute; reflexivity|]; split; vm_compute; reflexivity)|]. split; [vm_compute; reflexivity|]. eexists; (split; [vm_compute; reflexivity|]; split; vm_compute; reflexivity).
Qed.
Example C154_ex : exists cc1 cc' s' cc2 s2, let h := mk_h 15 2 0 3 6 T_INT in let vs := [str "-7"; str "~"; str "0x10"] in
  tag_handle (s_types demo) ex_db [] (str "baz[1]") 3 = Done (cc1, inl h) /\ Forall (good_text T_INT) vs /\ tag_write_cmd env0 te0 ex_db [] 5 demo (str "baz[1]" :: vs) = Done (cc', s', 0) /\
  stored s' 15 [0; 0; 249; 255; 0; 0; 16; 0] /\ tag_write_cmd env0 te0 ex_db [] 5 demo [str "baz"; str "99999"] = Done (cc2, s2, 0) /\ stored s2 15 [255; 127; 0; 0; 0; 0; 0; 0].
Proof.
  do 5 eexists. cbv zeta. split; [vm_compute; reflexivity|]. split.
  { constructor; [|constructor; [|constructor; [|constructor]]]; (split; [vm_compute; intuition discriminate|]); try (left; reflexivity); right; (split; [|split; [vm_compute; intuition discriminate | discriminate]]); unfold plain; vm_compute; intuition discriminate. }
  split; [vm_compute; reflexivity|]. split; [eexists; (split; [vm_compute; reflexivity|]; split; vm_compute; reflexivity)|]. split; [vm_compute; reflexivity|]. eexists; (split; [vm_compute; reflexivity|]; split; vm_compute; reflexivity).
Qed.

(** ** C155 *)
Definition operations : list (name * Z) := [(str "inc", 1); (str "dec", 2); (str "not", 3); (str "or", 4); (str "and", 5); (str "nor", 6); (str "nand", 7); (str "xor", 8)].
Lemma op_found o w n : In (w, n) operations -> case_eqb o w = true -> op_number o = n /\ skips o = false.
Proof.
  intros I C. assert (X : map lower o = map lower w) by (apply name_eqb_eq; exact C).
  assert (S : forall k b, starts k o b = starts k w b) by (intros k b; unfold starts, case_eqb; rewrite <- !firstn_map, X; reflexivity).
  split; [unfold op_number; rewrite !S; clear - I; cbn [In operations] in I; repeat (destruct I as [I|I]; [injection I as <- <-; reflexivity|]); destruct I|].
  destruct o as [|c o]; [reflexivity|]. unfold skips. destruct (Z.eq_dec c 126) as [->|Nc].
  - exfalso. clear S C. cbn [In operations] in I. repeat (destruct I as [I|I]; [injection I as <- <-; discriminate X|]). destruct I.
  - lia.
Qed.
Lemma operands_values T t : forall vs o n b m, skips o = false -> existsb skips vs = false -> put_operands T t o vs n b m = put_values T t vs n b m.
Proof.
  induction vs as [|v vs IH]; intros o n b m S X; [reflexivity|]. cbn [existsb] in X. apply orb_false_iff in X as [X1 X2]. cbn [put_operands put_values]. rewrite S, X1.
  destruct (string_to_val _ _ _ _ _ _) as [[[b1 [m1|]] e]|u]; cbn [rbind]; try reflexivity. apply IH; assumption.
Qed.
(** FULL STATEMENT (false, see below): OP performs the operation named on the elements from the place named on, each with its value.
    What holds: with a value for each, the library is asked for that operation with exactly these values. *)
Theorem C155_values_partial : forall E T db cc fd s nm o wd n vs h lo hi w cc1, In (wd, n) operations -> case_eqb o wd = true ->
  int_type (h_type h) lo hi w -> h_count h = zlen vs -> h_size h = w * zlen vs -> vs <> [] -> Forall (good_text (h_type h)) vs -> existsb skips vs = false ->
  tag_handle (s_types s) db cc nm (zlen vs) = Done (cc1, inl h) ->
  exists d, zlen d = h_size h /\ (forall k v r, znth vs k = Some v -> 0 <= r < 8 * w -> bit d (8 * (w * k) + r) = Z.testbit (value (h_type h) lo hi v) r) /\
    atomic_op_cmd E T db cc fd s (nm :: o :: vs) = (z <-- dax_atomic_op E fd s h d n ;; Done (cc1, fst z, snd z)).
Proof.
  intros E T db cc fd s nm o wd n vs h lo hi w cc1 Io Co I C Z N G Sk Th. destruct (op_found _ _ _ Io Co) as (On & Os). assert (W := width_cases _ _ _ _ I). assert (Lv := zlen_nonneg vs).
  assert (Hs : 0 <= h_size h) by (destruct W as [->|[->|[->| ->]]]; lia). assert (Lz : zlen (zeros (h_size h)) = h_size h) by (apply zlen_zeros; exact Hs).
  destruct (put_values_bits T (h_type h) lo hi w I vs 0 (zeros (h_size h)) (zeros (h_size h)) G ltac:(lia) ltac:(rewrite Lz, Z; lia) eq_refl (zeros_ok _)) as (bu & ma & P & L1 & L2 & Bm & _ & New).
  exists bu. split; [congruence|]. split.
  { intros k v r Hk Hr. destruct (New k v r Hk Hr) as (N1 & _). cbn [Z.add] in N1. rewrite (znth_existsb _ _ _ _ Sk Hk) in N1. replace (8 * (w * k) + r) with (8 * w * k + r) by lia. exact N1. }
  unfold atomic_op_cmd. rewrite Th. cbn [rbind]. cbv beta iota zeta. rewrite On. assert (n <> 0) by (clear - Io; cbn [In operations] in Io; repeat (destruct Io as [Io|Io]; [injection Io as <- <-; discriminate|]); destruct Io). replace (n =? 0) with false by lia.
  destruct vs as [|v r]; [congruence|]. rewrite C. replace (firstn (Z.to_nat (zlen (v :: r))) (v :: r)) with (v :: r) by (unfold zlen; rewrite Nat2Z.id, firstn_all; reflexivity).
  rewrite operands_values by assumption. rewrite P. cbn [rbind fst]. reflexivity.
Qed.
(** REFUTED: without a value INC and DEC report success and do nothing *)
Theorem C155_inc_refuted : forall E T db cc fd s nm o h cc1, case_eqb o (str "inc") = true \/ case_eqb o (str "dec") = true ->
  In (h_type h) [T_BYTE; T_SINT; T_CHAR; T_UINT; T_WORD; T_INT; T_UDINT; T_DWORD; T_TIME; T_DINT; T_ULINT; T_LWORD; T_LINT; T_REAL; T_LREAL] ->
  tag_handle (s_types s) db cc nm 0 = Done (cc1, inl h) -> atomic_op_cmd E T db cc fd s [nm; o] = Done (cc1, s, 0).
Proof.
  intros E T db cc fd s nm o h cc1 Ho I Th. unfold atomic_op_cmd. change (zlen (@nil name)) with 0. rewrite Th. cbn [rbind]. cbv beta iota zeta.
  assert (On : op_number o = 1 \/ op_number o = 2) by (destruct Ho as [Ho|Ho]; [left; apply (op_found o (str "inc") 1) | right; apply (op_found o (str "dec") 2)]; try exact Ho; cbn; tauto).
  replace (existsb (Z.eqb (h_type h)) op_types) with true by (symmetry; apply existsb_exists; exists (h_type h); split; [exact I | apply Z.eqb_refl]).
  destruct On as [-> | ->]; reflexivity.
Qed.
(** REFUTED: XNOR is done as XOR *)
Theorem C155_xnor_refuted : exists s cc' s', reachable env0 s /\ stored s 15 [12; 0; 0; 0; 0; 0; 0; 0] /\ atomic_op_cmd env0 te0 ex_db [] 6 s [str "baz"; str "xnor"; str "10"] = Done (cc', s', 0) /\ stored s' 15 [6; 0; 0; 0; 0; 0; 0; 0].
Proof.
  exists (after_ops env0 (demo_ops ++ [OpWrite 6 15 0 [12]])). do 2 eexists. split; [apply after_reachable; vm_compute; reflexivity|].
  split; [eexists; (split; [vm_compute; reflexivity|]; split; vm_compute; reflexivity)|]. split; [vm_compute; reflexivity|]. eexists; (split; [vm_compute; reflexivity|]; split; vm_compute; reflexivity).
Qed.
Example C155_ex : exists cc' s', In (str "or", 4) operations /\ atomic_op_cmd env0 te0 ex_db [] 5 demo [str "foo"; str "OR"; str "0x0201"] = Done (cc', s', 0) /\ exists b, stored s' 13 b /\ slice 0 8 b = [1; 2; 0; 0; 1; 2; 3; 4].
Proof.
  do 2 eexists. split; [cbn; tauto|]. split; [vm_compute; reflexivity|]. eexists. split; [eexists; (split; [vm_compute; reflexivity|]; split; vm_compute; reflexivity)|]. vm_compute. reflexivity.
Qed.

(** ** C156 *)
Lemma not_digit nm : validate_name nm = 0 -> isdigit (nthb nm 0) = false.
Proof.
  unfold validate_name. destruct (TAGNAME_SIZE <? zlen nm); [discriminate|]. destruct nm as [|c r]; [discriminate|]. destruct (negb (isalpha c) && negb (c =? 95)) eqn:Q; [discriminate|]. intros _.
  change (nthb (c :: r) 0) with c. unfold isdigit, isalpha in *. lia.
Qed.
(** FULL STATEMENT (false, see below): DEL TAG and the commands for overrides do what they say to the tag named, and report a tag that
    does not exist.  What holds: DEL TAG with the name of a tag deletes it and no other, or reports an error *)
Theorem C156_deleted : forall E fd s i nm t rest s1 e,
  reachable E s -> zlen (s_db s) < 2147483648 -> named s i nm t -> tag_del_cmd E fd s (nm :: rest) = Done (s1, e) ->
  (e <> 0 /\ s_db s1 = s_db s) \/ (e = 0 /\ forall j n, (exists t', named s1 j n t') <-> ((exists t', named s j n t') /\ j <> i)).
Proof.
  intros E fd s i nm t rest s1 r R Z N H. assert (I := reachable_Inv _ _ R). assert (N' := N). destruct N' as [N1 N2].
  assert (V := it_name _ _ (iv_tags _ I _ _ N1) _ N2). assert (Ln := validate_len _ V). assert (Ri := znth_range _ _ _ N1).
  unfold tag_del_cmd in H. rewrite (not_digit _ V) in H. replace (32 <? zlen nm) with false in H by (unfold zlen in *; lia). replace (zlen nm =? 0) with false in H by (unfold zlen in *; lia).
  unfold ask in H. rewrite (C01_lookup_live _ _ fd _ _ _ R N) in H. cbn [rbind] in H.
  set (s0 := after s [OResp fd MSG_TAG_GET (info_bytes (i, t_type t, t_count t, t_attr t, nm))]) in *.
  assert (R0 : reachable E s0) by (eapply reachable_step; [exact R|]; apply C01_lookup_live; eassumption).
  unfold s0 in H at 1. unfold after in H at 1. cbn [set_out s_out set_step] in H. rewrite rev_app_distr in H. cbn [rev app] in H. cbv beta iota zeta in H.
  assert (X : s32 (le_val (slice 0 4 (info_bytes (i, t_type t, t_count t, t_attr t, nm)))) = i) by (unfold info_bytes; rewrite Prop_Wire.slice_app1 by apply zlen_le_bytes; apply Prop_LuaApi.s32_id; lia).
  rewrite X in H. destruct (step E s0 (OpTagDel fd i)) as [s2|] eqn:St; [|discriminate]. cbn [rbind] in H.
  destruct (C01_del _ _ _ _ _ R0 St) as [(code & Hc & ->) | (A & _ & K)].
  - left. unfold after in H. cbn [set_out s_out set_step] in H. rewrite rev_app_distr in H. cbn [rev app] in H. injection H as <- <-. split; [lia | reflexivity].
  - right. destruct (answered_last _ _ _ A) as (l & Hl). rewrite Hl in H. injection H as <- <-. split; [reflexivity|]. exact K.
Qed.
(** the name of no tag is reported and nothing is changed *)
Theorem C156_absent : forall E fd s nm rest, en_strict E = false -> reachable E s -> 1 <= zlen nm <= 32 -> isdigit (nthb nm 0) = false -> ~ exists_tag s nm ->
  exists s1, tag_del_cmd E fd s (nm :: rest) = Done (s1, E_NOTFOUND) /\ s_db s1 = s_db s.
Proof.
  intros E fd s nm rest NS R L D A. eexists. unfold tag_del_cmd. rewrite D. replace (32 <? zlen nm) with false by lia. replace (zlen nm =? 0) with false by lia. unfold ask at 1.
  rewrite C01_lookup_absent, NS by assumption. cbn [rbind]. unfold after. cbn [set_out s_out set_step]. rewrite rev_app_distr. cbn [rev app]. cbv beta iota zeta. split; [reflexivity|]. reflexivity.
Qed.
(** REFUTED: DEL TAG without a name reads through NULL, and with a name of more than 32 characters goes on with a structure never set *)
Theorem C156_none_refuted : forall E fd s, tag_del_cmd E fd s [] = Undef UNull.
Proof. reflexivity. Qed.
Theorem C156_long_refuted : forall E fd s nm rest, 32 < zlen nm -> isdigit (nthb nm 0) = false -> tag_del_cmd E fd s (nm :: rest) = Undef UUninit.
Proof. intros E fd s nm rest L D. unfold tag_del_cmd. rewrite D. replace (32 <? zlen nm) with true by lia. reflexivity. Qed.
(** REFUTED: the commands SET, CLEAR and DEL for an override of a tag that does not exist use a handle never set *)
Theorem C156_unknown_refuted : forall E db cc fd s nm rest cc1 e, tag_handle (s_types s) db cc nm 0 = Done (cc1, inr e) ->
  override_set_cmd E db cc fd s (nm :: rest) = Undef UUninit /\ override_clr_cmd E db cc fd s (nm :: rest) = Undef UUninit /\ override_del_cmd E db cc fd s (nm :: rest) = Undef UUninit.
Proof. intros E db cc fd s nm rest cc1 e H. unfold override_set_cmd, override_clr_cmd, override_del_cmd, override_cmd. rewrite H. auto. Qed.
(** ADD and SET: for integer types the values given are read in place of the tag's own, which are kept; after CLEAR they are read again *)
Theorem C156_override_partial : forall E T db cc fd s nm vs h h2 lo hi w b cc1 cc2 cc3 s1 s2 e rest,
  reachable E s -> 9 <= h_index h -> stored s (h_index h) b -> zlen b < 2147483648 ->
  (forall t, znth (s_db s) (h_index h) = Some t -> t_type t <> T_BOOL /\ t_odata t = None) ->
  int_type (h_type h) lo hi w -> 0 <= h_byte h < 2147483648 -> h_count h = zlen vs -> h_size h = w * zlen vs -> h_size h < 2147483648 -> vs <> [] ->
  Forall (good_text (h_type h)) vs -> existsb skips vs = false -> has_quote (hd [] vs) = false ->
  tag_handle (s_types s) db cc nm (zlen vs) = Done (cc1, inl h) -> override_add_cmd E T db cc fd s (nm :: vs) = Done (cc2, s1, 0) ->
  tag_handle (s_types s1) db cc2 nm 0 = Done (cc3, inl h2) -> h_index h2 = h_index h -> override_set_cmd E db cc2 fd s1 (nm :: rest) = Done (cc3, s2, e) ->
  e = 0 /\ stored s2 (h_index h) b /\
  (forall rfd, exists r, step E s2 (OpRead rfd (h_index h) (h_byte h) (h_size h)) = Done (after s2 [OResp rfd MSG_TAG_READ r]) /\ zlen r = h_size h /\
     forall k v q, znth vs k = Some v -> 0 <= q < 8 * w -> bit r (8 * w * k + q) = Z.testbit (value (h_type h) lo hi v) q) /\
  forall cc4 cc5 h3 s3 e3 rest3, tag_handle (s_types s2) db cc4 nm 0 = Done (cc5, inl h3) -> h_index h3 = h_index h -> override_clr_cmd E db cc4 fd s2 (nm :: rest3) = Done (cc5, s3, e3) ->
    e3 = 0 /\ forall rfd, step E s3 (OpRead rfd (h_index h) (h_byte h) (h_size h)) = Done (after s3 [OResp rfd MSG_TAG_READ (slice (h_byte h) (h_size h) b)]).
Proof.
  intros E T db cc fd s nm vs h h2 lo hi w b cc1 cc2 cc3 s1 s2 e rest R Hi St Hb Nt I By C Z Sz N G Sk Q Th HA Th2 Eh HS. assert (W := width_cases _ _ _ _ I). assert (Lv := zlen_nonneg vs).
  assert (Nb : (h_type h =? T_BOOL) = false) by (destruct I; reflexivity). assert (Hs : 0 <= h_size h) by (destruct W as [->|[->|[->| ->]]]; lia).
  assert (Lz : zlen (zeros (h_size h)) = h_size h) by (apply zlen_zeros; exact Hs).
  destruct (put_values_bits T (h_type h) lo hi w I vs 0 (zeros (h_size h)) (zeros (h_size h)) G ltac:(lia) ltac:(rewrite Lz, Z; lia) eq_refl (zeros_ok _)) as (bu & ma & P & L1 & L2 & Bm & _ & New). rewrite Lz in L1.
  destruct vs as [|v0 r0]; [congruence|]. cbn [hd] in Q. unfold override_add_cmd in HA. rewrite Q, Th in HA. cbn [rbind] in HA. cbv beta iota zeta in HA.
  rewrite C in HA. replace (firstn (Z.to_nat (zlen (v0 :: r0))) (v0 :: r0)) with (v0 :: r0) in HA by (unfold zlen; rewrite Nat2Z.id, firstn_all; reflexivity). set (vs := v0 :: r0) in *.
  rewrite P in HA. cbn [rbind fst] in HA. apply rbind_done in HA as ((sa & ea) & HA & HA'). unfold given in HA'. cbn [fst snd] in HA'. assert (sa = s1) by congruence. assert (ea = 0) by congruence. subst sa ea. clear HA'.
  unfold override_set_cmd, override_cmd in HS. rewrite Th2 in HS. cbn [rbind] in HS. cbv beta iota zeta in HS. apply rbind_done in HS as ((sb & eb) & HS & HS'). unfold given in HS'. cbn [fst snd] in HS'. assert (sb = s2) by congruence. assert (eb = e) by congruence. subst sb eb. clear HS'.
  assert (Sw : forall s h' on, h_index h' = h_index h -> dax_switch_override E fd s h' on = dax_switch_override E fd s h on) by (intros ? ? ? X; unfold dax_switch_override; rewrite X; reflexivity).
  rewrite Sw in HS by exact Eh.
  assert (Os : ovr_size h = h_size h) by (unfold ovr_size, bits_path; rewrite Nb; reflexivity).
  assert (Ok : slice_ok h) by (split; [lia|]; split; [exact By|]; intros; lia). assert (En : enough h bu) by (unfold enough; rewrite Nb; lia).
  destruct (C123_seen_partial _ _ _ _ _ _ _ _ _ R Hi St Hb Ok En Nt HA HS) as (K1 & K2 & K3 & K4 & K5). rewrite Os in *. split; [exact K1|]. split; [exact K2|]. split.
  - intros rfd. destruct (K4 rfd) as (r & S1 & Lr & B). exists r. split; [exact S1|]. split; [exact Lr|]. intros k v q Hk Hq. assert (Kr := znth_range _ _ _ Hk).
    rewrite B by (destruct W as [->|[->|[->| ->]]]; lia). unfold covered, first. rewrite Nb. replace ((0 <=? 8 * w * k + q) && (8 * w * k + q <? 8 * h_size h)) with true by (destruct W as [->|[->|[->| ->]]]; lia).
    destruct (New k v q Hk Hq) as (N1 & _). cbn [Z.add] in N1. rewrite (znth_existsb _ _ _ _ Sk Hk) in N1. replace (8 * w * k + q - 0) with (8 * w * k + q) by lia. exact N1.
  - intros cc4 cc5 h3 s3 e3 rest3 Th3 Eh3 HC. unfold override_clr_cmd, override_cmd in HC. rewrite Th3 in HC. cbn [rbind] in HC. cbv beta iota zeta in HC. apply rbind_done in HC as ((sc & ec) & HC & HC'). unfold given in HC'. cbn [fst snd] in HC'. assert (sc = s3) by congruence. assert (ec = e3) by congruence. subst sc ec.
    rewrite Sw in HC by exact Eh3. exact (K5 _ _ HC).
Qed.
Example C156_ex : (exists t s1, named demo 13 (str "foo") t /\ tag_del_cmd env0 5 demo [str "foo"] = Done (s1, 0)) /\
  (exists s1, tag_del_cmd env0 5 demo [str "nosuch"] = Done (s1, E_NOTFOUND)) /\
  exists cc1 s1 cc2 s2 o, override_add_cmd env0 te0 ex_db [] 5 demo [str "foo[1]"; str "258"; str "7"] = Done (cc1, s1, 0) /\
    override_set_cmd env0 ex_db cc1 5 s1 [str "foo[1]"] = Done (cc2, s2, 0) /\ step env0 s2 (OpRead 6 13 4 8) = Done (after s2 o) /\ o = [OResp 6 MSG_TAG_READ [2; 1; 0; 0; 7; 0; 0; 0]].
Proof.
  split; [eexists; eexists; split; [split; vm_compute; reflexivity|]; vm_compute; reflexivity|]. split; [eexists; vm_compute; reflexivity|].
  do 5 eexists. split; [vm_compute; reflexivity|]. split; [vm_compute; reflexivity|]. split; [|reflexivity]. vm_compute. reflexivity.
Qed.
