(** * The functions of a Lua script, end to end: C125-C128 *)
From Verif Require Import LuaConv LuaConvProofs Prop_LuaConv.
From Verif Require Import Base Const Types State Events Atomic Server Lib SearchProofs Shape Inv Reach Spec Frame Effects Out DataFrame
  Demo Prop_Tags Prop_Data Prop_Atomic Prop_Override ClientTypes ClientData Prop_ClientData Prop_Wire ClientOvr Prop_ClientOvr LuaApi LuaApiProofs.

(** ** what a successful write stores *)
Lemma all_ones_bit n m k : zlen m = n -> forallb (fun b => b =? 255) (slice 0 n m) = true -> 0 <= k < 8 * n -> bit m k = true.
Proof.
  intros L F K. rewrite <- L in F. rewrite slice_full in F. rewrite forallb_forall in F.
  destruct (znth_some m (k / 8)) as [x Hx]; [lia|]. assert (X := F x (znth_In _ _ _ Hx)). assert (x = 255) by lia. subst x.
  rewrite <- (bit_ones n k) by exact K. unfold bit. rewrite (nthb_znth _ _ _ Hx).
  destruct (znth_some (repeat 255 (Z.to_nat n)) (k / 8)) as [y Hy]; [rewrite zlen_repeat; lia|].
  rewrite (nthb_znth _ _ _ Hy). apply znth_In, repeat_spec in Hy. subst y. reflexivity.
Qed.
Definition aligned (h : handle) : Prop := h_type h <> T_BOOL \/ (h_bit h = 0 /\ h_count h mod 8 = 0).
Lemma good_start h junk v : 0 <= h_size h -> lbytes v -> bytes_ok junk -> zlen junk = h_size h ->
  good (h_size h) {| w_stk := [v]; w_data := junk; w_mask := zeros (h_size h) |}.
Proof. intros Z0 V J L. constructor; cbn [w_stk w_data w_mask]; [repeat constructor; exact V|exact J|apply bytes_ok_zeros|exact L|apply zlen_zeros; exact Z0]. Qed.
Lemma lua_write_masked E L cc fd s h ty junk v b s1 :
  reachable E s -> stored s (h_index h) b -> bytes_ok b -> no_mapping s (h_index h) -> zlen b < 2147483648 -> inside h b -> aligned h ->
  lbytes v -> bytes_ok junk -> zlen junk = h_size h ->
  lua_tag_write E L cc fd s h ty junk v = Done (s1, LOk LNil) ->
  exists w b', lua_value L h ty junk v = Done (0, w) /\ good (h_size h) w /\ reachable E s1 /\ only_data s s1 (h_index h) /\
    stored s1 (h_index h) b' /\ bytes_ok b' /\ zlen b' = zlen b /\
    forall k, 0 <= k < 8 * zlen b -> bit b' k =
      if (8 * h_byte h <=? k) && (k <? 8 * (h_byte h + h_size h)) && bit (w_mask w) (k - 8 * h_byte h) then bit (w_data w) (k - 8 * h_byte h) else bit b k.
Proof.
  intros R S B N Hz I T V J Lj H. assert (I' := I). destruct I' as (I1 & I2 & I3). unfold lua_tag_write in H.
  apply rbind_done in H as ((e & w) & HV & H). cbv beta iota zeta in H. destruct (e =? 0) eqn:Qe; cbn [negb] in H; [|congruence]. assert (e = 0) by lia. subst e.
  assert (G := good_lua_to_dax _ _ _ _ _ _ _ (good_start h junk v I2 V J Lj) HV). exists w.
  apply rbind_done in H as ((s2 & e2) & HW & H). cbv beta iota zeta in H. destruct (e2 =? 0) eqn:Q2; [|congruence]. assert (e2 = 0) by lia. subst e2.
  injection H as ->. assert (P : holds_bytes E (h_index h) s) by (split; [exact R|]; split; [exact N|]; eauto).
  destruct G as [G1 G2 G3 G4 G5].
  destruct (forallb _ _) eqn:F.
  - destruct (tag_write_keeps _ _ _ _ _ _ _ _ P G2 HW) as (R1 & N1 & b1 & S1 & B1).
    destruct (C45_write _ _ _ _ _ _ _ _ R S N Hz I T HW) as (Hd & O1 & S1'). assert (X := stored_fun _ _ _ _ S1 S1'). subst b1.
    assert (Ls : zlen (slice 0 (h_size h) (w_data w)) = h_size h) by (apply zlen_slice, in_bounds_iff; lia).
    assert (Bd : in_bounds (h_byte h) (zlen (slice 0 (h_size h) (w_data w))) (zlen b) = true) by (apply in_bounds_iff; lia).
    eexists. split; [exact HV|]. split; [constructor; assumption|]. split; [exact R1|]. split; [exact O1|]. split; [exact S1|]. split; [exact B1|].
    split; [apply zlen_splice; exact Bd|]. intros k Hk. rewrite (splice_bit _ _ _ _ Bd Hk), Ls.
    destruct ((8 * h_byte h <=? k) && (k <? 8 * (h_byte h + h_size h))) eqn:Q; cbn [andb]; [|reflexivity].
    rewrite (all_ones_bit (h_size h) (w_mask w)) by (assumption || lia). rewrite <- G4, slice_full. reflexivity.
  - destruct (tag_mask_keeps _ _ _ _ _ _ _ _ _ P G2 G3 HW) as (R1 & N1 & b1 & S1 & B1).
    destruct (C48_mask_partial _ _ _ _ _ _ _ _ _ R S N G3 Hz I T HW) as (O1 & b2 & S1' & L2 & K). assert (X := stored_fun _ _ _ _ S1 S1'). subst b2.
    exists b1. split; [exact HV|]. split; [constructor; assumption|]. split; [exact R1|]. split; [exact O1|]. split; [exact S1|]. split; [exact B1|]. split; [exact L2|exact K].
Qed.
Lemma only_no_override s s' i b : only_data s s' i -> stored s i b -> no_override s i -> no_override s' i.
Proof.
  intros (_ & _ & A & _) (t & T & _) N t' T'. destruct (A _ T) as (t2 & T2 & C & _ & _). assert (t2 = t') by congruence. subst t2.
  assert (t_attr t' = t_attr t) by congruence. rewrite H. apply N. exact T.
Qed.
(** the part of the tag that the handle stands for, after the write *)
Lemma part_masked h b b' w : inside h b -> zlen b' = zlen b -> zlen (w_mask w) = h_size h ->
  (forall k, 0 <= k < 8 * zlen b -> bit b' k =
      if (8 * h_byte h <=? k) && (k <? 8 * (h_byte h + h_size h)) && bit (w_mask w) (k - 8 * h_byte h) then bit (w_data w) (k - 8 * h_byte h) else bit b k) ->
  Prop_LuaConv.masked (slice (h_byte h) (h_size h) b) (w_data w) (w_mask w) (slice (h_byte h) (h_size h) b').
Proof.
  intros (I1 & I2 & I3) Lb Lm H k K. change bit_of with bit. assert (B1 : in_bounds (h_byte h) (h_size h) (zlen b) = true) by (apply in_bounds_iff; lia).
  assert (B2 : in_bounds (h_byte h) (h_size h) (zlen b') = true) by (apply in_bounds_iff; lia). destruct (Z.lt_ge_cases k (8 * h_size h)) as [Q|Q].
  - rewrite (slice_bit _ _ _ _ B2), (slice_bit _ _ _ _ B1) by lia. rewrite H by lia.
    replace (k + 8 * h_byte h - 8 * h_byte h) with k by lia. replace ((8 * h_byte h <=? k + 8 * h_byte h) && (k + 8 * h_byte h <? 8 * (h_byte h + h_size h))) with true by lia. reflexivity.
  - rewrite !bit_out by (rewrite ?zlen_slice by assumption; lia). reflexivity.
Qed.

(** ** C125: a value that was written is read *)
(** [v] is any value a tag of the type can have ([new] its bytes); [junk] and [junk2] are the memory malloc gave.
    FULL STATEMENT: for every value, [tag_read] after [tag_write] returns the value.  MISSING: values that the conversion
    changes (C78: REAL, large ULINT, TIME), tags with an override or with mappings, BOOL slices (next theorem), values written
    differently from the way they are read (a string shorter than the array, below). *)
Theorem C125_roundtrip_partial : forall E L cc fd s h ty junk junk2 new v b s1,
  reachable E s -> stored s (h_index h) b -> bytes_ok b -> no_mapping s (h_index h) -> no_override s (h_index h) -> zlen b < 2147483648 ->
  inside h b -> h_type h <> T_BOOL ->
  bytes_ok new -> zlen new = h_size h -> uniq ty -> ok_ty new ty (h_count h) 0 -> dax_to_lua new ty (h_count h) = Done v ->
  bytes_ok junk -> zlen junk = h_size h -> zlen junk2 = h_size h ->
  lua_tag_write E L cc fd s h ty junk v = Done (s1, LOk LNil) ->
  only_data s s1 (h_index h) /\
  (forall s2 r, lua_tag_read E cc fd s1 h ty junk2 = Done (s2, r) -> r = LOk v \/ exists e, r = LFail e) /\
  (forall w, In (h_type h, w) elementary -> 0 <= h_count h -> h_size h = w * h_count h ->
     exists s2, lua_tag_read E cc fd s1 h ty junk2 = Done (s2, LOk v) /\ s_db s2 = s_db s1).
Proof.
  intros E L cc fd s h ty junk junk2 new v b s1 R S B N NO Hz I T Bn Ln U OK RD J Lj Lj2 H.
  assert (V : lbytes v) by (eapply (proj1 (read_lbytes new Bn)); exact RD).
  destruct (lua_write_masked _ _ _ _ _ _ _ _ _ _ _ R S B N Hz I (or_introl T) V J Lj H) as (w & b' & HV & G & R1 & O1 & S1 & B1 & L1 & K).
  split; [exact O1|]. assert (NO1 := only_no_override _ _ _ _ O1 S NO). assert (M := part_masked _ _ _ _ I L1 (g_mlen _ _ G) K).
  assert (I1 : inside h b') by (unfold inside in *; rewrite L1; exact I). assert (I2 := I1). destruct I2 as (Ia & Ib & Ic).
  assert (Hz1 : zlen b' < 2147483648) by lia. assert (Lj3 : h_size h <= zlen junk2) by lia.
  assert (RV : dax_to_lua (slice (h_byte h) (h_size h) b') ty (h_count h) = Done v).
  { destruct (C78_store_partial L ty (h_count h) new v junk [] Bn U OK RD ltac:(congruence)) as (w0 & W0 & _ & X). rewrite Ln in W0.
    unfold lua_value in HV. rewrite HV in W0. injection W0 as <-. eapply X; [|apply bytes_ok_slice; exact B1|exact M].
    rewrite zlen_slice; [congruence|apply in_bounds_iff; lia]. }
  assert (RR : forall s2 buf, dax_tag_read E cc fd s1 h junk2 = Done (s2, buf, 0) -> lua_tag_read E cc fd s1 h ty junk2 = Done (s2, LOk v) /\ s_db s2 = s_db s1).
  { intros s2 buf Hr. destruct (C45_read _ _ _ _ _ _ _ _ _ R1 S1 NO1 Hz1 I1 Lj3 T Hr) as (D & Lb & Sl & _).
    unfold lua_tag_read. rewrite Hr. cbn [rbind]. change (negb (0 =? 0)) with false. cbv iota. replace (slice 0 (h_size h) buf) with buf in Sl by (rewrite <- Lj2, <- Lb, slice_full; reflexivity). rewrite Sl, RV. split; [reflexivity|exact D]. }
  split.
  - intros s2 r Hr. unfold lua_tag_read in Hr. destruct (dax_tag_read E cc fd s1 h junk2) as [((s3 & buf) & e)|] eqn:Q; [|discriminate]. cbn [rbind] in Hr.
    destruct (e =? 0) eqn:Qe; cbn [negb] in Hr.
    + assert (e = 0) by lia. subst e. destruct (RR _ _ eq_refl) as (X & _). unfold lua_tag_read in X. rewrite Q in X. cbn [rbind] in X. change (negb (0 =? 0)) with false in X. cbv iota in X.
      rewrite X in Hr. injection Hr as _ <-. left. reflexivity.
    + injection Hr as _ <-. right. eauto.
  - intros wd Ty Hc Hs. destruct (C45_read_succeeds E cc fd s1 h junk2 b' wd R1 S1 NO1 Hz1 I1 Lj3 Ty Hc Hs) as (s2 & buf & Hr). exists s2. eapply RR. exact Hr.
Qed.

(** *** slices of a BOOL tag *)
Lemma bits_alike c1 c2 n v : 1 <= n -> n <= 8 * zlen c1 -> n <= 8 * zlen c2 -> (forall k, 0 <= k < n -> bit c1 k = bit c2 k) ->
  dax_to_lua c1 (LB T_BOOL) n = Done v -> dax_to_lua c2 (LB T_BOOL) n = Done v.
Proof.
  intros N L1 L2 H RD. assert (RB : forall k, 0 <= k < n -> read_bit 0 k c2 = read_bit 0 k c1).
  { intros k K. unfold read_bit. assert (X := H k K). unfold bit in X. replace (0 + k / 8) with (k / 8) by lia.
    replace (in_bounds (k / 8) 1 (zlen c2)) with true by (symmetry; apply in_bounds_iff; lia). replace (in_bounds (k / 8) 1 (zlen c1)) with true by (symmetry; apply in_bounds_iff; lia).
    rewrite X. reflexivity. }
  unfold dax_to_lua, read_ty, push_base in *. change (T_BOOL =? T_BOOL) with true in *. cbv iota in *. destruct (1 <? n) eqn:Q.
  - rewrite (fill_ext _ (fun k => read_bit 0 (k + 0) c1)); [exact RD|]. intros i I. rewrite RB by lia. reflexivity.
  - assert (n = 1) by lia. subst n. rewrite RB by lia. exact RD.
Qed.
(** FULL STATEMENT as above, for every slice of bits.  MISSING: slices whose message does not fit the tag or is too long
    ([sent_size], see C47_refuted and C47_2040_refuted: the write then fails). *)
Theorem C125_bits_partial : forall E L cc fd s h junk junk2 new v b s1,
  reachable E s -> stored s (h_index h) b -> bytes_ok b -> no_mapping s (h_index h) -> no_override s (h_index h) -> zlen b < 2147483648 ->
  inside h b -> h_type h = T_BOOL -> 0 <= h_bit h < 8 -> 1 <= h_count h -> h_bit h + h_count h <= 8 * h_size h -> h_byte h + sent_size h <= zlen b ->
  bytes_ok new -> zlen new = h_size h -> dax_to_lua new (LB T_BOOL) (h_count h) = Done v ->
  bytes_ok junk -> zlen junk = h_size h -> zlen junk2 = h_size h ->
  lua_tag_write E L cc fd s h (LB T_BOOL) junk v = Done (s1, LOk LNil) ->
  only_data s s1 (h_index h) /\ exists s2, lua_tag_read E cc fd s1 h (LB T_BOOL) junk2 = Done (s2, LOk v) /\ s_db s2 = s_db s1.
Proof.
  intros E L cc fd s h junk junk2 new v b s1 R S B N NO Hz I T Hb Hc Hs Hz2 Bn Ln RD J Lj Lj2 H. assert (I' := I). destruct I' as (Ia & Ib & Ic).
  assert (V : lbytes v) by (eapply (proj1 (read_lbytes new Bn)); exact RD).
  assert (OK : ok_ty new (LB T_BOOL) (h_count h) 0) by (left; reflexivity).
  assert (L0 : zlen junk = zlen new) by congruence.
  destruct (C78_store_partial L (LB T_BOOL) (h_count h) new v junk [] Bn Logic.I OK RD L0) as (w & HV & _ & X). rewrite Ln in HV.
  assert (G := good_lua_to_dax _ _ _ _ _ _ _ (good_start h junk v Ib V J Lj) HV). destruct G as [G1 G2 G3 G4 G5].
  (* the tag afterwards, bit by bit *)
  assert (exists b', reachable E s1 /\ only_data s s1 (h_index h) /\ stored s1 (h_index h) b' /\ zlen b' = zlen b /\ exists c, zlen c = h_size h /\ dax_to_lua c (LB T_BOOL) (h_count h) = Done v /\ forall k, 0 <= k < h_count h -> bit b' (8 * h_byte h + h_bit h + k) = bit c k) as (b' & R1 & O1 & S1 & L1 & c & Lc & RC & K).
  { destruct (bits_path h) eqn:P.
    - unfold lua_tag_write, lua_value in H. rewrite HV in H. cbn [rbind] in H. change (negb (0 =? 0)) with false in H. cbv iota in H.
      assert (W : exists e lim, 1 <= lim /\ write_bits E cc fd lim s h (w_data w) = Done (s1, e) /\ (if e =? 0 then LOk LNil else LFail e) = LOk LNil).
      { apply rbind_done in H as ((s2 & e) & HW & H). cbv beta iota zeta in H. injection H as -> He. exists e.
        unfold dax_tag_write, dax_tag_mask in HW. rewrite P in HW. destruct (forallb _ _); eexists; (split; [|split; [exact HW|exact He]]); lia. }
      destruct W as (e & lim & Hl & HW & He). destruct (e =? 0) eqn:Q; [|discriminate]. assert (e = 0) by lia. subst e.
      assert (R1 : reachable E s1). { assert (P0 : holds_bytes E (h_index h) s) by (split; [exact R|]; split; [exact N|]; eauto). destruct (write_bits_keeps _ _ _ _ _ _ _ _ _ P0 HW) as (X1 & _). exact X1. }
      destruct (write_bits_spec E cc fd lim s h (w_data w) b s1 0 Hl R S N Hz I T Hb ltac:(lia) Hs ltac:(lia) Hz2 HW) as [(_ & O1 & b' & S1 & L1 & K) | (Q1 & _)]; [|lia].
      exists b'. split; [exact R1|]. split; [exact O1|]. split; [exact S1|]. split; [exact L1|]. exists (w_data w). split; [exact G4|]. split.
      + apply (X (w_data w) (w_data w)); [congruence|exact G2|]. intros k Hk. destruct (bit_of (w_mask w) k); reflexivity.
      + intros k Hk. rewrite K by lia. replace ((8 * h_byte h + h_bit h <=? 8 * h_byte h + h_bit h + k) && (8 * h_byte h + h_bit h + k <? 8 * h_byte h + h_bit h + h_count h)) with true by lia.
        f_equal. lia.
    - assert (A : aligned h) by (right; unfold bits_path in P; lia). destruct A as [A|A]; [contradiction|].
      destruct (lua_write_masked _ _ _ _ _ _ _ _ _ _ _ R S B N Hz I (or_intror A) V J Lj H) as (w0 & b' & HV0 & G & R1 & O1 & S1 & B1 & L1 & K).
      unfold lua_value in HV0. rewrite HV in HV0. injection HV0 as <-.
      assert (M := part_masked _ _ _ _ I L1 G5 K). assert (Bd : in_bounds (h_byte h) (h_size h) (zlen b') = true) by (apply in_bounds_iff; lia).
      exists b'. split; [exact R1|]. split; [exact O1|]. split; [exact S1|]. split; [exact L1|]. exists (slice (h_byte h) (h_size h) b'). split; [apply zlen_slice; exact Bd|]. split.
      + eapply X; [rewrite zlen_slice by exact Bd; congruence|apply bytes_ok_slice; exact B1|exact M].
      + intros k Hk. rewrite slice_bit by (assumption || lia). f_equal. lia. }
  split; [exact O1|]. assert (NO1 := only_no_override _ _ _ _ O1 S NO). assert (I1 : inside h b') by (unfold inside in *; rewrite L1; exact I).
  assert (Hz1 : zlen b' < 2147483648) by lia. assert (Lj3 : h_size h <= zlen junk2) by lia. assert (Hc0 : 0 <= h_count h) by lia.
  destruct (C46_read_bits E cc fd s1 h junk2 b' R1 S1 NO1 Hz1 I1 Lj3 T (proj1 Hb) Hc0 Hs) as (s2 & buf & Hr & D & Lb & Kb & _).
  exists s2. split; [|exact D]. unfold lua_tag_read. rewrite Hr. cbn [rbind]. change (negb (0 =? 0)) with false. cbv iota.
  rewrite (bits_alike c buf (h_count h) v); [reflexivity|lia|lia|lia| |exact RC]. intros k Hk. rewrite Kb by lia. rewrite K by lia. replace (k <? h_count h) with true by lia. reflexivity.
Qed.
(** A string shorter than the array is not padded: the rest of the array gets what the memory held *)
Definition text_server : server := after_ops env0 (demo_ops ++ [OpTagAdd 5 (str "text") T_CHAR 4 0]).
Lemma text_reachable : reachable env0 text_server.
Proof. apply after_reachable. vm_compute. reflexivity. Qed.
Theorem C125_string_refuted : forall L, let h := mk_h 16 0 0 4 4 T_CHAR in exists b s1 s2,
  reachable env0 text_server /\ stored text_server 16 b /\ inside h b /\ no_mapping text_server 16 /\
  lua_tag_write env0 L [] 5 text_server h (LB T_CHAR) [88; 89; 90; 91] (LStr (str "A")) = Done (s1, LOk LNil) /\
  lua_tag_read env0 [] 5 s1 h (LB T_CHAR) [0; 0; 0; 0] = Done (s2, LOk (LStr [65; 89; 90; 91])).
Proof.
  intros L h. eexists. eexists. eexists. split; [exact text_reachable|]. split; [find_tag; split; vm_compute; reflexivity|]. split; [vm_compute; repeat split; congruence|].
  split; [intros t A; vm_compute in A; injection A as <-; vm_compute; reflexivity|]. split; [vm_compute; reflexivity|]. vm_compute. reflexivity.
Qed.
(** foo is a DINT[10]; the handle stands for its elements 2 and 3.  bar is a BOOL[12]; the handle stands for bits 2 to 4. *)
Example C125_ex : forall L, let h := mk_h 13 8 0 2 8 T_DINT in let hb := mk_h 14 0 2 3 1 T_BOOL in
  let v := LTab [(KI 2, LInt (-7)); (KI 1, LInt 5)] in let vb := LTab [(KI 3, LBool true); (KI 2, LBool false); (KI 1, LBool true)] in
  (exists b, stored demo 13 b /\ bytes_ok b /\ inside h b) /\ (exists b, stored demo 14 b /\ bytes_ok b /\ inside hb b /\ h_byte hb + sent_size hb <= zlen b) /\
  no_mapping demo 13 /\ no_override demo 13 /\ no_mapping demo 14 /\ no_override demo 14 /\
  dax_to_lua [5; 0; 0; 0; 249; 255; 255; 255] (LB T_DINT) 2 = Done v /\ ok_ty [5; 0; 0; 0; 249; 255; 255; 255] (LB T_DINT) 2 0 /\
  dax_to_lua [5] (LB T_BOOL) 3 = Done vb /\
  (exists s1, lua_tag_write env0 L [] 5 demo h (LB T_DINT) (repeat 170 8) v = Done (s1, LOk LNil)) /\
  (exists s1, lua_tag_write env0 L [] 5 demo hb (LB T_BOOL) [170] vb = Done (s1, LOk LNil)).
Proof.
  intros L h hb v vb. split; [eexists; split; [find_tag; split; vm_compute; reflexivity|]; split; [vm_compute; repeat constructor; discriminate|vm_compute; repeat split; congruence]|].
  split; [eexists; split; [find_tag; split; vm_compute; reflexivity|]; split; [vm_compute; repeat constructor; discriminate|vm_compute; repeat split; congruence]|].
  do 4 (split; [intros t A; vm_compute in A; injection A as <-; vm_compute; reflexivity|]). split; [vm_compute; reflexivity|].
  split; [right; vm_compute; exact Logic.I|]. split; [vm_compute; reflexivity|]. split; eexists; vm_compute; reflexivity.
Qed.

(** ** C126: what a value does not name is not touched *)
(** A member of a compound type that the table does not name keeps its bits, and no other tag changes.
    FULL STATEMENT: for all types, values and memory.  MISSING: arrays of BOOL inside a type (C79_bool_refuted), arrays of a
    compound type (C79_absent_refuted). *)
Theorem C126_absent_partial : forall E L cc fd s h ms1 nm ty count ms2 tb junk b s1,
  reachable E s -> stored s (h_index h) b -> bytes_ok b -> no_mapping s (h_index h) -> zlen b < 2147483648 -> inside h b -> h_type h <> T_BOOL -> h_count h = 1 ->
  plain_ms (lapp ms1 (MCons nm ty count ms2)) -> (forall ms, ty = LC ms -> count = 1) -> rawget (LuaConv.KS nm) tb = LNil ->
  lbytes (LTab tb) -> bytes_ok junk -> zlen junk = h_size h ->
  lua_tag_write E L cc fd s h (LC (lapp ms1 (MCons nm ty count ms2))) junk (LTab tb) = Done (s1, LOk LNil) ->
  only_data s s1 (h_index h) /\ exists b', stored s1 (h_index h) b' /\ zlen b' = zlen b /\
    forall k, start ms1 ty <= k < start ms1 ty + width ty count -> bit b' (8 * h_byte h + k) = bit b (8 * h_byte h + k).
Proof.
  intros E L cc fd s h ms1 nm ty count ms2 tb junk b s1 R S B N Hz I T C PL CC A V J Lj H.
  destruct (lua_write_masked _ _ _ _ _ _ _ _ _ _ _ R S B N Hz I (or_introl T) V J Lj H) as (w & b' & HV & G & R1 & O1 & S1 & B1 & L1 & K).
  split; [exact O1|]. exists b'. split; [exact S1|]. split; [exact L1|]. intros k Hk. unfold lua_value in HV. rewrite C in HV.
  assert (M := C79_absent_partial _ _ _ _ _ _ _ _ _ _ _ PL CC A HV k Hk). change bit_of with bit in M. rewrite bit_zeros in M.
  destruct I as (I1 & I2 & I3). destruct (Z.lt_ge_cases (8 * h_byte h + k) (8 * zlen b)) as [Q|Q]; [|rewrite !bit_out by lia; reflexivity].
  destruct (Z.lt_ge_cases k 0) as [Qk|Qk].
  - destruct (Z.lt_ge_cases (8 * h_byte h + k) 0) as [Q0|Q0].
    + unfold bit, nthb. replace (Z.to_nat ((8 * h_byte h + k) / 8)) with 0%nat by lia. exfalso.
      assert (0 <= start ms1 ty); [|lia]. apply lapp_plain in PL as [PL1 _]. assert (X := proj2 plain_tsize ms1 PL1 0 (Z.le_refl 0)). unfold start. destruct (is_bool ty); unfold up8; lia.
    + rewrite K by lia. replace (8 * h_byte h <=? 8 * h_byte h + k) with false by lia. reflexivity.
  - rewrite K by lia. replace (8 * h_byte h + k - 8 * h_byte h) with k by lia. rewrite M, andb_false_r. reflexivity.
Qed.
Lemma write_elem_frm E t wd idx off w w' : In (t, wd) elementary -> t <> T_TIME ->
  write_from_stack E t idx off w = Done w' -> frm (8 * (off + wd * idx)) (8 * (off + wd * idx + wd)) w w' /\ w_stk w' = w_stk w.
Proof.
  intros I N. unfold write_from_stack. cbv zeta.
  assert (G : forall r k n, (x <-- r ;; put_bytes k (le_bytes n x) w) = Done w' -> k = off + wd * idx -> Z.of_nat n = wd ->
    frm (8 * (off + wd * idx)) (8 * (off + wd * idx + wd)) w w' /\ w_stk w' = w_stk w).
  { intros [x|] k n P A B; [|discriminate P]. cbn [rbind] in P. apply put_bytes_frm in P as [P S]. split; [|exact S]. rewrite zlen_le_bytes in P. subst k. rewrite B in P. exact P. }
  cbn [In elementary] in I.
  repeat (destruct I as [[= <- <-]|I]; [first [exfalso; apply N; reflexivity|
    cbn [Z.eqb Pos.eqb orb T_BYTE T_SINT T_CHAR T_WORD T_UINT T_INT T_DWORD T_UDINT T_DINT T_REAL T_LWORD T_ULINT T_TIME T_LINT T_LREAL];
    first [intros P; apply (G _ _ _ P); lia | intros P; apply (G (Done _) _ _ P); lia]]|]). destruct I.
Qed.
Lemma pop_loop_absent E t wd bt off tb m : In (t, wd) elementary -> t <> T_TIME -> rawget (KI (m + 1)) tb = LNil ->
  forall k n w w', top w = LTab tb -> pop_loop E k n t bt off w = Done w' ->
  forall j, 0 <= j -> 8 * (off + wd * m) <= j < 8 * (off + wd * m + wd) -> bit_of (w_mask w') j = bit_of (w_mask w) j.
Proof.
  intros I N A. assert (W : 0 < wd /\ t <> T_BOOL) by (cbn [In elementary] in I; repeat (destruct I as [[= <- <-]|I]; [split; [lia|discriminate]|]); contradiction).
  destruct W as [W TB]. induction k as [|k IH]; intros n w w' T P j J0 J; cbn [pop_loop] in P; [injection P as <-; reflexivity|].
  unfold get_key in P. rewrite T in P. cbn [rbind] in P. replace (t =? T_BOOL) with false in P by lia.
  set (v := rawget (KI (n + 1)) tb) in *. change (top (push v w)) with v in P. destruct (is_lnil v) eqn:Q; cbn [rbind] in P.
  - rewrite (IH _ (pop (push v w)) _ T P j J0 J). reflexivity.
  - destruct (write_from_stack E t n off (push v w)) as [w1|] eqn:W1; [|discriminate P]. cbn [rbind] in P. apply (write_elem_frm E t wd) in W1 as [F S]; [|assumption..].
    assert (T1 : top (pop w1) = LTab tb) by (unfold top, pop; cbn [w_stk]; rewrite S; exact T). rewrite (IH _ _ _ T1 P j J0 J). change (w_mask (pop w1)) with (w_mask w1).
    destruct (f_bits _ _ _ _ F j J0) as [F1 _]; [|exact F1]. destruct (Z.eq_dec n m) as [->|Ne]; [unfold v in Q; rewrite A in Q; discriminate Q|]. nia.
Qed.
(** An element of an array that the table does not name keeps its bytes. *)
Theorem C126_array_partial : forall E L cc fd s h wd tb m junk b s1,
  reachable E s -> stored s (h_index h) b -> bytes_ok b -> no_mapping s (h_index h) -> zlen b < 2147483648 -> inside h b ->
  In (h_type h, wd) elementary -> h_type h <> T_TIME -> 1 < h_count h -> h_size h = wd * h_count h ->
  0 <= m < h_count h -> rawget (KI (m + 1)) tb = LNil -> lbytes (LTab tb) -> bytes_ok junk -> zlen junk = h_size h ->
  lua_tag_write E L cc fd s h (LB (h_type h)) junk (LTab tb) = Done (s1, LOk LNil) ->
  only_data s s1 (h_index h) /\ exists b', stored s1 (h_index h) b' /\ zlen b' = zlen b /\
    slice (h_byte h + wd * m) wd b' = slice (h_byte h + wd * m) wd b.
Proof.
  intros E L cc fd s h wd tb m junk b s1 R S B N Hz I T NT C Hs Hm A V J Lj H.
  assert (W : 0 < wd /\ h_type h <> T_BOOL) by (cbn [In elementary] in T; repeat (destruct T as [[= Q1 Q2]|T]; [subst wd; rewrite <- Q1; split; [lia|discriminate]|]); contradiction).
  destruct W as [W TB].
  destruct (lua_write_masked _ _ _ _ _ _ _ _ _ _ _ R S B N Hz I (or_introl TB) V J Lj H) as (w & b' & HV & G & R1 & O1 & S1 & B1 & L1 & K).
  split; [exact O1|]. exists b'. split; [exact S1|]. split; [exact L1|]. destruct I as (I1 & I2 & I3).
  unfold lua_value, lua_to_dax, pop_base in HV. replace (1 <? h_count h) with true in HV by lia. cbn [top w_stk hd] in HV. apply rbind_done in HV as (w1 & HV & X). injection X as <-.
  assert (P := pop_loop_absent L (h_type h) wd 0 0 tb m T NT A _ _ {| w_stk := [LTab tb]; w_data := junk; w_mask := zeros (h_size h) |} _ eq_refl HV).
  assert (Q : wd * m + wd <= h_size h) by nia. assert (Q0 : 0 <= wd * m) by nia.
  apply slice_ext; [apply in_bounds_iff; lia|exact L1|]. intros i Hi. apply byte_of_bits; [apply nthb_byte; exact B1|apply nthb_byte; exact B|].
  intros j Hj. rewrite <- !bit_of_byte by lia. change bit_of with bit. rewrite K by lia.
  assert (M : bit (w_mask w1) (8 * i + j - 8 * h_byte h) = false).
  { change bit with bit_of. rewrite P by lia. cbn [w_mask]. change bit_of with bit. apply bit_zeros. }
  rewrite M, andb_false_r. reflexivity.
Qed.
(** TIME: the elements are written 4 bytes apart; naming the third overwrites half of the second *)
Definition time_server : server := after_ops env0 (demo_ops ++ [OpTagAdd 5 (str "when") T_TIME 4 0; OpWrite 5 16 8 [1; 2; 3; 4; 5; 6; 7; 8]]).
Lemma time_reachable : reachable env0 time_server.
Proof. apply after_reachable. vm_compute. reflexivity. Qed.
Theorem C126_time_refuted : forall L, let h := mk_h 16 0 0 4 32 T_TIME in exists b b' s1,
  reachable env0 time_server /\ stored time_server 16 b /\ inside h b /\ no_mapping time_server 16 /\
  lua_tag_write env0 L [] 5 time_server h (LB T_TIME) (zeros 32) (LTab [(KI 3, LInt 9)]) = Done (s1, LOk LNil) /\ stored s1 16 b' /\
  slice 8 8 b = [1; 2; 3; 4; 5; 6; 7; 8] /\ slice 8 8 b' = [9; 0; 0; 0; 5; 6; 7; 8] /\ slice 16 8 b' = slice 16 8 b.
Proof.
  intros L h. eexists. eexists. eexists. split; [exact time_reachable|]. split; [find_tag; split; vm_compute; reflexivity|]. split; [vm_compute; repeat split; congruence|].
  split; [intros t A; vm_compute in A; injection A as <-; vm_compute; reflexivity|]. split; [vm_compute; reflexivity|]. split; [find_tag; split; vm_compute; reflexivity|].
  repeat split; vm_compute; reflexivity.
Qed.
(** BOOL slices: dax_tag_mask ignores the mask (C48_refuted), and the bits that are not named get what the memory held *)
Theorem C126_slice_refuted : forall L, let h := mk_h 14 0 2 3 1 T_BOOL in exists b b1 b2 s1 s2,
  reachable env0 demo /\ stored demo 14 b /\ inside h b /\ no_mapping demo 14 /\
  lua_tag_write env0 L [] 5 demo h (LB T_BOOL) [0] (LTab [(KI 1, LBool true)]) = Done (s1, LOk LNil) /\ stored s1 14 b1 /\
  lua_tag_write env0 L [] 5 demo h (LB T_BOOL) [255] (LTab [(KI 1, LBool true)]) = Done (s2, LOk LNil) /\ stored s2 14 b2 /\
  bit b1 3 = false /\ bit b2 3 = true.
Proof.
  intros L h. do 5 eexists. split; [exact demo_reachable|]. split; [find_tag; split; vm_compute; reflexivity|]. split; [vm_compute; repeat split; congruence|].
  split; [intros t A; vm_compute in A; injection A as <-; vm_compute; reflexivity|]. split; [vm_compute; reflexivity|]. split; [find_tag; split; vm_compute; reflexivity|].
  split; [vm_compute; reflexivity|]. split; [find_tag; split; vm_compute; reflexivity|]. split; vm_compute; reflexivity.
Qed.
(** a tag of a type with members a (BOOL), b (INT), c (DINT[2]); the table names a and c[2] *)
Definition rec_server : server := after_ops env0 (demo_ops ++ [OpCdtCreate 5 (str "Rec:a,BOOL,1:b,INT,1:c,DINT,2"); OpTagAdd 5 (str "rec") (cdt_type 2) 1 0; OpWrite 5 16 0 [0; 11; 12; 1; 2; 3; 4; 5; 6; 7; 8]]).
Definition rec_cc : ctypes := match dax_cdt_get (s_types rec_server) [] (ByType (cdt_type 2)) with Done (cc, _) => cc | _ => [] end.
Example C126_ex : forall L, let h := mk_h 16 0 0 1 11 (cdt_type 2) in
  let ms1 := MCons (str "a") (LB T_BOOL) 1 MNil in let ms2 := MCons (str "c") (LB T_DINT) 2 MNil in
  let ty := LC (lapp ms1 (MCons (str "b") (LB T_INT) 1 ms2)) in let tb := [(LuaConv.KS (str "c"), LTab [(KI 2, LInt 7)]); (LuaConv.KS (str "a"), LBool true)] in
  reachable env0 rec_server /\ stored rec_server 16 [0; 11; 12; 1; 2; 3; 4; 5; 6; 7; 8] /\ no_mapping rec_server 16 /\
  plain_ms (lapp ms1 (MCons (str "b") (LB T_INT) 1 ms2)) /\ rawget (LuaConv.KS (str "b")) tb = LNil /\ lbytes (LTab tb) /\ start ms1 (LB T_INT) = 8 /\
  (exists s1, lua_tag_write env0 L rec_cc 5 rec_server h ty (repeat 99 11) (LTab tb) = Done (s1, LOk LNil) /\ stored s1 16 [1; 11; 12; 1; 2; 3; 4; 7; 0; 0; 0]) /\
  (exists s1 b, lua_tag_write env0 L [] 5 demo (mk_h 13 8 0 3 12 T_DINT) (LB T_DINT) (repeat 99 12) (LTab [(KI 2, LInt 7)]) = Done (s1, LOk LNil) /\ stored s1 13 b /\ slice 12 4 b = [7; 0; 0; 0]).
Proof.
  intros L h ms1 ms2 ty tb. split; [apply after_reachable; vm_compute; reflexivity|]. split; [find_tag; split; vm_compute; reflexivity|].
  split; [intros t A; vm_compute in A; injection A as <-; vm_compute; reflexivity|]. split; [cbn; intuition (try lia; discriminate)|]. split; [reflexivity|]. split; [cbn; auto|]. split; [reflexivity|]. split.
  - eexists. split; [vm_compute; reflexivity|]. find_tag; split; vm_compute; reflexivity.
  - eexists. eexists. split; [vm_compute; reflexivity|]. split; [find_tag; split; vm_compute; reflexivity|vm_compute; reflexivity].
Qed.

(** ** C127: the value of an override or of an atomic operation *)
Lemma lua_value_full L h ty junk new v : bytes_ok new -> zlen new = h_size h -> uniq ty -> ok_ty new ty (h_count h) 0 ->
  dax_to_lua new ty (h_count h) = Done v -> bytes_ok junk -> zlen junk = h_size h ->
  exists w, lua_value L h ty junk v = Done (0, w) /\ zlen (w_data w) = h_size h /\ dax_to_lua (w_data w) ty (h_count h) = Done v.
Proof.
  intros Bn Ln U OK RD J Lj. assert (L0 : zlen junk = zlen new) by congruence.
  destruct (C78_store_partial L ty (h_count h) new v junk [] Bn U OK RD L0) as (w & HV & _ & X). rewrite Ln in HV. exists w. split; [exact HV|].
  assert (V : lbytes v) by (eapply (proj1 (read_lbytes new Bn)); exact RD). assert (Z0 := zlen_nonneg new).
  assert (G := good_lua_to_dax _ _ _ _ _ _ _ (good_start h junk v ltac:(lia) V J Lj) HV). destruct G as [G1 G2 G3 G4 G5]. split; [exact G4|].
  apply (X (w_data w) (w_data w)); [congruence|exact G2|]. intros k Hk. destruct (bit_of (w_mask w) k); reflexivity.
Qed.
(** A value in which every element is named goes to the server as it is: the data of the override reads as the value, and,
    when the override is on, so do the bits a client reads.
    FULL STATEMENT: for every value.  MISSING: values that do not name all elements (below), tags of type BOOL and tags that
    have an override (C123). *)
Theorem C127_override_partial : forall E L fd s h ty junk new v b s1 s2 e,
  reachable E s -> 9 <= h_index h -> stored s (h_index h) b -> zlen b < 2147483648 -> slice_ok h -> h_type h <> T_BOOL ->
  (forall t, znth (s_db s) (h_index h) = Some t -> t_type t <> T_BOOL /\ t_odata t = None) ->
  bytes_ok new -> zlen new = h_size h -> uniq ty -> ok_ty new ty (h_count h) 0 -> dax_to_lua new ty (h_count h) = Done v -> bytes_ok junk -> zlen junk = h_size h ->
  lua_override_add E L fd s h ty junk v = Done (s1, LOk LNil) -> dax_switch_override E fd s1 h true = Done (s2, e) ->
  exists d, zlen d = h_size h /\ dax_to_lua d ty (h_count h) = Done v /\ e = 0 /\ stored s2 (h_index h) b /\
    forall rfd, exists r, step E s2 (OpRead rfd (h_index h) (h_byte h) (h_size h)) = Done (after s2 [OResp rfd MSG_TAG_READ r]) /\ zlen r = h_size h /\
      forall k, 0 <= k < 8 * h_size h -> bit r k = bit d k.
Proof.
  intros E L fd s h ty junk new v b s1 s2 e R Hi S Hz O T Nt Bn Ln U OK RD J Lj H H2.
  destruct (lua_value_full L h ty junk new v Bn Ln U OK RD J Lj) as (w & HV & Lw & RW). unfold lua_override_add in H. rewrite HV in H. cbn [rbind] in H.
  change (negb (0 =? 0)) with false in H. cbv iota in H. apply rbind_done in H as ((s1' & e1) & HA & H). cbv beta iota zeta in H. destruct (e1 =? 0) eqn:Q; [|congruence].
  assert (e1 = 0) by lia. subst e1. injection H as ->. assert (TB : (h_type h =? T_BOOL) = false) by lia.
  assert (En : enough h (w_data w)) by (unfold enough; rewrite TB; lia).
  destruct (C123_seen_partial _ _ _ _ _ _ _ _ _ R Hi S Hz O En Nt HA H2) as (He & S2 & _ & K & _).
  assert (Z : ovr_size h = h_size h) by (unfold ovr_size, bits_path; rewrite TB; reflexivity).
  exists (w_data w). split; [exact Lw|]. split; [exact RW|]. split; [exact He|]. split; [exact S2|]. intros rfd. destruct (K rfd) as (r & K1 & K2 & K3). rewrite Z in K1, K2, K3.
  exists r. split; [exact K1|]. split; [exact K2|]. intros k Hk. rewrite (K3 k Hk). unfold covered, first. rewrite TB. replace ((0 <=? k) && (k <? 8 * h_size h)) with true by lia. f_equal. lia.
Qed.
Theorem C127_atomic_partial : forall E L fd s h ty junk new v opr s1 r,
  bytes_ok new -> zlen new = h_size h -> uniq ty -> ok_ty new ty (h_count h) 0 -> dax_to_lua new ty (h_count h) = Done v -> bytes_ok junk -> zlen junk = h_size h ->
  lua_atomic_op E L fd s h ty junk v opr = Done (s1, r) ->
  (r = LFail E_2BIG /\ s1 = s) \/ (r = LFail E_ILLEGAL /\ s1 = s) \/
  exists d, zlen d = h_size h /\ dax_to_lua d ty (h_count h) = Done v /\ step E s (OpAtomic fd h (u16 (u16 (toint L opr))) d) = Done s1.
Proof.
  intros E L fd s h ty junk new v opr s1 r Bn Ln U OK RD J Lj H.
  destruct (lua_value_full L h ty junk new v Bn Ln U OK RD J Lj) as (w & HV & Lw & RW). unfold lua_atomic_op in H. rewrite HV in H. cbn [rbind] in H.
  change (negb (0 =? 0)) with false in H. cbv iota in H. unfold dax_atomic_op in H. destruct (4088 <? u32 (h_size h + 21)); [cbn [rbind] in H; injection H as <- <-; left; split; reflexivity|].
  destruct (is_custom (h_type h)); [cbn [rbind] in H; injection H as <- <-; right; left; split; reflexivity|]. right. right. exists (w_data w). split; [exact Lw|]. split; [exact RW|].
  replace (slice 0 (h_size h) (w_data w)) with (w_data w) in H by (rewrite <- Lw, slice_full; reflexivity). unfold ask in H.
  destruct (step E s _) as [s'|]; [|discriminate]. cbn [rbind] in H. destruct (rev (s_out s')) as [|[] ?]; cbn [rbind] in H; injection H as <- _; reflexivity.
Qed.
(** Elements that the table does not name are not left out, as they are in [tag_write] (C126): the override takes the
    uninitialised memory, and an atomic OR sets its bits *)
Theorem C127_override_refuted : forall L, let h := mk_h 13 0 0 2 8 T_DINT in exists b s1 s2 r,
  reachable env0 demo /\ stored demo 13 b /\ inside h b /\ bytes_ok b /\ slice 4 4 b = [1; 2; 3; 4] /\
  lua_override_add env0 L 5 demo h (LB T_DINT) [9; 9; 9; 9; 5; 6; 7; 8] (LTab [(KI 1, LInt 7)]) = Done (s1, LOk LNil) /\
  dax_switch_override env0 5 s1 h true = Done (s2, 0) /\
  step env0 s2 (OpRead 5 13 0 8) = Done (after s2 [OResp 5 MSG_TAG_READ r]) /\ r = [7; 0; 0; 0; 5; 6; 7; 8].
Proof.
  intros L h. do 4 eexists. split; [exact demo_reachable|]. split; [find_tag; split; vm_compute; reflexivity|]. split; [vm_compute; repeat split; congruence|].
  split; [vm_compute; repeat constructor; discriminate|]. split; [vm_compute; reflexivity|]. split; [vm_compute; reflexivity|]. split; [vm_compute; reflexivity|]. split; vm_compute; reflexivity.
Qed.
Theorem C127_atomic_refuted : forall L, let h := mk_h 13 0 0 2 8 T_DINT in exists b s1 b1,
  reachable env0 demo /\ stored demo 13 b /\ inside h b /\ slice 4 4 b = [1; 2; 3; 4] /\
  lua_atomic_op env0 L 5 demo h (LB T_DINT) [9; 9; 9; 9; 5; 6; 7; 8] (LTab [(KI 1, LInt 7)]) (LInt 4) = Done (s1, LOk LNil) /\ stored s1 13 b1 /\
  slice 4 4 b1 = [5; 6; 7; 12].
Proof.
  intros L h. do 3 eexists. split; [exact demo_reachable|]. split; [find_tag; split; vm_compute; reflexivity|]. split; [vm_compute; repeat split; congruence|].
  split; [vm_compute; reflexivity|]. split; [vm_compute; reflexivity|]. split; [find_tag; split; vm_compute; reflexivity|]. vm_compute. reflexivity.
Qed.
Example C127_ex : forall L, let h := mk_h 13 0 0 2 8 T_DINT in let v := LTab [(KI 2, LInt (-7)); (KI 1, LInt 5)] in let new := [5; 0; 0; 0; 249; 255; 255; 255] in
  slice_ok h /\ (forall t, znth (s_db demo) 13 = Some t -> t_type t <> T_BOOL /\ t_odata t = None) /\ dax_to_lua new (LB T_DINT) 2 = Done v /\ ok_ty new (LB T_DINT) 2 0 /\
  (exists s1 s2, lua_override_add env0 L 5 demo h (LB T_DINT) (repeat 170 8) v = Done (s1, LOk LNil) /\ dax_switch_override env0 5 s1 h true = Done (s2, 0)) /\
  exists s1, lua_atomic_op env0 L 5 demo h (LB T_DINT) (repeat 170 8) v (LInt 4) = Done (s1, LOk LNil).
Proof.
  intros L h v new. split; [unfold slice_ok; cbn; repeat split; try lia; discriminate|]. split; [intros t A; vm_compute in A; injection A as <-; split; [discriminate|reflexivity]|].
  split; [vm_compute; reflexivity|]. split; [right; vm_compute; exact Logic.I|]. split; [eexists; eexists; split; [vm_compute; reflexivity|]; vm_compute; reflexivity|eexists; vm_compute; reflexivity].
Qed.

(** ** C128: deleting a tag *)
Lemma s32_id i : 0 <= i < 2147483648 -> s32 (le_val (le_bytes 4 i)) = i.
Proof. intros H. rewrite le_val_le_bytes. change (256 ^ Z.of_nat 4) with 4294967296. rewrite Z.mod_small by lia. apply s32_small. lia. Qed.
(** The tag that has the name is deleted, and no other; or none, and the script gets an error.
    FULL STATEMENT: for every argument.  MISSING: names and indices of no tag (below). *)
Theorem C128_del_partial : forall E fd s i nm t junk s1 r,
  reachable E s -> zlen (s_db s) < 2147483648 -> named s i nm t ->
  lua_tag_del E fd s (inr nm) junk = Done (s1, r) ->
  (exists e, r = LFail e /\ s_db s1 = s_db s) \/
  (r = LOk LNil /\ forall j n, (exists t', named s1 j n t') <-> ((exists t', named s j n t') /\ j <> i)).
Proof.
  intros E fd s i nm t junk s1 r R Z N H. assert (I := reachable_Inv _ _ R). assert (N' := N). destruct N' as [N1 N2].
  assert (Ln := validate_len _ (it_name _ _ (iv_tags _ I _ _ N1) _ N2)). assert (Ri := znth_range _ _ _ N1).
  assert (F : lookup E fd s (inr nm) = Done (after s [OResp fd MSG_TAG_GET (info_bytes (i, t_type t, t_count t, t_attr t, nm))], Some i)).
  { unfold lookup. destruct ((32 <? zlen nm) || (zlen nm =? 0)) eqn:Q; [exfalso; unfold zlen in *; lia|]. unfold ask. rewrite (C01_lookup_live _ _ fd _ _ _ R N). cbn [rbind].
    unfold after. cbn [set_out s_out set_step]. rewrite rev_app_distr. cbn [rev app]. do 2 f_equal. f_equal. unfold info_bytes.
    rewrite slice_app1 by apply zlen_le_bytes. apply s32_id. lia. }
  unfold lua_tag_del in H. rewrite F in H. cbn [rbind] in H. cbv beta iota zeta in H.
  set (s0 := after s [OResp fd MSG_TAG_GET (info_bytes (i, t_type t, t_count t, t_attr t, nm))]) in *.
  assert (R0 : reachable E s0) by (eapply reachable_step; [exact R|]; apply C01_lookup_live; eassumption).
  unfold ask in H. destruct (step E s0 (OpTagDel fd i)) as [s2|] eqn:St; [|discriminate]. cbn [rbind] in H.
  destruct (C01_del _ _ _ _ _ R0 St) as [(code & Hc & ->) | (A & _ & K)].
  - left. unfold after in H. cbn [set_out s_out set_step] in H. rewrite rev_app_distr in H. cbn [rev app] in H. injection H as <- <-. exists code. split; reflexivity.
  - right. destruct (answered_last _ _ _ A) as (l & Hl). rewrite Hl in H. injection H as <- <-. split; [reflexivity|]. exact K.
Qed.
(** A name of no tag: the answer to the lookup is ignored, and the tag whose number is in the uninitialised structure is deleted *)
Theorem C128_absent_refuted : forall E fd s nm i, en_strict E = false -> reachable E s -> 1 <= zlen nm <= 32 -> ~ exists_tag s nm ->
  lua_tag_del E fd s (inr nm) i = (r <-- ask E (after s [OErr fd MSG_TAG_GET E_NOTFOUND]) (OpTagDel fd i) ;;
     match r with (s', inl _) => Done (s', LOk LNil) | (s', inr e) => Done (s', LFail e) end).
Proof.
  intros E fd s nm i NS R L A. unfold lua_tag_del, lookup. replace ((32 <? zlen nm) || (zlen nm =? 0)) with false by lia. unfold ask at 1.
  rewrite C01_lookup_absent, NS by assumption. cbn [rbind]. unfold after. cbn [set_out s_out set_step]. rewrite rev_app_distr. cbn [rev app]. reflexivity.
Qed.
Theorem C128_other_refuted : exists s1, reachable env0 demo /\ ~ exists_tag demo (str "nosuch") /\ exists_tag demo (str "foo") /\
  lua_tag_del env0 5 demo (inr (str "nosuch")) 13 = Done (s1, LOk LNil) /\ ~ exists_tag s1 (str "foo").
Proof.
  eexists. split; [exact demo_reachable|].
  assert (D : forall s n, forallb (fun t => match t_name t with Some m => negb (name_eqb m n) | None => true end) (s_db s) = true -> ~ exists_tag s n).
  { intros s n F (i & t & N1 & N2). rewrite forallb_forall in F. assert (X := F t (znth_In _ _ _ N1)). cbn beta in X. rewrite N2 in X. rewrite (proj2 (name_eqb_eq n n) eq_refl) in X. discriminate X. }
  split; [apply D; vm_compute; reflexivity|]. split; [exists 13; find_tag; vm_compute; reflexivity|].
  split; [vm_compute; reflexivity|]. apply D. vm_compute. reflexivity.
Qed.
Example C128_ex : exists t s1, named demo 13 (str "foo") t /\ lua_tag_del env0 5 demo (inr (str "foo")) 99 = Done (s1, LOk LNil).
Proof. eexists. eexists. split; [split; vm_compute; reflexivity|]. vm_compute. reflexivity. Qed.
