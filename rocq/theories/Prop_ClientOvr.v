(** * Overrides through the library: C123, C124 *)
From Verif Require Import Base Const Types State Events Atomic Server Lib SearchProofs Shape Inv Reach Spec Frame Effects Out DataFrame
  Demo Prop_Tags Prop_Data Prop_Maps Prop_Atomic Prop_Override ClientTypes ClientData Prop_ClientData Buffer Wire BufProofs Prop_Wire Conv ClientMsg Prop_Encode ClientOvr.

(** ** vocabulary *)
(** bit [k], counted from byte [h_byte h] of the tag, is one of the bits the handle stands for, and which one *)
Definition first (h : handle) : Z := if h_type h =? T_BOOL then h_bit h else 0.
Definition covered (h : handle) (k : Z) : bool :=
  if h_type h =? T_BOOL then (h_bit h <=? k) && (k <? h_bit h + h_count h) else (0 <=? k) && (k <? 8 * h_size h).
(** what dax_tag_handle gives (C49): a BOOL slice lies in the bytes of the handle *)
Definition slice_ok (h : handle) : Prop :=
  0 <= h_size h < 2147483648 /\ 0 <= h_byte h < 2147483648 /\
  (h_type h = T_BOOL -> 0 <= h_bit h < 8 /\ 0 <= h_count h /\ h_bit h + h_count h <= 8 * h_size h /\
                        (h_bit h = 0 -> h_count h mod 8 = 0 -> h_count h = 8 * h_size h)).
(** the caller's data holds what the handle stands for *)
Definition enough (h : handle) (d : list Z) : Prop := if h_type h =? T_BOOL then h_count h <= 8 * zlen d else h_size h <= zlen d.

(** ** data and mask *)
Lemma bit_ones n k : 0 <= k < 8 * n -> bit (repeat 255 (Z.to_nat n)) k = true.
Proof.
  intros H. assert (Hz : znth (repeat 255 (Z.to_nat n)) (k / 8) = Some 255).
  { destruct (znth_some (repeat 255 (Z.to_nat n)) (k / 8)) as [x Hx]; [unfold zlen; rewrite repeat_length; lia|].
    rewrite Hx. f_equal. apply znth_In in Hx. apply repeat_spec in Hx. exact Hx. }
  unfold bit. rewrite (nthb_znth _ _ _ Hz).
  assert (B : forall j, 0 <= j < 8 -> Z.testbit 255 j = true) by (intros j Hj; assert (j = 0 \/ j = 1 \/ j = 2 \/ j = 3 \/ j = 4 \/ j = 5 \/ j = 6 \/ j = 7) as X by lia; repeat (destruct X as [->|X]; [reflexivity|]); subst j; reflexivity).
  apply B. lia.
Qed.
Lemma ovr_size_ge h : slice_ok h -> h_size h <= ovr_size h <= h_size h + 1.
Proof. intros _. unfold ovr_size. destruct (bits_path h); [|lia]. destruct (negb (h_bit h =? 0) && (h_count h mod 8 =? 0)); lia. Qed.
Lemma ovr_mask_spec h : slice_ok h -> exists m, ovr_mask h = Done m /\ zlen m = ovr_size h /\ bytes_ok m /\
  forall k, 0 <= k < 8 * ovr_size h -> bit m k = covered h k.
Proof.
  intros O. assert (S1 := ovr_size_ge h O). destruct O as (Z1 & Z2 & B). unfold ovr_mask, covered. destruct (bits_path h) eqn:P.
  - assert (T : h_type h = T_BOOL) by (unfold bits_path in P; lia). destruct (B T) as (B1 & B2 & B3 & B4). rewrite (Z.mod_small (h_bit h)) by lia.
    assert (Lz : zlen (zeros (ovr_size h)) = ovr_size h) by (apply zlen_zeros; lia).
    destruct (mark_bits_spec (Z.to_nat (h_count h)) (zeros (ovr_size h)) (h_bit h)) as (m & E1 & Bm & Lm & Km); [apply bytes_ok_zeros | lia..|].
    exists m. split; [exact E1|]. split; [lia|]. split; [exact Bm|]. intros k Hk. rewrite Km by lia. rewrite bit_zeros. cbn [orb].
    replace (h_type h =? T_BOOL) with true by lia. replace (Z.of_nat (Z.to_nat (h_count h))) with (h_count h) by lia. reflexivity.
  - unfold ovr_size. rewrite P. eexists. split; [reflexivity|]. split; [unfold zlen; rewrite repeat_length; lia|].
    split; [apply Forall_forall; intros x Hx; apply repeat_spec in Hx; lia|]. intros k Hk. rewrite bit_ones by exact Hk.
    destruct (h_type h =? T_BOOL) eqn:T; [|lia]. destruct (B ltac:(lia)) as (B1 & B2 & B3 & B4). unfold bits_path in P. specialize (B4 ltac:(lia) ltac:(lia)). lia.
Qed.
Lemma ovr_data_spec h d : slice_ok h -> enough h d -> exists nd, ovr_data h d = Done nd /\ zlen nd = ovr_size h /\
  forall k, 0 <= k < 8 * ovr_size h -> covered h k = true -> bit nd k = bit d (k - first h).
Proof.
  intros O En. assert (S1 := ovr_size_ge h O). destruct O as (Z1 & Z2 & B). unfold ovr_data, covered, first, enough in *. destruct (bits_path h) eqn:P.
  - assert (T : h_type h = T_BOOL) by (unfold bits_path in P; lia). destruct (B T) as (B1 & B2 & B3 & B4). rewrite (Z.mod_small (h_bit h)) by lia.
    assert (Lz : zlen (zeros (ovr_size h)) = ovr_size h) by (apply zlen_zeros; lia). replace (h_type h =? T_BOOL) with true in * by lia.
    destruct (copy_bits_spec (Z.to_nat (h_count h)) d 0 (zeros (ovr_size h)) (h_bit h)) as (nd & E1 & Bn & Ln & Kn); [apply bytes_ok_zeros | lia..|].
    exists nd. split; [exact E1|]. split; [lia|]. intros k Hk C. rewrite Kn by lia. rewrite bit_zeros. cbn [orb].
    replace ((h_bit h <=? k) && (k <? h_bit h + Z.of_nat (Z.to_nat (h_count h)))) with true by lia. reflexivity.
  - unfold ovr_size in *. rewrite P in *.
    assert (Hd : h_size h <= zlen d).
    { destruct (h_type h =? T_BOOL) eqn:T; [|exact En]. destruct (B ltac:(lia)) as (B1 & B2 & B3 & B4). unfold bits_path in P. specialize (B4 ltac:(lia) ltac:(lia)). lia. }
    assert (Ib : in_bounds 0 (h_size h) (zlen d) = true) by (apply in_bounds_iff; lia). rewrite Ib. eexists. split; [reflexivity|].
    split; [apply zlen_slice; exact Ib|]. intros k Hk C. rewrite slice_bit by (exact Ib || lia). f_equal.
    destruct (h_type h =? T_BOOL) eqn:T; [|lia]. unfold bits_path in P. lia.
Qed.

(** ** C123: what is asked of the server *)
Theorem C123_add_partial : forall J fd h d, int32 (h_index h) -> slice_ok h -> enough h d -> 12 + 2 * ovr_size h <= 4088 ->
  exists nd m, carried fd (enc_add_override J h d) (OpOvAdd fd (h_index h) (h_byte h) nd m) /\
    zlen nd = ovr_size h /\ zlen m = ovr_size h /\
    forall k, 0 <= k < 8 * ovr_size h -> bit m k = covered h k /\ (covered h k = true -> bit nd k = bit d (k - first h)).
Proof.
  intros J fd h d Hi O En Sz. destruct (ovr_mask_spec h O) as (m & Em & Lm & _ & Km). destruct (ovr_data_spec h d O En) as (nd & Ed & Ln & Kn).
  exists nd, m. split; [|split; [exact Ln|]; split; [exact Lm|]; intros k Hk; split; [apply Km; exact Hk | intros C; apply Kn; assumption]].
  assert (S1 := ovr_size_ge h O). destruct O as (Z1 & Z2 & _).
  assert (Lj : zlen (junk J 8 4) = 4) by reflexivity.
  eapply carried_intro; [unfold enc_add_override; rewrite Ed; cbn [rbind]; rewrite Em; cbn [rbind]; replace (4088 <? 12 + 2 * ovr_size h) with false by lia; reflexivity| |].
  - split; cbn [fst snd]; [cbn; lia|]. rewrite !zlen_app, Lj, Ln, Lm, !zlen_le4. lia.
  - unfold decode. rewrite i32_here by exact Hi. cbn [rbind]. rewrite i32_skip by (rewrite zlen_le4; lia). rewrite zlen_le4. change (4 - 4) with 0.
    rewrite i32_here by (unfold int32; lia). cbn [rbind].
    assert (Lt : zlen (le4 (h_index h) ++ le4 (h_byte h) ++ junk J 8 4 ++ nd ++ m) = 12 + 2 * ovr_size h) by (rewrite !zlen_app, Lj, Ln, Lm, !zlen_le4; lia).
    rewrite Lt. replace (12 + 2 * ovr_size h <? 12) with false by lia. cbv zeta. replace ((12 + 2 * ovr_size h - 12) / 2) with (ovr_size h) by lia.
    rewrite (slice_skip (le4 (h_index h))) by (rewrite zlen_le4; lia). rewrite (slice_skip (le4 (h_byte h))) by (rewrite ?zlen_le4; lia). rewrite (slice_skip (junk J 8 4)) by (rewrite Lj, ?zlen_le4; lia).
    rewrite (slice_skip (le4 (h_index h))) by (rewrite zlen_le4; lia). rewrite (slice_skip (le4 (h_byte h))) by (rewrite ?zlen_le4; lia). rewrite (slice_skip (junk J 8 4)) by (rewrite Lj, ?zlen_le4; lia).
    rewrite !zlen_le4, Lj. replace (12 - 4 - 4 - 4) with 0 by lia. rewrite (slice_app1 nd m) by exact Ln.
    rewrite (slice_skip nd) by lia. replace (12 + ovr_size h - 4 - 4 - 4 - zlen nd) with 0 by lia.
    replace (slice 0 (ovr_size h) m) with m; [reflexivity|]. rewrite <- (app_nil_r m) at 2. rewrite slice_app1 by exact Lm. reflexivity.
Qed.
Theorem C123_del_partial : forall fd h, int32 (h_index h) -> slice_ok h -> 8 + ovr_size h <= 4088 ->
  exists m, carried fd (enc_del_override h) (OpOvDel fd (h_index h) (h_byte h) m) /\ zlen m = ovr_size h /\
    forall k, 0 <= k < 8 * ovr_size h -> bit m k = covered h k.
Proof.
  intros fd h Hi O Sz. destruct (ovr_mask_spec h O) as (m & Em & Lm & _ & Km). exists m. split; [|split; assumption].
  assert (S1 := ovr_size_ge h O). destruct O as (Z1 & Z2 & _).
  eapply carried_intro; [unfold enc_del_override; rewrite Em; cbn [rbind]; replace (4088 <? 8 + ovr_size h) with false by lia; reflexivity| |].
  - split; cbn [fst snd]; [cbn; lia|]. rewrite !zlen_app, Lm, !zlen_le4. lia.
  - unfold decode. rewrite i32_here by exact Hi. cbn [rbind]. rewrite i32_skip by (rewrite zlen_le4; lia). rewrite zlen_le4. change (4 - 4) with 0.
    rewrite i32_here by (unfold int32; lia). cbn [rbind]. rewrite !rest_skip by (rewrite ?zlen_le4; lia). rewrite !zlen_le4. reflexivity.
Qed.

(** ** C123: what readers see *)
Lemma ask_inv E s o s' r : ask E s o = Done (s', r) ->
  step E s o = Done s' /\ r = match rev (s_out s') with OResp _ _ p :: _ => inl p | OErr _ _ c :: _ => inr c | _ => inr E_TIMEOUT end.
Proof. unfold ask. intros H. apply rbind_done in H as (x & H & Q). injection Q as <- Q. auto. Qed.
Lemma answered_last s s' a : answered s s' a -> exists l, rev (s_out s') = a :: l.
Proof. intros (ev & -> & _). rewrite !rev_app_distr. eexists. reflexivity. Qed.
Lemma add_answer E s fd i off d m s' : step E s (OpOvAdd fd i off d m) = Done s' ->
  answered s s' (OResp fd MSG_ADD_OVRD []) \/ exists e, e <> 0 /\ answered s s' (OErr fd MSG_ADD_OVRD e).
Proof.
  intros H. apply step_inv in H as (s1 & u & H & ->). cbn [handle_op] in H. inv1 H. apply reply_status_done in H. subst s1.
  assert (EO := override_add_evout _ _ _ _ _ _ _ _ Hm). destruct (v =? 0) eqn:Q.
  - left. apply answered_step, answered_resp. exact EO.
  - right. exists v. split; [lia|]. apply answered_step, answered_err. exact EO.
Qed.
Lemma ask_add E s fd h d s' : dax_tag_add_override E fd s h d = Done (s', 0) -> slice_ok h -> enough h d ->
  exists nd m, step E s (OpOvAdd fd (h_index h) (h_byte h) nd m) = Done s' /\ answered s s' (OResp fd MSG_ADD_OVRD []) /\
    zlen nd = ovr_size h /\ zlen m = ovr_size h /\ bytes_ok m /\ 12 + 2 * ovr_size h <= 4088 /\
    forall k, 0 <= k < 8 * ovr_size h -> bit m k = covered h k /\ (covered h k = true -> bit nd k = bit d (k - first h)).
Proof.
  intros H O En. destruct (ovr_mask_spec h O) as (m & Em & Lm & Bm & Km). destruct (ovr_data_spec h d O En) as (nd & Ed & Ln & Kn).
  unfold dax_tag_add_override in H. rewrite Ed in H. cbn [rbind] in H. rewrite Em in H. cbn [rbind] in H.
  destruct (4088 <? 12 + 2 * ovr_size h) eqn:Q; [discriminate|]. apply rbind_done in H as ((s1 & r) & H & H2). apply ask_inv in H as (St & Hr).
  destruct O as (Z1 & Z2 & _). rewrite s32_small in St by lia. exists nd, m.
  destruct (add_answer _ _ _ _ _ _ _ _ St) as [A | (e & Ne & A)]; destruct (answered_last _ _ _ A) as (l & Hl); rewrite Hl in Hr; subst r; inversion H2; subst; [|congruence].
  split; [exact St|]. split; [exact A|]. split; [exact Ln|]. split; [exact Lm|]. split; [exact Bm|]. split; [lia|].
  intros k Hk. split; [apply Km; exact Hk | intros C; apply Kn; assumption].
Qed.
(** Adding an override through a handle and switching it on: readers see the caller's data in the bits of the handle and the
    stored data in the other bits of those bytes; switched off, they see the stored data.
    FULL STATEMENT: for every tag and handle.  MISSING: BOOL tags, tags that have an override already, requests of more than
    4088 bytes (see below), bytes of the tag outside the handle (C14). *)
Theorem C123_seen_partial : forall E s fd h d b s1 s2 e,
  reachable E s -> 9 <= h_index h -> stored s (h_index h) b -> zlen b < 2147483648 -> slice_ok h -> enough h d ->
  (forall t, znth (s_db s) (h_index h) = Some t -> t_type t <> T_BOOL /\ t_odata t = None) ->
  dax_tag_add_override E fd s h d = Done (s1, 0) -> dax_switch_override E fd s1 h true = Done (s2, e) ->
  e = 0 /\ stored s2 (h_index h) b /\ h_byte h + ovr_size h <= zlen b /\
  (forall rfd, exists r, step E s2 (OpRead rfd (h_index h) (h_byte h) (ovr_size h)) = Done (after s2 [OResp rfd MSG_TAG_READ r]) /\ zlen r = ovr_size h /\
     forall k, 0 <= k < 8 * ovr_size h -> bit r k = if covered h k then bit d (k - first h) else bit b (k + 8 * h_byte h)) /\
  forall s3 e3, dax_switch_override E fd s2 h false = Done (s3, e3) -> e3 = 0 /\
    forall rfd, step E s3 (OpRead rfd (h_index h) (h_byte h) (ovr_size h)) = Done (after s3 [OResp rfd MSG_TAG_READ (slice (h_byte h) (ovr_size h) b)]).
Proof.
  intros E s fd h d b s1 s2 e R Hi S Hb O En Nt H1 H2. destruct (ask_add _ _ _ _ _ _ H1 O En) as (nd & m & St & A & Ln & Lm & Bm & Sz & K).
  assert (Z2 := proj1 (proj2 O)). assert (S1 := ovr_size_ge h O). destruct O as (Z1 & _ & _).
  destruct (C13_install _ _ _ _ _ _ _ _ _ R Hi S Hb (eq_trans Lm (eq_sym Ln)) (proj1 Z2) (fun t Q => proj1 (Nt t Q)) (fun t Q => proj2 (Nt t Q)) St A)
    as (B & St1 & od & om & O1 & L1 & L2 & E1 & E2).
  assert (R1 := reachable_step _ _ _ _ R St). unfold dax_switch_override in H2. apply rbind_done in H2 as ((x & r) & H2 & H3). apply ask_inv in H2 as (St2 & Hr).
  destruct (C13_set _ _ _ _ _ _ _ _ _ R1 Hi St1 O1 (fun Q : 255 = 0 => ltac:(discriminate Q)) St2) as (S2 & O2 & A2). destruct (answered_last _ _ _ A2) as (l & Hl). rewrite Hl in Hr. subst r.
  injection H3 as -> <-. split; [reflexivity|]. split; [exact S2|]. split; [lia|]. assert (R2 := reachable_step _ _ _ _ R1 St2). split.
  - intros rfd. rewrite Ln in *. assert (Bo : bytes_ok (slice (h_byte h) (ovr_size h) om)) by (rewrite E2; exact Bm).
    destruct (C13_read_mixes E s2 rfd (h_index h) (h_byte h) (ovr_size h) b od om R2 S2 Hb O2 Bo) as (r & P1 & P2 & P3); try lia; [unfold MSG_DATA_SIZE, DAX_MSGMAX; lia|].
    exists r. split; [exact P1|]. split; [exact P2|]. intros k Hk. rewrite (P3 k Hk).
    assert (I1 : in_bounds (h_byte h) (ovr_size h) (zlen od) = true) by (apply in_bounds_iff; lia).
    assert (I2 : in_bounds (h_byte h) (ovr_size h) (zlen om) = true) by (apply in_bounds_iff; lia).
    rewrite <- (slice_bit (h_byte h) (ovr_size h) om k) by (assumption || lia). rewrite <- (slice_bit (h_byte h) (ovr_size h) od k) by (assumption || lia).
    rewrite E1, E2. destruct (K k Hk) as [K1 K2]. rewrite K1. destruct (covered h k); [apply K2|]; reflexivity.
  - intros s3 e3 H4. unfold dax_switch_override in H4. apply rbind_done in H4 as ((x & r) & H4 & H5). apply ask_inv in H4 as (St3 & Hr).
    destruct (C13_clear _ _ _ _ _ _ R2 Hi S2 St3) as (S3 & O3 & A3). destruct (answered_last _ _ _ A3) as (l3 & Hl3). rewrite Hl3 in Hr. subst r.
    injection H5 as -> <-. split; [reflexivity|]. assert (R3 := reachable_step _ _ _ _ R2 St3). intros rfd.
    apply C04_read_stored; try assumption; try lia. unfold MSG_DATA_SIZE, DAX_MSGMAX; lia.
Qed.
(** the buffer of the library overflows *)
Theorem C123_size_refuted : forall J h d, slice_ok h -> enough h d -> 2038 < h_size h -> enc_add_override J h d = Undef UOob.
Proof.
  intros J h d O En Q. destruct (ovr_mask_spec h O) as (m & Em & _). destruct (ovr_data_spec h d O En) as (nd & Ed & _). assert (S1 := ovr_size_ge h O).
  unfold enc_add_override. rewrite Ed. cbn [rbind]. rewrite Em. cbn [rbind]. replace (4088 <? 12 + 2 * ovr_size h) with true by lia. reflexivity.
Qed.
Theorem C123_del_size_refuted : forall h, slice_ok h -> 4080 < h_size h -> enc_del_override h = Undef UOob.
Proof.
  intros h O Q. destruct (ovr_mask_spec h O) as (m & Em & _). assert (S1 := ovr_size_ge h O).
  unfold enc_del_override. rewrite Em. cbn [rbind]. replace (4088 <? 8 + ovr_size h) with true by lia. reflexivity.
Qed.
(** bits 4 to 11 of the last INT of baz: one byte too many is sent and the request is refused *)
Theorem C123_edge_refuted : exists s', stored demo 15 (zeros 8) /\ slice_ok (mk_h 15 6 4 8 2 T_BOOL) /\ inside (mk_h 15 6 4 8 2 T_BOOL) (zeros 8) /\
  dax_tag_add_override env0 5 demo (mk_h 15 6 4 8 2 T_BOOL) [255] = Done (s', E_2BIG).
Proof.
  eexists. split; [eexists; split; [vm_compute; reflexivity|]; split; vm_compute; reflexivity|].
  split; [unfold slice_ok; cbn; lia|]. split; [unfold inside; vm_compute; intuition congruence|]. vm_compute. reflexivity.
Qed.
(** three bits of a BOOL tag: the server writes outside its memory (C14) *)
Theorem C123_bool_refuted : slice_ok (mk_h 14 0 2 3 1 T_BOOL) /\ stored demo 14 [0; 0] /\ dax_tag_add_override env0 5 demo (mk_h 14 0 2 3 1 T_BOOL) [7] = Undef UOob.
Proof.
  split; [unfold slice_ok; cbn; lia|]. split; [eexists; split; [vm_compute; reflexivity|]; split; vm_compute; reflexivity|]. vm_compute. reflexivity.
Qed.
(** bits 2 to 4 of the second INT of baz *)
Example C123_ex : let h := mk_h 15 2 2 3 1 T_BOOL in slice_ok h /\ enough h [7] /\ ovr_size h = 1 /\
  (forall t, znth (s_db demo) 15 = Some t -> t_type t <> T_BOOL /\ t_odata t = None) /\
  exists s1 s2, dax_tag_add_override env0 5 demo h [7] = Done (s1, 0) /\ dax_switch_override env0 5 s1 h true = Done (s2, 0) /\
    step env0 s2 (OpRead 6 15 2 1) = Done (after s2 [OResp 6 MSG_TAG_READ [28]]).
Proof.
  cbv zeta. split; [unfold slice_ok; cbn; lia|]. split; [vm_compute; congruence|]. split; [reflexivity|].
  split; [intros t H; vm_compute in H; injection H as <-; vm_compute; split; congruence|].
  eexists. eexists. split; [vm_compute; reflexivity|]. split; [vm_compute; reflexivity|]. vm_compute. reflexivity.
Qed.

(** ** C124: reading the override and the data under it *)
(** FULL STATEMENT: for every tag with an override and every handle the call gives the stored data and the mask of the bits of
    the handle.  MISSING: handles that do not begin at the tag's first byte, BOOL slices, more than 2044 bytes, BOOL tags (all refuted) *)
Theorem C124_get_partial : forall E s fd h b od om,
  reachable E s -> stored s (h_index h) b -> zlen b < 2147483648 -> override_in s (h_index h) od om -> zlen om = zlen b ->
  (forall t, znth (s_db s) (h_index h) = Some t -> t_type t <> T_BOOL) ->
  h_byte h = 0 -> 0 < h_size h <= 2044 -> h_size h <= zlen b ->
  exists s', dax_tag_get_override E fd s h = Done (s', inl (slice 0 (h_size h) b, slice 0 (h_size h) om)) /\ s_db s' = s_db s.
Proof.
  intros E s fd h b od om R (t & Ht & V & D) Hb (t' & Ht' & Od & Om) Lm Nb Hy Hz Hl. assert (t' = t) by congruence. subst t'.
  assert (I := reachable_Inv _ _ R). assert (Lb := zlen_nonneg b). unfold dax_tag_get_override. rewrite Hy, !s32_small by lia.
  assert (I1 : in_bounds 0 (h_size h) (zlen b) = true) by (apply in_bounds_iff; lia). assert (I2 : in_bounds 0 (h_size h) (zlen om) = true) by (apply in_bounds_iff; lia).
  assert (L1 := zlen_slice _ _ _ I1). assert (L2 := zlen_slice _ _ _ I2).
  assert (St : step E s (OpOvGet fd (h_index h) 0 (h_size h)) = Done (after s [OResp fd MSG_GET_OVRD (slice 0 (h_size h) b ++ slice 0 (h_size h) om)])).
  { unfold step. cbn [handle_op]. unfold bind at 1. unfold override_get. rewrite bind_get, Ht, D.
    rewrite (bind_lift_done _ _ _ _ (raw_stored _ _ _ _ I Ht D (Nb _ Ht))). rewrite s32_small by lia.
    replace (negb (fits32 (0 + h_size h))) with false by (unfold fits32; lia). replace (zlen b <? 0 + h_size h) with false by lia.
    replace (h_size h =? 0) with false by lia. replace ((h_size h <? 0) || (MSG_DATA_SIZE <? 2 * h_size h)) with false by (unfold MSG_DATA_SIZE, DAX_MSGMAX; lia).
    rewrite Om. rewrite (bind_lift_done _ _ _ _ (rd_ok _ _ _ I1)), (bind_lift_done _ _ _ _ (rd_ok _ _ _ I2)). unfold ret. unfold respond.
    rewrite zlen_app, L1, L2. replace (MSG_DATA_SIZE <? h_size h + h_size h) with false by (unfold MSG_DATA_SIZE, DAX_MSGMAX; lia). reflexivity. }
  rewrite (ask_after _ _ _ _ St). cbn [rbind]. rewrite slice_app1 by exact L1. rewrite slice_skip by lia. rewrite L1, Z.sub_diag.
  replace (slice 0 (h_size h) (slice 0 (h_size h) om)) with (slice 0 (h_size h) om) by (rewrite <- L2 at 2; rewrite slice_full; reflexivity). eexists. split; reflexivity.
Qed.
(** the second element of an array: the data of the first is returned *)
Definition ovr_ops : list op := demo_ops ++ [OpOvAdd 5 13 4 [9; 9; 9; 9] [255; 255; 255; 255]].
Definition ovr_server : server := after_ops env0 ovr_ops.
Lemma ovr_reachable : reachable env0 ovr_server.
Proof. apply after_reachable. vm_compute. reflexivity. Qed.
Theorem C124_offset_refuted : exists b od om s', stored ovr_server 13 b /\ override_in ovr_server 13 od om /\
  dax_tag_get_override env0 5 ovr_server (mk_h 13 4 0 1 4 T_DINT) = Done (s', inl ([0; 0; 0; 0], [0; 0; 0; 0])) /\
  slice 4 4 b = [1; 2; 3; 4] /\ slice 4 4 om = [255; 255; 255; 255].
Proof.
  eexists. eexists. eexists. eexists. split; [eexists; split; [vm_compute; reflexivity|]; split; vm_compute; reflexivity|].
  split; [eexists; split; [vm_compute; reflexivity|]; split; vm_compute; reflexivity|]. split; [vm_compute; reflexivity|]. split; vm_compute; reflexivity.
Qed.
(** bits 4 to 6 of an INT: the bits of the byte are returned where they are in the tag *)
Definition ovr_bits_server : server := after_ops env0 (demo_ops ++ [OpWrite 5 15 0 [80; 0]; OpOvAdd 5 15 0 [0; 0] [112; 0]]).
Theorem C124_bits_refuted : exists b s' x m, stored ovr_bits_server 15 b /\ bit b 4 = true /\ bit b 5 = false /\ bit b 6 = true /\
  dax_tag_get_override env0 5 ovr_bits_server (mk_h 15 0 4 3 1 T_BOOL) = Done (s', inl (x, m)) /\ bit x 0 = false /\ bit x 2 = false.
Proof.
  eexists. eexists. eexists. eexists. split; [eexists; split; [vm_compute; reflexivity|]; split; vm_compute; reflexivity|].
  split; [reflexivity|]. split; [reflexivity|]. split; [reflexivity|]. split; [vm_compute; reflexivity|]. split; reflexivity.
Qed.
(** a tag without an override: the server follows a null pointer *)
Theorem C124_none_refuted : exists b, stored demo 15 b /\ inside (mk_h 15 0 0 4 8 T_INT) b /\ dax_tag_get_override env0 5 demo (mk_h 15 0 0 4 8 T_INT) = Undef UNull.
Proof.
  eexists. split; [eexists; split; [vm_compute; reflexivity|]; split; vm_compute; reflexivity|].
  split; [unfold inside; vm_compute; intuition congruence|]. vm_compute. reflexivity.
Qed.
(** more than 2044 bytes: the answer does not fit the server's buffer *)
Definition ovr_big_server : server := after_ops env0 (demo_ops ++ [OpTagAdd 5 (str "wide") T_BYTE 2045 0; OpOvAdd 5 16 0 [1] [255]]).
Theorem C124_size_refuted : exists b, stored ovr_big_server 16 b /\ inside (mk_h 16 0 0 2045 2045 T_BYTE) b /\
  dax_tag_get_override env0 5 ovr_big_server (mk_h 16 0 0 2045 2045 T_BYTE) = Undef UOob.
Proof.
  eexists. split; [eexists; split; [vm_compute; reflexivity|]; split; vm_compute; reflexivity|].
  split; [unfold inside; vm_compute; intuition congruence|]. vm_compute. reflexivity.
Qed.
Example C124_ex : reachable env0 ovr_server /\ exists b od om, stored ovr_server 13 b /\ override_in ovr_server 13 od om /\ zlen om = zlen b /\
  exists s', dax_tag_get_override env0 5 ovr_server (mk_h 13 0 0 2 8 T_DINT) = Done (s', inl ([0; 0; 0; 0; 1; 2; 3; 4], [0; 0; 0; 0; 255; 255; 255; 255])).
Proof.
  split; [exact ovr_reachable|]. eexists. eexists. eexists. split; [eexists; split; [vm_compute; reflexivity|]; split; vm_compute; reflexivity|].
  split; [eexists; split; [vm_compute; reflexivity|]; split; vm_compute; reflexivity|]. split; [vm_compute; reflexivity|]. eexists. vm_compute. reflexivity.
Qed.
