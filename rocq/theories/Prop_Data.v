(** * Properties of the data of ordinary tags: C04 - C09, C12, C16, C17 *)
From Verif Require Import Base Const Types State Events Atomic Server Lib SearchProofs Shape Inv Reach Spec Frame Effects Out DataFrame Demo Prop_Tags.

(** ** sizes *)
Lemma s32_small x : -2147483648 <= x < 2147483648 -> s32 x = x.
Proof. unfold s32. intros H. destruct (x mod 4294967296 <? 2147483648) eqn:L; lia. Qed.
Lemma s32_u32 x : s32 (u32 x) = s32 x.
Proof. unfold s32, u32. rewrite Z.mod_mod by lia. reflexivity. Qed.
Lemma stored_size s i t b : Inv s -> znth (s_db s) i = Some t -> t_data t = DBytes b ->
  tag_size (s_types s) t = Done (s32 (zlen b)).
Proof.
  intros I Ht Hd. assert (T := iv_tags _ I _ _ Ht). assert (B := it_bytes _ _ T _ Hd).
  unfold new_size in B. unfold tag_size. destruct (t_type t =? T_BOOL); [congruence|].
  destruct (type_size (s_types s) (t_type t)); [|discriminate]. cbn in *. injection B as B. rewrite <- B, s32_u32. reflexivity.
Qed.
Lemma stored_tag s i b : stored s i b -> exists t, znth (s_db s) i = Some t /\ has (t_attr t) A_VIRTUAL = false /\ t_data t = DBytes b.
Proof. exact (fun H => H). Qed.
Lemma stored_fun s i b b' : stored s i b -> stored s i b' -> b = b'.
Proof. intros (t & A & _ & B) (u & C & _ & D). congruence. Qed.
(** no override is active on the tag *)
Definition no_override (s : server) (i : Z) : Prop := forall t, znth (s_db s) i = Some t -> has (t_attr t) A_OVR_SET = false.

(** ** the shape of a write request's outcome *)
Lemma zlen_nil_resp fd cmd s : respond fd cmd [] s = Done (set_out s (s_out s ++ [OResp fd cmd []]), tt).
Proof. reflexivity. Qed.
Lemma write_outcome E s fd i off d s' : step E s (OpWrite fd i off d) = Done s' ->
  (exists code, code < 0 /\ s' = after s [OErr fd MSG_TAG_WRITE code]) \/
  (exists s1 s2, tag_write E fd i off d s = Done (s1, 0) /\ map_check E i off (zlen d) s1 = Done (s2, tt) /\
     s' = after s2 [OResp fd MSG_TAG_WRITE []]).
Proof.
  intros H. apply step_inv in H as (s1 & u & H & ->). cbn [handle_op] in H. unfold h_write in H. inv1 H. inv1 H. inv1 H.
  destruct (has v A_READONLY && negb (tag_owned s fd i)).
  - inv1 Hm. left. exists E_READONLY. split; [reflexivity|]. cbn [Z.eqb E_READONLY negb] in H. unfold reply_err in H. inv_all. reflexivity.
  - destruct (negb (v0 =? 0)) eqn:N.
    + left. exists v0. assert (W := tag_write_cases _ _ _ _ _ _ _ _ Hm). destruct W; try discriminate.
      split; [assumption|]. unfold reply_err in H. inv_all. reflexivity.
    + right. assert (v0 = 0) by lia. subst v0. inv1 H. exists s0, s2. destruct v0. split; [exact Hm|]. split; [exact Hm0|].
      rewrite zlen_nil_resp in H. injection H as <- _. reflexivity.
Qed.
Lemma mask_outcome E s fd i off d m s' : step E s (OpMask fd i off d m) = Done s' ->
  (exists code, code < 0 /\ s' = after s [OErr fd MSG_TAG_MWRITE code]) \/
  (exists s1 s2, tag_mask_write E fd i off d m s = Done (s1, 0) /\ map_check E i off (zlen d) s1 = Done (s2, tt) /\
     s' = after s2 [OResp fd MSG_TAG_MWRITE []]).
Proof.
  intros H. apply step_inv in H as (s1 & u & H & ->). cbn [handle_op] in H. unfold h_mask in H. inv1 H. inv1 H. inv1 H.
  destruct (has v A_READONLY).
  - inv1 Hm. left. exists E_READONLY. split; [reflexivity|]. cbn [Z.eqb E_READONLY negb] in H. unfold reply_err in H. inv_all. reflexivity.
  - destruct (negb (v0 =? 0)) eqn:N.
    + left. exists v0. assert (W := tag_mask_write_cases _ _ _ _ _ _ _ _ _ Hm). destruct W; try discriminate.
      split; [assumption|]. unfold reply_err in H. inv_all. reflexivity.
    + right. assert (v0 = 0) by lia. subst v0. inv1 H. exists s0, s2. destruct v0. split; [exact Hm|]. split; [exact Hm0|].
      rewrite zlen_nil_resp in H. injection H as <- _. reflexivity.
Qed.
Lemma answered_after s o : answered s (after s [o]) o.
Proof. exists []. auto. Qed.
Lemma write_ok E s fd i off d s' : step E s (OpWrite fd i off d) = Done s' -> answered s s' (OResp fd MSG_TAG_WRITE []) ->
  exists s1 s2, tag_write E fd i off d s = Done (s1, 0) /\ map_check E i off (zlen d) s1 = Done (s2, tt) /\
     s' = after s2 [OResp fd MSG_TAG_WRITE []].
Proof.
  intros H A. apply write_outcome in H as [(c & _ & ->)|H]; [|exact H].
  assert (Q := answered_fun _ _ _ _ A (answered_after _ _)). discriminate.
Qed.
Lemma mask_ok E s fd i off d m s' : step E s (OpMask fd i off d m) = Done s' -> answered s s' (OResp fd MSG_TAG_MWRITE []) ->
  exists s1 s2, tag_mask_write E fd i off d m s = Done (s1, 0) /\ map_check E i off (zlen d) s1 = Done (s2, tt) /\
     s' = after s2 [OResp fd MSG_TAG_MWRITE []].
Proof.
  intros H A. apply mask_outcome in H as [(c & _ & ->)|H]; [|exact H].
  assert (Q := answered_fun _ _ _ _ A (answered_after _ _)). discriminate.
Qed.
Lemma stored_step s n i b : stored (set_step s n) i b <-> stored s i b.
Proof. reflexivity. Qed.
Lemma fk_stored i s s' b : dk i s s' -> ck i s s' -> stored s i b -> stored s' i b.
Proof.
  intros D C (t & H1 & H2 & H3). destruct (D _ H1) as (t1 & A1 & A2). destruct (C _ H1) as (t2 & B1 & B2).
  assert (t2 = t1) by congruence. subst t2. exists t1. split; [exact A1|]. unfold tcore in B2. unfold dbytes in A2. rewrite H3 in A2.
  split; [congruence|]. destruct (t_data t1); cbn in A2; congruence.
Qed.
Lemma map_check_stored E i off n j s s' b : maps_avoid s i j -> map_check E i off n s = Done (s', tt) -> stored s j b -> stored s' j b.
Proof.
  intros A H S. apply (fk_stored j s s' b); [eapply map_check_dk; eassumption | | exact S].
  apply fk_shape; [apply tag_shape_core | eapply map_check_shape; exact H].
Qed.

(** ** C04 *)
(** a read of a range of an ordinary tag returns what is stored there *)
Theorem C04_read_stored : forall E s fd i off n b,
  reachable E s -> stored s i b -> no_override s i ->
  0 <= off -> 0 <= n <= MSG_DATA_SIZE -> off + n <= zlen b -> zlen b < 2147483648 ->
  step E s (OpRead fd i off n) = Done (after s [OResp fd MSG_TAG_READ (slice off n b)]).
Proof.
  intros E s fd i off n b R (t & Ht & V & D) NO Ho Hn Hb Hs. assert (I := reachable_Inv _ _ R).
  assert (B : in_bounds off n (zlen b) = true) by (apply in_bounds_iff; lia).
  assert (L := zlen_slice _ _ _ B).
  unfold step. cbn [handle_op]. unfold h_read. rewrite bind_get. unfold bind, tag_read. rewrite Ht, V.
  assert (Fit : fits32 (off + n) = true) by (unfold fits32; lia). rewrite Fit. cbn [negb].
  rewrite (stored_size _ _ _ _ I Ht D). cbn [rbind]. rewrite s32_small by lia.
  replace (zlen b <? off + n) with false by lia. rewrite D, B. cbn [negb orb].
  replace (MSG_DATA_SIZE <? n) with false by lia. rewrite (NO _ Ht). replace (n <? 0) with false by lia. cbn [orb].
  rewrite L, Z.sub_diag. change (jbytes E (s_step s) n 0) with (@nil Z). rewrite app_nil_r.
  replace (firstn (Z.to_nat n) (slice off n b)) with (slice off n b).
  2:{ symmetry. apply firstn_all2. unfold zlen in L. lia. }
  unfold respond. rewrite L. replace (MSG_DATA_SIZE <? n) with false by lia. reflexivity.
Qed.
(** a write that is answered with success has stored the bytes at the offset *)
Theorem C04_write_stores : forall E s fd i off d s' b,
  reachable E s -> stored s i b -> maps_avoid s i i ->
  step E s (OpWrite fd i off d) = Done s' -> answered s s' (OResp fd MSG_TAG_WRITE []) ->
  in_bounds off (zlen d) (zlen b) = true /\ stored s' i (splice off d b).
Proof.
  intros E s fd i off d s' b R S M H A. apply write_ok in H as (s1 & s2 & H1 & H2 & ->); [|exact A].
  assert (W := tag_write_maps _ _ _ _ _ _ _ _ i H1). assert (Sh := tag_write_shape _ _ _ _ _ _ _ _ H1).
  assert (M1 : maps_avoid s1 i i) by (eapply maps_avoid_fk; [exact W | apply Sh | exact M]).
  apply tag_write_cases in H1. destruct S as (t0 & T1 & T2 & T3). inversion H1; subst.
  - lia.
  - congruence.
  - assert (t = t0) by congruence. subst t. assert (b0 = b) by congruence. subst b0. split; [assumption|].
    apply (map_check_stored _ _ _ _ i _ _ _ M1 H2). eexists. split; [cbn; apply znth_zset_eq; eapply znth_range; eassumption|].
    split; [exact T2 | reflexivity].
Qed.
Theorem C04_mask_stores : forall E s fd i off d m s' b,
  reachable E s -> stored s i b -> maps_avoid s i i ->
  step E s (OpMask fd i off d m) = Done s' -> answered s s' (OResp fd MSG_TAG_MWRITE []) ->
  in_bounds off (zlen d) (zlen b) = true /\ zlen d <= zlen m /\ stored s' i (splice off (mix (slice off (zlen d) b) d m) b).
Proof.
  intros E s fd i off d m s' b R S M H A. apply mask_ok in H as (s1 & s2 & H1 & H2 & ->); [|exact A].
  assert (W := tag_mask_write_maps _ _ _ _ _ _ _ _ _ i H1). assert (Sh := tag_mask_write_shape _ _ _ _ _ _ _ _ _ H1).
  assert (M1 : maps_avoid s1 i i) by (eapply maps_avoid_fk; [exact W | apply Sh | exact M]).
  apply tag_mask_write_cases in H1. destruct S as (t0 & T1 & T2 & T3). inversion H1; subst.
  - lia.
  - assert (t = t0) by congruence. subst t. assert (b0 = b) by congruence. subst b0. split; [assumption|]. split; [assumption|].
    apply (map_check_stored _ _ _ _ i _ _ _ M1 H2). eexists. split; [cbn; apply znth_zset_eq; eapply znth_range; eassumption|].
    split; [exact T2 | reflexivity].
Qed.
(** requests that do not change the bytes [off, off+n) of tag [i]: they leave the tag alone
    altogether, or they are writes to other bytes of it *)
Definition beside (off n off' n' : Z) : Prop := off' + n' <= off \/ off + n <= off'.
Definition leaves (s : server) (o : op) (i off n : Z) : Prop :=
  spares s o i \/
  match o with
  | OpWrite _ j off' d => j = i /\ maps_avoid s i i /\ beside off n off' (zlen d)
  | OpMask _ j off' d _ => j = i /\ maps_avoid s i i /\ beside off n off' (zlen d)
  | _ => False
  end.
(** a history all of whose requests do *)
Inductive left_alone (E : env) (i off n : Z) : server -> list op -> server -> Prop :=
| la_nil s : left_alone E i off n s [] s
| la_cons s o s1 os s2 : leaves s o i off n -> step E s o = Done s1 -> left_alone E i off n s1 os s2 ->
    left_alone E i off n s (o :: os) s2.
Lemma slice_splice_beside off n off' d b : in_bounds off' (zlen d) (zlen b) = true -> 0 <= off -> 0 <= n -> beside off n off' (zlen d) ->
  slice off n (splice off' d b) = slice off n b.
Proof.
  intros B Ho Hn Q. assert (Lz := zlen_splice _ _ _ B). apply znth_ext. intros k Hk.
  destruct (Z_lt_le_dec k n).
  - rewrite !znth_slice by lia. rewrite znth_splice by (assumption || lia).
    destruct ((off' <=? off + k) && (off + k <? off' + zlen d)) eqn:C; [|reflexivity]. unfold beside in Q. lia.
  - assert (L : forall x : list Z, zlen (slice off n x) <= n) by (intros x; unfold slice; rewrite zlen_firstn; lia).
    rewrite !(proj2 (znth_none _ _)); [reflexivity | right | right]; [specialize (L b) | specialize (L (splice off' d b))]; lia.
Qed.
Lemma zlen_mix o n m : zlen n = zlen o -> zlen o <= zlen m -> zlen (mix o n m) = zlen o.
Proof. intros A B. unfold zlen in *. rewrite mix_length; lia. Qed.
Lemma leaves_step E s o s' i off n b : reachable E s -> 9 <= i -> 0 <= off -> 0 <= n -> leaves s o i off n ->
  step E s o = Done s' -> stored s i b -> exists b', stored s' i b' /\ zlen b' = zlen b /\ slice off n b' = slice off n b.
Proof.
  intros R Hi Ho Hn L H S. assert (I := reachable_Inv _ _ R). destruct L as [L|L].
  - exists b. split; [|auto]. eapply fk_stored; [eapply bytes_frame | eapply core_frame |]; eassumption.
  - destruct o; try tauto; destruct L as (-> & M & B).
    + assert (H0 := H). apply write_outcome in H0 as [(c & _ & ->)|(s1 & s2 & _ & _ & Q)]; [exists b; auto|].
      assert (A : answered s s' (OResp fd MSG_TAG_WRITE [])).
      { subst s'. apply write_outcome in H as [(c & _ & X)|(t1 & t2 & H1 & H2 & H3)].
        - exfalso. assert (Y : s_out (Spec.after s2 [OResp fd MSG_TAG_WRITE []]) = s_out (Spec.after s [OErr fd MSG_TAG_WRITE c])) by congruence.
          cbn in Y. apply app_last_inj in Y. discriminate.
        - rewrite H3. apply answered_step, answered_resp. eapply evout_trans; [eapply tag_write_evout; exact H1 | eapply map_check_evout; exact H2]. }
      destruct (C04_write_stores _ _ _ _ _ _ _ _ R S M H A) as [Bd St].
      exists (splice off0 d b). split; [exact St|]. split; [apply zlen_splice; exact Bd | apply slice_splice_beside; assumption].
    + assert (H0 := H). apply mask_outcome in H0 as [(c & _ & ->)|(s1 & s2 & _ & _ & Q)]; [exists b; auto|].
      assert (A : answered s s' (OResp fd MSG_TAG_MWRITE [])).
      { subst s'. apply mask_outcome in H as [(c & _ & X)|(t1 & t2 & H1 & H2 & H3)].
        - exfalso. assert (Y : s_out (Spec.after s2 [OResp fd MSG_TAG_MWRITE []]) = s_out (Spec.after s [OErr fd MSG_TAG_MWRITE c])) by congruence.
          cbn in Y. apply app_last_inj in Y. discriminate.
        - rewrite H3. apply answered_step, answered_resp. eapply evout_trans; [eapply tag_mask_write_evout; exact H1 | eapply map_check_evout; exact H2]. }
      destruct (C04_mask_stores _ _ _ _ _ _ _ _ _ R S M H A) as (Bd & Lm & St).
      assert (Lx : zlen (mix (slice off0 (zlen d) b) d m) = zlen d) by (rewrite zlen_mix; rewrite zlen_slice; auto).
      exists (splice off0 (mix (slice off0 (zlen d) b) d m) b). split; [exact St|].
      split; [apply zlen_splice; rewrite Lx; exact Bd | apply slice_splice_beside; rewrite ?Lx; assumption].
Qed.
(** C04: write, then any history that leaves the range alone, then read: the bytes come back *)
Theorem C04_read_after_write : forall E s fd i off d b s' os s'' fd',
  reachable E s -> 9 <= i -> stored s i b -> zlen b < 2147483648 -> zlen d <= MSG_DATA_SIZE -> maps_avoid s i i ->
  step E s (OpWrite fd i off d) = Done s' -> answered s s' (OResp fd MSG_TAG_WRITE []) ->
  left_alone E i off (zlen d) s' os s'' -> no_override s'' i ->
  step E s'' (OpRead fd' i off (zlen d)) = Done (after s'' [OResp fd' MSG_TAG_READ d]).
Proof.
  intros E s fd i off d b s' os s'' fd' R Hi S Hb Hd M H A L NO.
  destruct (C04_write_stores _ _ _ _ _ _ _ _ R S M H A) as [Bd St].
  assert (Bd' := Bd). apply in_bounds_iff in Bd' as (B1 & B2 & B3).
  assert (R' := reachable_step _ _ _ _ R H). assert (Sl := slice_splice_same _ _ _ Bd). assert (Ls := zlen_splice _ _ _ Bd).
  set (b0 := splice off d b) in *. clearbody b0. clear H A M S R.
  assert (K : forall n, zlen d = n -> exists b1, stored s'' i b1 /\ zlen b1 = zlen b /\ slice off (zlen d) b1 = d /\ reachable E s'').
  { intros n _. revert b0 St Sl Ls R'. induction L as [s1|s1 o s2 os s3 Lv Hs L IH]; intros b0 St Sl Ls R'; [exists b0; auto|].
    destruct (leaves_step _ _ _ _ _ _ _ _ R' Hi B1 B2 Lv Hs St) as (b1 & X1 & X2 & X3).
    apply (IH NO b1); [exact X1 | congruence | congruence | eapply reachable_step; eassumption]. }
  destruct (K _ eq_refl) as (b1 & X1 & X2 & X3 & X4).
  rewrite (C04_read_stored E s'' fd' i off (zlen d) b1); try assumption; try lia. rewrite X3. reflexivity.
Qed.
Ltac find_tag := eexists; split; [vm_compute; reflexivity|].
Ltac pick_maps := let t := fresh in let l := fresh in let A := fresh in let B := fresh in
  intros t l A B; vm_compute in A; injection A as <-; vm_compute in B; injection B as <-.
Example C04_ex : exists s' s'',
  step env0 demo (OpWrite 6 13 8 [7; 8; 9]) = Done s' /\ answered demo s' (OResp 6 MSG_TAG_WRITE []) /\
  left_alone env0 13 8 3 s' [OpWrite 5 14 0 [1]; OpWrite 6 13 0 [5; 5; 5; 5; 5; 5; 5; 5]; OpTagDel 5 15] s'' /\ no_override s'' 13 /\
  (exists b, stored demo 13 b /\ zlen b < 2147483648) /\ maps_avoid demo 13 13 /\
  step env0 s'' (OpRead 5 13 8 3) = Done (after s'' [OResp 5 MSG_TAG_READ [7; 8; 9]]).
Proof.
  eexists; eexists. split; [vm_compute; reflexivity|]. split; [exists []; split; [vm_compute; reflexivity | constructor]|].
  split.
  { eapply la_cons; [|vm_compute; reflexivity|eapply la_cons; [|vm_compute; reflexivity|eapply la_cons; [|vm_compute; reflexivity|apply la_nil]]].
    - left. split; [discriminate|]. pick_maps. constructor.
    - right. split; [reflexivity|]. split; [pick_maps; constructor|]. left. vm_compute. discriminate.
    - left. discriminate. }
  split; [intros t A; vm_compute in A; injection A as <-; vm_compute; reflexivity|].
  split; [eexists; split; [find_tag; split; vm_compute; reflexivity | vm_compute; reflexivity]|].
  split; [pick_maps; constructor | vm_compute; reflexivity].
Qed.

(** ** C05 *)
(** nothing but the bytes of tag [i] (and the state of the events on it) has changed *)
Definition only_data (s s' : server) (i : Z) : Prop :=
  (forall j, j <> i -> znth (s_db s') j = znth (s_db s) j) /\ zlen (s_db s') = zlen (s_db s) /\
  (forall t, znth (s_db s) i = Some t -> exists t', znth (s_db s') i = Some t' /\
     (t_type t', t_attr t', t_count t', t_name t', t_fd t', t_nextev t', t_nextmap t') =
     (t_type t, t_attr t, t_count t, t_name t, t_fd t, t_nextev t, t_nextmap t) /\
     (t_maps t', t_omask t', t_odata t', t_retid t') = (t_maps t, t_omask t, t_odata t, t_retid t) /\
     map (fun e => set_test e []) (t_events t') = map (fun e => set_test e []) (t_events t)) /\
  (s_index s', s_types s', s_tagcount s', s_ovi s', s_ovs s', s_mods s', s_dbsize s') =
  (s_index s, s_types s, s_tagcount s, s_ovi s, s_ovs s, s_mods s, s_dbsize s).
Lemma check_events_same E mods i b off n evs evs' o : check_events E mods i b off n evs = Done (evs', o) ->
  map (fun e => set_test e []) evs' = map (fun e => set_test e []) evs.
Proof.
  revert evs' o; induction evs as [|e evs IH]; intros evs' o H; cbn [check_events] in H; [injection H as <- _; reflexivity|].
  destruct (ev_overlap e off n).
  - apply rbind_done in H as [[t' h] [H1 H]]. apply rbind_done in H as [x [H2 H]]. apply rbind_done in H as [[y1 y2] [H3 H]].
    injection H as <- _. cbn [map fst]. rewrite (IH _ _ H3). reflexivity.
  - apply rbind_done in H as [[y1 y2] [H3 H]]. injection H as <- _. cbn [map fst]. rewrite (IH _ _ H3). reflexivity.
Qed.
Definition no_mapping (s : server) (i : Z) : Prop := forall t, znth (s_db s) i = Some t -> t_maps t = Some [].
Lemma committed_only s i t b evs o r : znth (s_db s) i = Some t ->
  map (fun e => set_test e []) evs = map (fun e => set_test e []) (t_events t) -> only_data s (committed s i t b evs o r) i.
Proof.
  intros Ht He. split; [intros j Hj; cbn; apply znth_zset_ne; congruence|]. split; [cbn; apply zset_zlen|]. split; [|reflexivity].
  intros t0 H0. assert (t0 = t) by congruence. subst t0. eexists.
  split; [cbn; apply znth_zset_eq; eapply znth_range; eassumption|]. repeat split; exact He.
Qed.
Lemma no_mapping_check E i off n s s' : no_mapping s i -> map_check E i off n s = Done (s', tt) -> s' = s.
Proof. intros N H. unfold map_check in H. inv1 H. rewrite (N _ Ht) in H. cbn [map_loop] in H. unfold ret in H. congruence. Qed.
Lemma only_after s s' i x : only_data s s' i -> only_data s (after s' x) i.
Proof. exact (fun H => H). Qed.
Theorem C05_write_exact : forall E s fd i off d s' b,
  reachable E s -> stored s i b -> no_mapping s i ->
  step E s (OpWrite fd i off d) = Done s' -> answered s s' (OResp fd MSG_TAG_WRITE []) ->
  only_data s s' i /\
  exists b', stored s' i b' /\ zlen b' = zlen b /\ slice off (zlen d) b' = d /\
    forall k, 0 <= k < zlen b -> ~ (off <= k < off + zlen d) -> nthb b' k = nthb b k.
Proof.
  intros E s fd i off d s' b R S N H A.
  assert (M : maps_avoid s i i) by (intros t l Ht Hl; rewrite (N _ Ht) in Hl; injection Hl as <-; constructor).
  destruct (C04_write_stores _ _ _ _ _ _ _ _ R S M H A) as [Bd St]. split.
  - apply write_ok in H as (s1 & s2 & H1 & H2 & ->); [|exact A].
    assert (W := tag_write_maps _ _ _ _ _ _ _ _ i H1). assert (N1 : no_mapping s1 i).
    { intros t Ht. destruct S as (t0 & T1 & _). destruct (W _ T1) as (t1 & A1 & A2). rewrite (N _ T1) in A2. congruence. }
    apply no_mapping_check in H2; [|exact N1]. subst s2. apply only_after.
    apply tag_write_cases in H1. destruct S as (t0 & T1 & T2 & T3). inversion H1; subst; [lia | congruence|].
    apply committed_only; [assumption|]. eapply check_events_same; eassumption.
  - exists (splice off d b). split; [exact St|]. split; [apply zlen_splice; exact Bd|]. split; [apply slice_splice_same; exact Bd|].
    intros k Hk Ho. assert (Z1 := znth_splice off d b k Bd ltac:(lia)).
    replace ((off <=? k) && (k <? off + zlen d)) with false in Z1 by lia.
    rewrite (znth_nthb b) in Z1 by lia. apply nthb_znth. exact Z1.
Qed.
(** also when there are mappings: any other tag that is not a destination of one keeps its bytes *)
Theorem C05_other_tags : forall E s fd i j off d s' b,
  reachable E s -> 9 <= j -> j <> i -> stored s j b -> maps_avoid s i j ->
  step E s (OpWrite fd i off d) = Done s' -> stored s' j b.
Proof.
  intros E s fd i j off d s' b R Hj Hne S M H. assert (I := reachable_Inv _ _ R).
  assert (Sp : spares s (OpWrite fd i off d) j) by (split; [congruence | exact M]).
  eapply fk_stored; [eapply bytes_frame | eapply core_frame |]; eassumption.
Qed.
Example C05_ex : exists s' b, stored demo 13 b /\ no_mapping demo 13 /\
  step env0 demo (OpWrite 6 13 8 [7; 8; 9]) = Done s' /\ answered demo s' (OResp 6 MSG_TAG_WRITE []).
Proof.
  eexists; eexists. split; [find_tag; split; vm_compute; reflexivity|].
  split; [intros t A; vm_compute in A; injection A as <-; vm_compute; reflexivity|].
  split; [vm_compute; reflexivity|]. exists []. split; [vm_compute; reflexivity | constructor].
Qed.

(** ** C06 *)
Lemma bnot_bit m j : 0 <= m < 256 -> 0 <= j < 8 -> Z.testbit (bnot m) j = negb (Z.testbit m j).
Proof.
  intros Hm Hj.
  assert (C : forallb (fun a => forallb (fun b => Bool.eqb (Z.testbit (bnot (Z.of_nat a)) (Z.of_nat b)) (negb (Z.testbit (Z.of_nat a) (Z.of_nat b))))
     (seq 0 8)) (seq 0 256) = true) by (vm_compute; reflexivity).
  rewrite forallb_forall in C. assert (C1 : In (Z.to_nat m) (seq 0 256)) by (apply in_seq; lia).
  apply C in C1. rewrite forallb_forall in C1. assert (C2 : In (Z.to_nat j) (seq 0 8)) by (apply in_seq; lia).
  apply C1 in C2. rewrite !Z2Nat.id in C2 by lia. apply Bool.eqb_prop in C2. exact C2.
Qed.
Lemma znth_mix o n m k x y z : znth o k = Some x -> znth n k = Some y -> znth m k = Some z ->
  znth (mix o n m) k = Some (Z.lor (Z.land y z) (Z.land x (bnot z))).
Proof.
  revert n m k; induction o as [|a o IH]; intros n m k H1 H2 H3.
  - apply znth_range in H1. cbn in H1. lia.
  - destruct n as [|c n]; [apply znth_range in H2; cbn in H2; lia|]. destruct m as [|e m]; [apply znth_range in H3; cbn in H3; lia|].
    cbn [mix]. destruct (Z.eq_dec k 0) as [->|].
    + rewrite znth_0 in *. congruence.
    + assert (0 <= k) by (apply znth_range in H1; lia). replace k with (k - 1 + 1) in * by lia. rewrite znth_S in * by lia.
      apply IH; assumption.
Qed.
Lemma mix_bit o n m k : zlen n = zlen o -> zlen m >= zlen o -> bytes_ok m -> 0 <= k < 8 * zlen o ->
  bit (mix o n m) k = if bit m k then bit n k else bit o k.
Proof.
  intros L1 L2 Bm Hk. unfold bit. assert (R : 0 <= k / 8 < zlen o) by lia.
  assert (B : 0 <= nthb m (k / 8) < 256).
  { apply (proj1 (bytes_ok_znth m) Bm (k / 8)). apply znth_nthb. lia. }
  rewrite (nthb_znth _ _ _ (znth_mix o n m (k / 8) _ _ _ (znth_nthb o _ R) (znth_nthb n (k / 8) ltac:(lia)) (znth_nthb m (k / 8) ltac:(lia)))).
  rewrite Z.lor_spec, !Z.land_spec. rewrite bnot_bit by lia.
  destruct (Z.testbit (nthb m (k / 8)) (k mod 8)); cbn [negb]; rewrite ?andb_true_r, ?andb_false_r, ?orb_false_r; reflexivity.
Qed.
Lemma splice_bit off d b k : in_bounds off (zlen d) (zlen b) = true -> 0 <= k < 8 * zlen b ->
  bit (splice off d b) k = if (8 * off <=? k) && (k <? 8 * (off + zlen d)) then bit d (k - 8 * off) else bit b k.
Proof.
  intros Bd Hk. unfold bit. assert (Z1 := znth_splice off d b (k / 8) Bd ltac:(lia)). apply in_bounds_iff in Bd.
  destruct ((8 * off <=? k) && (k <? 8 * (off + zlen d))) eqn:C.
  - replace ((off <=? k / 8) && (k / 8 <? off + zlen d)) with true in Z1 by lia.
    rewrite (znth_nthb d) in Z1 by lia. rewrite (nthb_znth _ _ _ Z1).
    replace ((k - 8 * off) / 8) with (k / 8 - off) by lia. replace ((k - 8 * off) mod 8) with (k mod 8) by lia. reflexivity.
  - replace ((off <=? k / 8) && (k / 8 <? off + zlen d)) with false in Z1 by lia.
    rewrite (znth_nthb b) in Z1 by lia. rewrite (nthb_znth _ _ _ Z1). reflexivity.
Qed.
Lemma slice_bit off n b k : in_bounds off n (zlen b) = true -> 0 <= k < 8 * n -> bit (slice off n b) k = bit b (k + 8 * off).
Proof.
  intros Bd Hk. unfold bit. apply in_bounds_iff in Bd. assert (Z1 := znth_slice off n b (k / 8) ltac:(lia) ltac:(lia)).
  rewrite (znth_nthb b) in Z1 by lia. rewrite (nthb_znth _ _ _ Z1).
  replace ((k + 8 * off) / 8) with (off + k / 8) by lia. replace ((k + 8 * off) mod 8) with (k mod 8) by lia. reflexivity.
Qed.
Theorem C06_mask_bits : forall E s fd i off d m s' b,
  reachable E s -> stored s i b -> no_mapping s i -> bytes_ok m ->
  step E s (OpMask fd i off d m) = Done s' -> answered s s' (OResp fd MSG_TAG_MWRITE []) ->
  only_data s s' i /\
  exists b', stored s' i b' /\ zlen b' = zlen b /\
    forall k, 0 <= k < 8 * zlen b ->
      bit b' k = if (8 * off <=? k) && (k <? 8 * (off + zlen d)) && bit m (k - 8 * off)
                 then bit d (k - 8 * off) else bit b k.
Proof.
  intros E s fd i off d m s' b R S N Bm H A.
  assert (M : maps_avoid s i i) by (intros t l Ht Hl; rewrite (N _ Ht) in Hl; injection Hl as <-; constructor).
  destruct (C04_mask_stores _ _ _ _ _ _ _ _ _ R S M H A) as (Bd & Lm & St). split.
  - apply mask_ok in H as (s1 & s2 & H1 & H2 & ->); [|exact A].
    assert (W := tag_mask_write_maps _ _ _ _ _ _ _ _ _ i H1). assert (N1 : no_mapping s1 i).
    { intros t Ht. destruct S as (t0 & T1 & _). destruct (W _ T1) as (t1 & A1 & A2). rewrite (N _ T1) in A2. congruence. }
    apply no_mapping_check in H2; [|exact N1]. subst s2. apply only_after.
    apply tag_mask_write_cases in H1. destruct S as (t0 & T1 & T2 & T3). inversion H1; subst; [lia|].
    apply committed_only; [assumption|]. eapply check_events_same; eassumption.
  - set (x := mix (slice off (zlen d) b) d m) in *.
    assert (Ls := zlen_slice _ _ _ Bd).
    assert (Lx : zlen x = zlen d) by (unfold x; rewrite zlen_mix; lia).
    assert (Bx : in_bounds off (zlen x) (zlen b) = true) by (rewrite Lx; exact Bd).
    exists (splice off x b). split; [exact St|]. split; [apply zlen_splice; exact Bx|].
    intros k Hk. rewrite splice_bit by assumption. rewrite Lx.
    destruct ((8 * off <=? k) && (k <? 8 * (off + zlen d))) eqn:C; cbn [andb]; [|reflexivity].
    assert (Bd' := Bd). apply in_bounds_iff in Bd'.
    unfold x. rewrite mix_bit; try (rewrite ?Ls; lia); [|exact Bm].
    rewrite slice_bit by (assumption || lia). replace (k - 8 * off + 8 * off) with k by lia. reflexivity.
Qed.
Example C06_ex : exists s' b, stored demo 13 b /\ no_mapping demo 13 /\ bytes_ok [240; 15] /\
  step env0 demo (OpMask 6 13 4 [255; 255] [240; 15]) = Done s' /\ answered demo s' (OResp 6 MSG_TAG_MWRITE []).
Proof.
  eexists; eexists. split; [find_tag; split; vm_compute; reflexivity|].
  split; [intros t A; vm_compute in A; injection A as <-; vm_compute; reflexivity|].
  split; [repeat constructor; lia|].
  split; [vm_compute; reflexivity|]. exists []. split; [vm_compute; reflexivity | constructor].
Qed.

(** ** C07 *)
(** [after s [a]] is [s] with the answer [a] sent: nothing else is different *)
Theorem C07_refused_unchanged : forall E s o s' fd cmd code,
  reachable E s -> step E s o = Done s' -> answered s s' (OErr fd cmd code) ->
  match o with OpRead _ _ _ _ | OpWrite _ _ _ _ | OpMask _ _ _ _ _ | OpTagDel _ _ => True | _ => False end ->
  s' = after s [OErr fd cmd code].
Proof.
  intros E s o s' fd cmd code R H A T. destruct o; try tauto.
  - destruct (C01_del _ _ _ _ _ R H) as [(c & _ & ->)|(A2 & _)].
    + f_equal. f_equal. exact (answered_fun _ _ _ _ (answered_after _ _) A).
    + assert (Q := answered_fun _ _ _ _ A A2). discriminate.
  - apply step_inv in H as (s1 & u & H & ->). cbn [handle_op] in H. unfold h_read in H. inv1 H. inv1 H.
    destruct v as [d|e].
    + exfalso. assert (Ev := tag_read_evout _ _ _ _ _ _ _ _ _ Hm). destruct Ev as (ev & E1 & E2).
      destruct A as (ev2 & A1 & A2). cbn in A1.
      assert (Q : s_out s1 = s_out s0 \/ exists p, s_out s1 = s_out s0 ++ [OResp fd0 MSG_TAG_READ p]).
      { destruct ((size <? 0) || (MSG_DATA_SIZE <? size)); [inv_all; auto|]. unfold respond in H.
        destruct (MSG_DATA_SIZE <? _); [inv_all; auto|]. inv_all. right. eexists. reflexivity. }
      assert (s_out s0 = s_out s) by (unfold tag_read in Hm; clear -Hm; inv_all; reflexivity).
      rewrite H0 in Q. destruct Q as [Q|[p Q]]; rewrite Q in A1.
      * rewrite <- (app_nil_r (s_out s)) in A1 at 1. apply app_inv_head in A1. destruct ev2; discriminate.
      * apply app_inv_head in A1. destruct ev2 as [|e ev2]; [discriminate|]. injection A1 as <- A1. destruct ev2; discriminate.
    + assert (s0 = s) by (unfold tag_read in Hm; clear -Hm; inv_all; reflexivity). subst s0.
      unfold reply_err in H. inv_all.
      rewrite <- (answered_fun s _ _ _ (answered_after s (OErr fd0 MSG_TAG_READ e)) A). reflexivity.
  - apply write_outcome in H as [(c & _ & ->)|(s1 & s2 & H1 & H2 & ->)].
    + f_equal. f_equal. exact (answered_fun _ _ _ _ (answered_after _ _) A).
    + exfalso. assert (Q : answered s (after s2 [OResp fd0 MSG_TAG_WRITE []]) (OResp fd0 MSG_TAG_WRITE [])).
      { apply answered_step, answered_resp. eapply evout_trans; [eapply tag_write_evout; exact H1 | eapply map_check_evout; exact H2]. }
      assert (Z := answered_fun _ _ _ _ A Q). discriminate.
  - apply mask_outcome in H as [(c & _ & ->)|(s1 & s2 & H1 & H2 & ->)].
    + f_equal. f_equal. exact (answered_fun _ _ _ _ (answered_after _ _) A).
    + exfalso. assert (Q : answered s (after s2 [OResp fd0 MSG_TAG_MWRITE []]) (OResp fd0 MSG_TAG_MWRITE [])).
      { apply answered_step, answered_resp. eapply evout_trans; [eapply tag_mask_write_evout; exact H1 | eapply map_check_evout; exact H2]. }
      assert (Z := answered_fun _ _ _ _ A Q). discriminate.
Qed.
Example C07_ex : exists s', step env0 demo (OpWrite 5 13 38 [1; 2; 3]) = Done s' /\ answered demo s' (OErr 5 MSG_TAG_WRITE E_2BIG).
Proof. eexists. split; [vm_compute; reflexivity|]. exists []. split; [vm_compute; reflexivity | constructor]. Qed.

(** ** C08 *)
Lemma read_2big E s fd i off n b : reachable E s -> stored s i b -> zlen b < 2147483648 -> fits32 (off + n) = true ->
  zlen b < off + n -> step E s (OpRead fd i off n) = Done (after s [OErr fd MSG_TAG_READ E_2BIG]).
Proof.
  intros R (t & Ht & V & D) Hs F L. assert (I := reachable_Inv _ _ R).
  unfold step. cbn [handle_op]. unfold h_read. rewrite bind_get. unfold bind, tag_read. rewrite Ht, V, F. cbn [negb].
  rewrite (stored_size _ _ _ _ I Ht D). cbn [rbind]. assert (Q := zlen_nonneg b). rewrite s32_small by lia.
  replace (zlen b <? off + n) with true by lia. reflexivity.
Qed.
Lemma refused_write E s fd i off d a r : attr_at E s i = Done a -> r < 0 ->
  (has a A_READONLY && negb (tag_owned s fd i) = false -> tag_write E fd i off d s = Done (s, r)) ->
  refused E s (OpWrite fd i off d) fd MSG_TAG_WRITE.
Proof.
  intros Ha Hr H. destruct (has a A_READONLY && negb (tag_owned s fd i)) eqn:Q.
  - exists E_READONLY. split; [reflexivity|]. unfold step. cbn [handle_op]. unfold h_write. rewrite bind_get.
    rewrite (bind_lift_done _ _ _ _ Ha). rewrite Q. reflexivity.
  - exists r. split; [exact Hr|]. unfold step. cbn [handle_op]. unfold h_write. rewrite bind_get.
    rewrite (bind_lift_done _ _ _ _ Ha). rewrite Q. unfold bind at 1. rewrite (H eq_refl).
    replace (r =? 0) with false by lia. reflexivity.
Qed.
Lemma refused_mask E s fd i off d m a r : attr_at E s i = Done a -> r < 0 ->
  (has a A_READONLY = false -> tag_mask_write E fd i off d m s = Done (s, r)) ->
  refused E s (OpMask fd i off d m) fd MSG_TAG_MWRITE.
Proof.
  intros Ha Hr H. destruct (has a A_READONLY) eqn:Q.
  - exists E_READONLY. split; [reflexivity|]. unfold step. cbn [handle_op]. unfold h_mask. rewrite bind_get.
    rewrite (bind_lift_done _ _ _ _ Ha). rewrite Q. reflexivity.
  - exists r. split; [exact Hr|]. unfold step. cbn [handle_op]. unfold h_mask. rewrite bind_get.
    rewrite (bind_lift_done _ _ _ _ Ha). rewrite Q. unfold bind at 1. rewrite (H eq_refl).
    replace (r =? 0) with false by lia. reflexivity.
Qed.
(** requests that move [n] bytes at [off] of tag [i] *)
Inductive data_request (i off n fd : Z) : op -> Z -> Prop :=
| dr_read : data_request i off n fd (OpRead fd i off n) MSG_TAG_READ
| dr_write d : zlen d = n -> data_request i off n fd (OpWrite fd i off d) MSG_TAG_WRITE
| dr_mask d m : zlen d = n -> data_request i off n fd (OpMask fd i off d m) MSG_TAG_MWRITE.
Theorem C08_past_end_refused : forall E s i off n b fd o cmd,
  reachable E s -> stored s i b -> zlen b < 2147483648 ->
  0 <= off -> 0 <= n -> off + n < 2147483648 -> zlen b < off + n ->
  data_request i off n fd o cmd -> refused E s o fd cmd.
Proof.
  intros E s i off n b fd o cmd R S Hb Ho Hn Hs Hp Q. assert (I := reachable_Inv _ _ R).
  assert (F : fits32 (off + n) = true) by (unfold fits32; lia). assert (Zb := zlen_nonneg b).
  destruct Q as [|d <-|d m <-].
  - exists E_2BIG. split; [reflexivity|]. eapply read_2big; eassumption.
  - destruct S as (t & Ht & V & D). eapply refused_write with (r := E_2BIG); [apply attr_at_znth; exact Ht | reflexivity|].
    intros _. unfold tag_write. rewrite Ht, V, F. cbn [negb]. rewrite (stored_size _ _ _ _ I Ht D). cbn [rbind].
    rewrite s32_small by lia. replace (zlen b <? off + zlen d) with true by lia. reflexivity.
  - destruct S as (t & Ht & V & D). eapply refused_mask with (r := E_2BIG); [apply attr_at_znth; exact Ht | reflexivity|].
    intros _. unfold tag_mask_write. rewrite (attr_at_znth _ _ _ _ Ht). cbn [rbind]. rewrite V, Ht, F. cbn [negb]. rewrite (stored_size _ _ _ _ I Ht D). cbn [rbind].
    rewrite s32_small by lia. replace (zlen b <? off + zlen d) with true by lia. reflexivity.
Qed.
(** an index that was never handed out: reads are refused always; writes as long as the index
    is inside the allocated table *)
Theorem C08_unknown_index_refused : forall E s i off n fd o cmd,
  reachable E s -> (i < 0 \/ zlen (s_db s) <= i) ->
  data_request i off n fd o cmd -> (cmd = MSG_TAG_READ \/ 0 <= i < s_dbsize s) -> refused E s o fd cmd.
Proof.
  intros E s i off n fd o cmd R Hi Q Hd. assert (Hz : znth (s_db s) i = None) by (apply znth_none; exact Hi).
  destruct Q as [|d <-|d m <-].
  - exists E_ARG. split; [reflexivity|]. unfold step. cbn [handle_op]. unfold h_read. rewrite bind_get. unfold bind, tag_read. rewrite Hz. reflexivity.
  - assert (Hj : 0 <= i < s_dbsize s) by (destruct Hd as [Hd|Hd]; [discriminate | exact Hd]).
    assert (Ha : attr_at E s i = Done (fresh_attr E i)) by (unfold attr_at; rewrite Hz; replace ((0 <=? i) && (i <? s_dbsize s)) with true by lia; reflexivity).
    eapply refused_write with (r := E_ARG); [exact Ha | reflexivity|]. intros _. unfold tag_write. rewrite Hz. reflexivity.
  - assert (Hj : 0 <= i < s_dbsize s) by (destruct Hd as [Hd|Hd]; [discriminate | exact Hd]).
    assert (Ha : attr_at E s i = Done (fresh_attr E i)) by (unfold attr_at; rewrite Hz; replace ((0 <=? i) && (i <? s_dbsize s)) with true by lia; reflexivity).
    destruct (has (fresh_attr E i) A_VIRTUAL) eqn:V.
    + eapply refused_mask with (r := E_ILLEGAL); [exact Ha | reflexivity|]. intros _. unfold tag_mask_write. rewrite Ha. cbn [rbind]. rewrite V. reflexivity.
    + eapply refused_mask with (r := E_ARG); [exact Ha | reflexivity|]. intros _. unfold tag_mask_write. rewrite Ha. cbn [rbind]. rewrite V, Hz. reflexivity.
Qed.
(** ... but a write to an index outside the allocated table makes the server read the attribute
    word of a table entry that does not exist (message.c:571 before the check in tag_write) *)
Theorem C08_refuted_write_wild_index : exists s i,
  reachable env0 s /\ zlen (s_db s) <= i /\
  step env0 s (OpWrite 5 i 0 [1]) = Undef UOob /\ step env0 s (OpWrite 5 (-1) 0 [1]) = Undef UOob /\
  step env0 s (OpMask 5 i 0 [1] [255]) = Undef UOob.
Proof. exists demo, 1024. split; [exact demo_reachable|]. repeat split; vm_compute; congruence. Qed.
(** a request inside the tag is never refused as too big *)
Theorem C08_inside_not_too_big : forall E s i off n b fd o cmd s',
  reachable E s -> stored s i b -> zlen b < 2147483648 -> off + n <= zlen b ->
  data_request i off n fd o cmd -> step E s o = Done s' -> ~ answered s s' (OErr fd cmd E_2BIG).
Proof.
  intros E s i off n b fd o cmd s' R S Hb Hp Q H A. assert (I := reachable_Inv _ _ R). assert (Zb := zlen_nonneg b).
  assert (Sp : forall x y z t, special_write s x y t z n <> E_2BIG).
  { intros. unfold special_write, E_2BIG, E_NOTFOUND, E_READONLY. repeat match goal with |- context [if ?c then _ else _] => destruct c end; try lia; destruct (find_mod s x); try lia; repeat match goal with |- context [if ?c then _ else _] => destruct c end; lia. }
  assert (K := C07_refused_unchanged _ _ _ _ _ _ _ R H A). destruct Q as [|d <-|d m <-].
  - specialize (K Logic.I). subst s'. apply step_inv in H as (s1 & u & H & X). cbn [handle_op] in H. unfold h_read in H. inv1 H. inv1 H.
    destruct S as (t & Ht & V & D).
    unfold tag_read in Hm. rewrite Ht, V in Hm. destruct (negb (fits32 (off + n))); [discriminate|].
    rewrite (stored_size _ _ _ _ I Ht D) in Hm. cbn [rbind] in Hm. rewrite s32_small in Hm by lia.
    replace (zlen b <? off + n) with false in Hm by lia. rewrite D in Hm.
    assert (W : exists y, v = inl y /\ s0 = s) by (clear -Hm; inv_all; eauto). destruct W as (y & -> & ->).
    assert (X2 := f_equal s_out X). cbn in X2.
    assert (Q : s_out s1 = s_out s \/ exists p, s_out s1 = s_out s ++ [OResp fd MSG_TAG_READ p]).
    { clear -H. destruct ((n <? 0) || (MSG_DATA_SIZE <? n)); [inv_all; auto|]. unfold respond in H.
      destruct (MSG_DATA_SIZE <? _); [inv_all; auto|]. inv_all. right. eexists. reflexivity. }
    destruct Q as [Q|[p Q]]; rewrite Q in X2.
    + rewrite <- (app_nil_r (s_out s)) in X2 at 2. apply app_inv_head in X2. discriminate.
    + apply app_inv_head in X2. discriminate.
  - destruct S as (t & Ht & V & D). specialize (K Logic.I). subst s'.
    apply step_inv in H as (s1 & u & H & X). cbn [handle_op] in H. unfold h_write in H. inv1 H. inv1 H. inv1 H.
    rewrite (attr_at_znth _ _ _ _ Ht) in Hr. injection Hr as <-.
    assert (W : v0 <> E_2BIG).
    { clear H. destruct (has (t_attr t) A_READONLY && negb (tag_owned s fd i)); [inv_all; discriminate|].
      unfold tag_write in Hm. rewrite Ht, V in Hm. destruct (negb (fits32 (off + zlen d))); [discriminate|].
      rewrite (stored_size _ _ _ _ I Ht D) in Hm. cbn [rbind] in Hm. rewrite s32_small in Hm by lia.
      replace (zlen b <? off + zlen d) with false in Hm by lia. rewrite D in Hm. cbv zeta in Hm. specialize (Sp fd i off t).
      inv_all; try discriminate; destruct (has (t_attr t) A_SPECIAL); assumption || discriminate. }
    destruct (negb (v0 =? 0)).
    + clear Hm. unfold reply_err, emit, modify in H. injection H as <- _. assert (X2 := f_equal s_out X). cbn in X2.
      apply app_last_inj in X2. congruence.
    + clear Hm. inv1 H. rewrite zlen_nil_resp in H. injection H as <- _. assert (X2 := f_equal s_out X). cbn in X2. apply app_last_inj in X2. discriminate.
  - destruct S as (t & Ht & V & D). specialize (K Logic.I). subst s'.
    apply step_inv in H as (s1 & u & H & X). cbn [handle_op] in H. unfold h_mask in H. inv1 H. inv1 H. inv1 H.
    rewrite (attr_at_znth _ _ _ _ Ht) in Hr. injection Hr as <-.
    assert (W : v0 <> E_2BIG).
    { clear H. destruct (has (t_attr t) A_READONLY); [inv_all; discriminate|].
      unfold tag_mask_write in Hm. rewrite (attr_at_znth _ _ _ _ Ht) in Hm. cbn [rbind] in Hm. rewrite V, Ht in Hm. destruct (negb (fits32 (off + zlen d))); [discriminate|].
      rewrite (stored_size _ _ _ _ I Ht D) in Hm. cbn [rbind] in Hm. rewrite s32_small in Hm by lia.
      replace (zlen b <? off + zlen d) with false in Hm by lia. rewrite D in Hm. cbv zeta in Hm. specialize (Sp fd i off t).
      inv_all; try discriminate; destruct (has (t_attr t) A_SPECIAL); assumption || discriminate. }
    destruct (negb (v0 =? 0)).
    + clear Hm. unfold reply_err, emit, modify in H. injection H as <- _. assert (X2 := f_equal s_out X). cbn in X2.
      apply app_last_inj in X2. congruence.
    + clear Hm. inv1 H. rewrite zlen_nil_resp in H. injection H as <- _. assert (X2 := f_equal s_out X). cbn in X2. apply app_last_inj in X2. discriminate.
Qed.
Example C08_ex : exists b, stored demo 13 b /\ zlen b = 40 /\
  data_request 13 38 3 5 (OpWrite 5 13 38 [1; 2; 3]) MSG_TAG_WRITE /\ data_request 13 37 3 5 (OpWrite 5 13 37 [1; 2; 3]) MSG_TAG_WRITE /\
  zlen (s_db demo) <= 900 < s_dbsize demo.
Proof.
  eexists. split; [find_tag; split; vm_compute; reflexivity|]. split; [vm_compute; reflexivity|].
  split; [apply dr_write; reflexivity|]. split; [apply dr_write; reflexivity|]. vm_compute. split; congruence.
Qed.

(** ** C09 *)
(** the bounds check only looks at the sum of offset and size: negative offsets pass it and the
    server reads or writes in front of the tag's memory *)
Theorem C09_refuted : exists s,
  reachable env0 s /\
  step env0 s (OpRead 5 13 (-4) 4) = Undef UOob /\ step env0 s (OpRead 5 13 0 (-1)) = Undef UOob /\
  step env0 s (OpWrite 5 13 (-4) [1; 2; 3; 4]) = Undef UOob /\ step env0 s (OpRead 5 13 2147483647 1) = Undef UOverflow.
Proof. exists demo. split; [exact demo_reachable|]. repeat split; vm_compute; reflexivity. Qed.
(** With a non-negative offset and a size that fits into a message a read of an ordinary tag is
    always answered and well defined.
    Missing for the full claim: negative offsets and sizes and overflowing sums (refuted). *)
Theorem C09_nonneg_read_partial : forall E s fd i off n b,
  reachable E s -> stored s i b -> zlen b < 2147483648 -> no_override s i ->
  0 <= off -> 0 <= n <= MSG_DATA_SIZE -> off + n < 2147483648 ->
  step E s (OpRead fd i off n) =
    Done (after s [if off + n <=? zlen b then OResp fd MSG_TAG_READ (slice off n b) else OErr fd MSG_TAG_READ E_2BIG]).
Proof.
  intros E s fd i off n b R S Hb NO Ho Hn Hs. destruct (off + n <=? zlen b) eqn:L.
  - apply C04_read_stored; try assumption; lia.
  - apply (read_2big E s fd i off n b); try assumption; [unfold fits32|]; lia.
Qed.
(** Whatever the offset, a write or masked write to an ordinary tag that is defined and accepted
    only touched bytes of the tag: its range was inside.  (The negative offsets are not among them.) *)
Theorem C09_accepted_inside_partial : forall E s fd i off d s' b,
  reachable E s -> stored s i b -> maps_avoid s i i ->
  step E s (OpWrite fd i off d) = Done s' -> answered s s' (OResp fd MSG_TAG_WRITE []) -> 0 <= off /\ off + zlen d <= zlen b.
Proof.
  intros E s fd i off d s' b R S M H A. destruct (C04_write_stores _ _ _ _ _ _ _ _ R S M H A) as [Bd _].
  apply in_bounds_iff in Bd. lia.
Qed.

(** ** C12 *)
(** The memory behind a grown array is not cleared: with [junk] filled memory the new elements
    read as garbage; and the byte size is computed modulo 2^32, so asking for a huge count
    shrinks the tag. *)
Definition demoS_ops := [ OpRegister 5 (str "alpha"); OpTagAdd 5 (str "foo") T_DINT 2 0; OpTagAdd 5 (str "foo") T_DINT 3 0 ].
Theorem C12_refuted_garbage : exists s s',
  reachable envS s /\ step envS s (OpTagAdd 5 (str "foo") T_DINT 3 0) = Done s' /\
  answered s s' (OResp 5 MSG_TAG_ADD (le_bytes 4 12)) /\
  step envS s' (OpRead 5 12 8 4) = Done (after s' [OResp 5 MSG_TAG_READ [165; 165; 165; 165]]).
Proof.
  exists (after_ops envS [ OpRegister 5 (str "alpha"); OpTagAdd 5 (str "foo") T_DINT 2 0 ]). eexists.
  split; [apply after_reachable; vm_compute; reflexivity|]. split; [vm_compute; reflexivity|].
  split; [exists []; split; [vm_compute; reflexivity | constructor] | vm_compute; reflexivity].
Qed.
Theorem C12_refuted_shrink : exists s',
  stored demo 13 ([0; 0; 0; 0; 1; 2; 3; 4] ++ zeros 32) /\
  step env0 demo (OpTagAdd 5 (str "foo") T_DINT 1073741825 0) = Done s' /\
  answered demo s' (OResp 5 MSG_TAG_ADD (le_bytes 4 13)) /\ stored s' 13 [0; 0; 0; 0].
Proof.
  eexists. split; [find_tag; split; vm_compute; reflexivity|]. split; [vm_compute; reflexivity|].
  split; [exists []; split; [vm_compute; reflexivity | constructor]|]. find_tag; split; vm_compute; reflexivity.
Qed.
(** What holds: if the new size does not wrap, the old bytes are kept; and on a machine where
    fresh heap memory happens to be zero the rest is zero. *)
Theorem C12_prefix_kept_partial : forall E s fd i n t b ty c a s' size,
  reachable E s -> 9 <= i -> named s i n t -> stored s i b -> u32 ty = t_type t -> t_count t < u32 c ->
  new_size (s_types s) (t_type t) (u32 c) = Done size -> zlen b <= size ->
  step E s (OpTagAdd fd n ty c a) = Done s' -> answered s s' (OResp fd MSG_TAG_ADD (le_bytes 4 i)) ->
  exists b', stored s' i b' /\ zlen b' = size /\ slice 0 (zlen b) b' = b /\
    ((forall st p, u8 (en_junk E st p) = 0) -> forall k, zlen b <= k < size -> nthb b' k = 0).
Proof.
  intros E s fd i n t b ty c a s' size R Hi [N1 N2] (t0 & S1 & S2 & S3) Hty Hc Hn Hz H A. assert (t0 = t) by congruence. subst t0.
  assert (I := reachable_Inv _ _ R). assert (T := iv_tags _ I _ _ N1). assert (Ty := it_type _ _ T).
  apply step_inv in H as (s1 & u & H & ->). apply h_tag_add_effect in H as [[_ ->]|(U & s2 & r & Ha & ->)].
  { assert (Q := answered_fun _ _ _ _ A (answered_step _ _ _ _ (answered_err _ _ _ _ _ (evout_refl s)))). discriminate. }
  rewrite Hty in Ha. assert (EO := tag_add_evout _ _ _ _ _ _ _ _ _ Ha).
  destruct (r <? 0) eqn:Neg.
  { assert (Q := answered_fun _ _ _ _ A (answered_step _ _ _ _ (answered_err _ _ _ _ _ EO))). discriminate. }
  assert (Uc := u32_range c). assert (Sn := new_size_nonneg _ _ _ _ (proj1 Uc) Hn).
  apply tag_add_cases in Ha; [|exact I | exact (proj1 Uc)].
  destruct Ha as [s' r Hr X1 | n0 t1 s0 s' u0 X1 Ht Hnm Hty' Hct How Hsa
    | n0 t1 s0 d size0 s1 s' u0 v X1 Ht Hnm Hty' Hct How Hns Hrg Hsa Htw
    | n0 t1 s0 d X1 Ht Hnm Hty' Hct Hrg Hns
    | s0 s1 s3 s4 s' ix size0 u0 v w x X1 Hno Hck Hvn Hcp Hns Hix Hw1 Hw2 Hsa Hw3]; [lia | | | discriminate |].
  - exfalso. assert (n0 = i) by (eapply (C01_unique_names E s n0 i n); [exact R | split; eassumption | split; eassumption]). subst n0.
    assert (t1 = t) by congruence. subst t1. lia.
  - assert (n0 = i) by (eapply (C01_unique_names E s n0 i n); [exact R | split; eassumption | split; eassumption]). subst n0.
    assert (t1 = t) by congruence. subst t1. assert (size0 = size) by congruence. subst size0.
    unfold regrow in Hrg. rewrite S3 in Hrg. destruct (size =? 0) eqn:Z0; [discriminate|]. injection Hrg as <-.
    set (b' := firstn (Z.to_nat size) b ++ jbytes E (s_step s) 100 (size - zlen b)).
    assert (Fb : firstn (Z.to_nat size) b = b) by (apply firstn_all2; unfold zlen in *; lia).
    exists b'. unfold b'. rewrite Fb. destruct (set_dbsize_db _ _ X1) as (Edb & _).
    split; [|split; [rewrite zlen_app, zlen_jbytes; lia|split]].
    + apply (stored_step (set_out s' _)). assert (St : stored (set_tag s0 i (set_count (set_data t (DBytes (b ++ jbytes E (s_step s) 100 (size - zlen b)))) (u32 c))) i (b ++ jbytes E (s_step s) 100 (size - zlen b))).
      { eexists. split; [cbn; rewrite Edb; apply znth_zset_eq; eapply znth_range; eassumption|]. split; [exact S2 | reflexivity]. }
      unfold b' in Hsa. rewrite Fb in Hsa.
      assert (St1 : stored s1 i (b ++ jbytes E (s_step s) 100 (size - zlen b))).
      { destruct (set_attribute_spec _ _ _ _ _ _ Hsa) as (t2 & r2 & f2 & x2 & Q1 & Q2 & ->). destruct St as (t3 & Q3 & Q4 & Q5).
        assert (t3 = t2) by congruence. subst t3. eexists. split; [cbn; apply znth_zset_eq; eapply znth_range; exact Q3|].
        split; [|exact Q5]. cbn. change (Z.lor (t_attr t2) f2) with (set_flag (t_attr t2) f2). rewrite has_set_flag, Q4.
        destruct Q2 as [->|[->|[->| ->]]]; reflexivity. }
      assert (Q := tag_write_others _ _ _ _ _ _ _ _ Htw i ltac:(unfold IX_ADDED; lia)).
      destruct St1 as (t3 & Q3 & Q4 & Q5). exists t3. cbn. rewrite Q. auto.
    + unfold slice. cbn [Z.to_nat skipn]. rewrite firstn_app. replace (Z.to_nat (zlen b) - length b)%nat with 0%nat by (unfold zlen; lia).
      rewrite app_nil_r. apply firstn_all2. unfold zlen; lia.
    + intros J k Hk. unfold nthb. rewrite app_nth2 by (unfold zlen in *; lia). unfold jbytes.
      destruct (nth_in_or_default (Z.to_nat k - length b) (map (fun p => u8 (en_junk E (s_step s) p)) (zseq 100 (size - zlen b))) 0) as [Q|Q]; [|exact Q].
      apply in_map_iff in Q as [p [Q _]]. rewrite <- Q. apply J.
  - exfalso. eapply Hno; eassumption.
Qed.
Example C12_ex : exists t b s', named demo 13 (str "foo") t /\ stored demo 13 b /\ u32 (t_type t) = t_type t /\ t_count t < u32 20 /\
  new_size (s_types demo) (t_type t) (u32 20) = Done 80 /\ zlen b <= 80 /\
  step env0 demo (OpTagAdd 6 (str "foo") (t_type t) 20 0) = Done s' /\ answered demo s' (OResp 6 MSG_TAG_ADD (le_bytes 4 13)).
Proof.
  eexists; eexists; eexists. split; [split; vm_compute; reflexivity|]. split; [find_tag; split; vm_compute; reflexivity|].
  split; [vm_compute; reflexivity|]. split; [vm_compute; reflexivity|]. split; [vm_compute; reflexivity|]. split; [vm_compute; congruence|].
  split; [vm_compute; reflexivity|]. exists []; split; [vm_compute; reflexivity | constructor].
Qed.

(** ** C16 *)
(** the tag is read-only and does not belong to the connection *)
Definition read_only_for (s : server) (i fd : Z) : Prop :=
  exists t, znth (s_db s) i = Some t /\ has (t_attr t) A_READONLY = true /\
            (has (t_attr t) A_OWNED = false \/ t_fd t <> fd).
Lemma ro_owned s i fd : read_only_for s i fd -> tag_owned s fd i = false.
Proof.
  intros (t & A & _ & C). unfold tag_owned. rewrite A. destruct C as [->|C]; [reflexivity|].
  apply andb_false_iff. right. lia.
Qed.
Theorem C16_write : forall E s fd i off d, read_only_for s i fd ->
  step E s (OpWrite fd i off d) = Done (after s [OErr fd MSG_TAG_WRITE E_READONLY]).
Proof.
  intros E s fd i off d R. assert (O := ro_owned _ _ _ R). destruct R as (t & A & B & _). unfold step. cbn [handle_op]. unfold h_write.
  rewrite bind_get, (bind_lift_done _ _ _ _ (attr_at_znth _ _ _ _ A)), B, O. reflexivity.
Qed.
Theorem C16_atomic : forall E s fd h opr d, read_only_for s (h_index h) fd ->
  step E s (OpAtomic fd h opr d) = Done (after s [OErr fd MSG_ATOMIC_OP E_READONLY]).
Proof.
  intros E s fd h opr d R. assert (O := ro_owned _ _ _ R). destruct R as (t & A & B & _). unfold step. cbn [handle_op]. unfold h_atomic.
  rewrite bind_get, (bind_lift_done _ _ _ _ (attr_at_znth _ _ _ _ A)), B, O. reflexivity.
Qed.
Theorem C16_mask : forall E s fd i off d m, read_only_for s i fd ->
  step E s (OpMask fd i off d m) = Done (after s [OErr fd MSG_TAG_MWRITE E_READONLY]).
Proof.
  intros E s fd i off d m (t & A & B & _). unfold step. cbn [handle_op]. unfold h_mask.
  rewrite bind_get, (bind_lift_done _ _ _ _ (attr_at_znth _ _ _ _ A)), B. reflexivity.
Qed.
(** ... and the owner's write is not refused for this reason *)
Theorem C16_owner : forall E s fd i off d s', tag_owned s fd i = true ->
  (forall t, znth (s_db s) i = Some t -> has (t_attr t) A_SPECIAL = false /\ has (t_attr t) A_VIRTUAL = false) ->
  step E s (OpWrite fd i off d) = Done s' -> ~ answered s s' (OErr fd MSG_TAG_WRITE E_READONLY).
Proof.
  intros E s fd i off d s' O Sp H A. apply step_inv in H as (s1 & u & H & ->). cbn [handle_op] in H. unfold h_write in H.
  inv1 H. inv1 H. inv1 H. rewrite O, andb_false_r in Hm.
  assert (W : v0 <> E_READONLY).
  { unfold tag_owned in O. destruct (znth (s_db s) i) as [t|] eqn:Ht; [|discriminate]. destruct (Sp _ eq_refl) as [S1 S2].
    clear -Hm Ht S1 S2. unfold tag_write in Hm. rewrite Ht, S1, S2 in Hm. cbv zeta in Hm. inv_all; discriminate. }
  assert (EO := tag_write_evout _ _ _ _ _ _ _ _ Hm). destruct (negb (v0 =? 0)).
  - unfold reply_err, emit, modify in H. injection H as <- _.
    assert (Q := answered_fun _ _ _ _ A (answered_step _ _ _ _ (answered_err _ _ _ _ _ EO))). congruence.
  - inv1 H. rewrite zlen_nil_resp in H. injection H as <- _. assert (EO2 := map_check_evout _ _ _ _ _ _ _ Hm0).
    assert (Q := answered_fun _ _ _ _ A (answered_step _ _ _ _ (answered_resp _ _ _ _ _ (evout_trans _ _ _ EO EO2)))). congruence.
Qed.
(** the demo server after connection 5 created an owned, read-only tag [ro] (index 16) *)
Definition demo_ro : server := after_ops env0 (demo_ops ++ [OpTagAdd 5 (str "ro") T_DINT 2 (A_READONLY + A_OWNED); OpWrite 5 16 0 [9; 9]]).
Lemma demo_ro_reachable : reachable env0 demo_ro.
Proof. apply after_reachable. vm_compute. reflexivity. Qed.
Example C16_ex : read_only_for demo_ro 16 6 /\ tag_owned demo_ro 5 16 = true /\ stored demo_ro 16 [9; 9; 0; 0; 0; 0; 0; 0].
Proof.
  split; [|split; [vm_compute; reflexivity | find_tag; split; vm_compute; reflexivity]].
  eexists. split; [vm_compute; reflexivity|]. split; [reflexivity|]. right. discriminate.
Qed.

(** ** C17 *)
(** a group write, a mapping made before the tag became read-only, and a delete all get through *)
Theorem C17_refuted_group : exists s s',
  reachable env0 s /\ read_only_for s 16 6 /\ stored s 16 [9; 9; 0; 0; 0; 0; 0; 0] /\
  step env0 s (OpGrpWrite 6 0 [7; 7; 7; 7]) = Done s' /\ stored s' 16 [7; 7; 7; 7; 0; 0; 0; 0].
Proof.
  exists (after_ops env0 (demo_ops ++ [OpTagAdd 5 (str "ro") T_DINT 2 (A_READONLY + A_OWNED); OpWrite 5 16 0 [9; 9];
                                       OpGrpAdd 6 [mk_h 16 0 0 1 4 T_DINT]])). eexists.
  split; [apply after_reachable; vm_compute; reflexivity|].
  split; [eexists; split; [vm_compute; reflexivity|]; split; [reflexivity | right; discriminate]|].
  split; [find_tag; split; vm_compute; reflexivity|].
  split; [vm_compute; reflexivity|]. find_tag; split; vm_compute; reflexivity.
Qed.
Theorem C17_refuted_delete : exists s s',
  reachable env0 s /\ read_only_for s 16 6 /\ exists_tag s (str "ro") /\
  step env0 s (OpTagDel 6 16) = Done s' /\ ~ exists_tag s' (str "ro").
Proof.
  exists demo_ro. eexists. split; [exact demo_ro_reachable|]. split; [apply C16_ex|].
  split; [exists 16; eexists; split; vm_compute; reflexivity|]. split; [vm_compute; reflexivity|].
  eapply (absent_check env0); [|vm_compute; reflexivity].
  apply (reachable_step env0 demo_ro (OpTagDel 6 16)); [exact demo_ro_reachable | vm_compute; reflexivity].
Qed.
Theorem C17_refuted_mapping : exists s s',
  reachable env0 s /\ read_only_for s 16 6 /\ stored s 16 [0; 0; 0; 0; 0; 0; 0; 0] /\
  step env0 s (OpWrite 6 13 0 [7; 7; 7; 7]) = Done s' /\ stored s' 16 [7; 7; 7; 7; 0; 0; 0; 0].
Proof.
  exists (after_ops env0 (demo_ops ++ [OpTagAdd 5 (str "ro") T_DINT 2 0; OpMapAdd 6 (mk_h 13 0 0 1 4 T_DINT) (mk_h 16 0 0 1 4 T_DINT);
                                       OpTagAdd 5 (str "ro") T_DINT 2 (A_READONLY + A_OWNED)])). eexists.
  split; [apply after_reachable; vm_compute; reflexivity|].
  split; [eexists; split; [vm_compute; reflexivity|]; split; [reflexivity | right; discriminate]|].
  split; [find_tag; split; vm_compute; reflexivity|].
  split; [vm_compute; reflexivity|]. find_tag; split; vm_compute; reflexivity.
Qed.
(** What holds: apart from group writes, deleting it, and mappings that lead to it, no request of
    another connection changes the bytes of an owned read-only tag or removes it.
    Missing for the full claim: exactly these three ways (refuted above). *)
Theorem C17_protected_partial : forall E s o s' fd i n t b,
  reachable E s -> 9 <= i -> named s i n t -> nthb n 0 <> 95 -> stored s i b ->
  has (t_attr t) A_READONLY = true -> has (t_attr t) A_OWNED = true -> t_fd t <> fd ->
  sender o = Some fd -> (forall j, maps_avoid s j i) ->
  match o with
  | OpGrpWrite _ _ _ => False
  | OpTagDel _ j => j <> i
  | OpDisconnect _ | OpRegister _ _ => forall m, find_mod s fd = Some m -> m_tagidx m <> i
  | _ => True
  end ->
  step E s o = Done s' -> stored s' i b /\ exists t', named s' i n t'.
Proof.
  intros E s o s' fd i n t b R Hi [N1 N2] Hu S Hr Ho Hf Sn Mp Ex H. assert (I := reachable_Inv _ _ R).
  assert (RO : read_only_for s i fd) by (exists t; auto). assert (Ow := ro_owned _ _ _ RO).
  assert (Keep : spares s o i -> stored s' i b /\ exists t', named s' i n t').
  { intros Sp. assert (C := core_frame _ _ _ _ _ I Hi Sp H). split; [eapply fk_stored; [eapply bytes_frame | exact C |]; eassumption|].
    destruct (C _ N1) as (t' & A & B). exists t'. split; [exact A|]. unfold tcore in B. congruence. }
  assert (Same : forall x, s' = after s x -> stored s' i b /\ exists t', named s' i n t').
  { intros x ->. split; [exact S | exists t; split; assumption]. }
  destruct o as [fd0 nm|fd0|fd0|fd0|fd0 nm ty c a|fd0 j|fd0 nm|fd0 j|fd0|fd0 j off sz|fd0 j off d|fd0 j off d m|fd0 h et ud|fd0 j id|fd0|fd0 j id op|fd0 def|fd0 nm|fd0 ty|fd0 src dst|fd0 j id|fd0 j id|fd0 hs|fd0 g|fd0 g|fd0 g p|fd0|fd0 h opr d|fd0 j off d m|fd0 j off m|fd0 j off sz|fd0 j fl|now];
    try (cbn in Sn; injection Sn as ->); try (apply Keep; exact Logic.I); try tauto; try discriminate.
  - apply Keep. split; [intros m Hm [Q|Q]; [congruence | exact (Ex m Hm (eq_sym Q))]|].
    intros n0 Q. unfold name_at in Q. rewrite N1 in Q. congruence.
  - apply Keep. intros m Hm [Q|Q]; [congruence | exact (Ex m Hm (eq_sym Q))].
  - destruct (name_eqb n nm) eqn:Q.
    2:{ apply Keep. cbn. unfold name_at. rewrite N1. apply name_eqb_neq in Q. congruence. }
    apply name_eqb_eq in Q. subst nm. apply step_inv in H as (s1 & u & H & ->).
    apply h_tag_add_effect in H as [[Z _]|(U & s2 & r & Ha & ->)]; [congruence|].
    assert (D : s_db s2 = s_db s).
    { assert (Uc := u32_range c). apply tag_add_cases in Ha; [|exact I | exact (proj1 Uc)].
      assert (Un : forall k t1, znth (s_db s) k = Some t1 -> t_name t1 = Some n -> k = i /\ t1 = t).
      { intros k t1 K1 K2. assert (k = i) by (eapply (C01_unique_names E s k i n); [exact R | split; eassumption | split; eassumption]). subst k. split; congruence. }
      destruct Ha as [s2 r Hq X1 | k t1 s0 s2 u0 X1 Ht Hnm Hty' Hct How Hsa
        | k t1 s0 d size0 s1 s2 u0 v X1 Ht Hnm Hty' Hct How Hns Hrg Hsa Htw
        | k t1 s0 d X1 Ht Hnm Hty' Hct Hrg Hns How
        | s0 s1 s3 s4 s2 ix size0 u0 v w x X1 Hno Hck Hvn Hcp Hns Hix Hw1 Hw2 Hsa Hw3].
      - apply (set_dbsize_db _ _ X1).
      - destruct (Un _ _ Ht Hnm) as [-> ->]. rewrite Ho in How. cbn in How. lia.
      - destruct (Un _ _ Ht Hnm) as [-> ->]. rewrite Ho in How. cbn in How. lia.
      - destruct (Un _ _ Ht Hnm) as [-> ->]. rewrite Ho in How. cbn in How. lia.
      - exfalso. eapply Hno; eassumption. }
    split; [destruct S as (t0 & A1 & A2) | exists t; split; [|exact N2]]; [exists t0; cbn; rewrite D; auto | cbn; rewrite D; exact N1].
  - destruct (Z.eq_dec j i) as [->|Hne]; [|apply Keep; split; [exact Hne | apply Mp]].
    rewrite (C16_write E s fd i off d RO) in H. injection H as <-. eapply Same. reflexivity.
  - destruct (Z.eq_dec j i) as [->|Hne]; [|apply Keep; split; [exact Hne | apply Mp]].
    rewrite (C16_mask E s fd i off d m RO) in H. injection H as <-. eapply Same. reflexivity.
  - destruct (Z.eq_dec (h_index h) i) as [Hh|Hne]; [|apply Keep; split; [exact Hne | apply Mp]].
    subst i. rewrite (C16_atomic E s fd h opr d RO) in H. injection H as <-. eapply Same. reflexivity.
Qed.
Example C17_ex : exists t, named demo_ro 16 (str "ro") t /\ has (t_attr t) A_READONLY = true /\ has (t_attr t) A_OWNED = true /\ t_fd t <> 6 /\
  (forall j, maps_avoid demo_ro j 16).
Proof.
  eexists. split; [split; vm_compute; reflexivity|]. split; [reflexivity|]. split; [reflexivity|]. split; [discriminate|].
  intros j t l A B. assert (F : forallb (fun t => match t_maps t with Some [] => true | _ => false end) (s_db demo_ro) = true) by (vm_compute; reflexivity).
  rewrite forallb_forall in F. specialize (F _ (znth_In _ _ _ A)). rewrite B in F. destruct l; [constructor | discriminate].
Qed.
