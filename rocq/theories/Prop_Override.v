(** * Overrides: C13, C14, C15 *)
From Verif Require Import Base Const Types State Events Atomic Server Lib SearchProofs Shape Inv Reach Spec Frame Effects Out DataFrame WRel Demo Prop_Tags Prop_Data.

(** an override with data [od] and mask [om] is installed on tag [i] *)
Definition override_in (s : server) (i : Z) (od om : list Z) : Prop :=
  exists t, znth (s_db s) i = Some t /\ t_odata t = Some od /\ t_omask t = Some om.
(** ... and active *)
Definition override_on (s : server) (i : Z) (od om : list Z) : Prop :=
  exists t, znth (s_db s) i = Some t /\ has (t_attr t) A_OVR_SET = true /\ t_odata t = Some od /\ t_omask t = Some om.

(** ** C13 *)
Lemma rd_ok l p w : in_bounds p w (zlen l) = true -> rd l p w = Done (slice p w l).
Proof. unfold rd. intros ->. reflexivity. Qed.
Theorem C13_read_mixes : forall E s fd i off n b od om,
  reachable E s -> stored s i b -> zlen b < 2147483648 -> override_on s i od om -> bytes_ok (slice off n om) ->
  0 <= off -> 0 <= n <= MSG_DATA_SIZE -> off + n <= zlen b -> off + n <= zlen od -> off + n <= zlen om ->
  exists r, step E s (OpRead fd i off n) = Done (after s [OResp fd MSG_TAG_READ r]) /\ zlen r = n /\
    forall k, 0 <= k < 8 * n ->
      bit r k = if bit om (k + 8 * off) then bit od (k + 8 * off) else bit b (k + 8 * off).
Proof.
  intros E s fd i off n b od om R (t & Ht & V & D) Hb (t' & Ht' & Hs & Hd & Hm) Bo Ho Hn H1 H2 H3.
  assert (t' = t) by congruence. subst t'. assert (I := reachable_Inv _ _ R).
  assert (B1 : in_bounds off n (zlen b) = true) by (apply in_bounds_iff; lia).
  assert (B2 : in_bounds off n (zlen od) = true) by (apply in_bounds_iff; lia).
  assert (B3 : in_bounds off n (zlen om) = true) by (apply in_bounds_iff; lia).
  assert (L1 := zlen_slice _ _ _ B1). assert (L2 := zlen_slice _ _ _ B2). assert (L3 := zlen_slice _ _ _ B3).
  set (r := mix (slice off n b) (slice off n od) (slice off n om)).
  assert (Lr : zlen r = n) by (unfold r; rewrite zlen_mix; lia).
  exists r. split; [|split; [exact Lr|]].
  - unfold step. cbn [handle_op]. unfold h_read. rewrite bind_get. unfold bind, tag_read. rewrite Ht, V.
    assert (Fit : fits32 (off + n) = true) by (unfold fits32; lia). rewrite Fit. cbn [negb].
    rewrite (stored_size _ _ _ _ I Ht D). cbn [rbind]. rewrite s32_small by (pose proof (zlen_nonneg b); lia).
    replace (zlen b <? off + n) with false by lia. rewrite D, B1. cbn [negb orb].
    replace (MSG_DATA_SIZE <? n) with false by lia. rewrite Hs, Hd, Hm. rewrite (rd_ok _ _ _ B2). cbn [rbind]. rewrite (rd_ok _ _ _ B3). cbn [rbind].
    fold r. replace (n <? 0) with false by lia. cbn [orb]. rewrite Lr, Z.sub_diag. change (jbytes E (s_step s) n 0) with (@nil Z). rewrite app_nil_r.
    replace (firstn (Z.to_nat n) r) with r by (symmetry; apply firstn_all2; unfold zlen in Lr; lia).
    unfold respond. rewrite Lr. replace (MSG_DATA_SIZE <? n) with false by lia. reflexivity.
  - intros k Hk. unfold r. rewrite mix_bit; try lia; [|exact Bo].
    rewrite !slice_bit by (assumption || lia). reflexivity.
Qed.
(** a write under an override updates the stored bytes and leaves the override alone *)
Theorem C13_write_under : forall E s fd i off d s' b od om,
  reachable E s -> stored s i b -> no_mapping s i -> override_on s i od om ->
  step E s (OpWrite fd i off d) = Done s' -> answered s s' (OResp fd MSG_TAG_WRITE []) ->
  stored s' i (splice off d b) /\ override_on s' i od om.
Proof.
  intros E s fd i off d s' b od om R S N (t & Ht & Hs & Hd & Hm) H A.
  assert (M : maps_avoid s i i) by (intros t0 l Ht0 Hl; rewrite (N _ Ht0) in Hl; injection Hl as <-; constructor).
  destruct (C04_write_stores _ _ _ _ _ _ _ _ R S M H A) as [Bd St]. split; [exact St|].
  destruct (C05_write_exact _ _ _ _ _ _ _ _ R S N H A) as [(_ & _ & K & _) _].
  destruct (K _ Ht) as (t' & A1 & A2 & A3 & _). exists t'. split; [exact A1|]. injection A2 as _ A2 _ _ _ _ _. injection A3 as _ A3 A4 _.
  split; [congruence|]. split; congruence.
Qed.
Lemma reply_status_out fd cmd r s : reply_status fd cmd r s =
  Done (set_out s (s_out s ++ [if r =? 0 then OResp fd cmd [] else OErr fd cmd r]), tt).
Proof. unfold reply_status. destruct (r =? 0); reflexivity. Qed.
Lemma reply_status_done fd cmd r s s' u : reply_status fd cmd r s = Done (s', u) ->
  s' = set_out s (s_out s ++ [if r =? 0 then OResp fd cmd [] else OErr fd cmd r]).
Proof. rewrite reply_status_out. congruence. Qed.
Lemma sys_write_tag E j d s s' u i t : sys_write E j d s = Done (s', u) -> znth (s_db s) i = Some t -> i <> j -> znth (s_db s') i = Some t.
Proof. intros H Ht Hne. rewrite (sys_write_others _ _ _ _ _ _ H) by exact Hne. exact Ht. Qed.
Lemma has_clr_same a f : Z.land (65535 - f) f = 0 -> has (clr_flag a f) f = false.
Proof. intros H. unfold has, clr_flag. rewrite <- Z.land_assoc, H, Z.land_0_r. reflexivity. Qed.
(** clearing the override: readers see the stored bytes again *)
Theorem C13_clear : forall E s fd i s' b,
  reachable E s -> 9 <= i -> stored s i b -> step E s (OpOvSet fd i 0) = Done s' ->
  stored s' i b /\ no_override s' i /\ answered s s' (OResp fd MSG_SET_OVRD []).
Proof.
  intros E s fd i s' b R Hi (t & Ht & V & D) H.
  apply step_inv in H as (s1 & u & H & ->). cbn [handle_op] in H. inv1 H. apply reply_status_done in H. subst s1.
  assert (EO := override_set_evout _ _ _ _ _ _ Hm).
  unfold override_set in Hm. inv1 Hm. rewrite Ht, D in Hm. cbn [Z.eqb negb] in Hm. destruct (has (t_attr t) A_OVR_SET) eqn:O.
  - inv1 Hm. inv1 Hm. inv1 Hm. inv1 Hm. inv1 Hm. inv1 Hm.
    assert (Ht1 := sys_write_tag _ _ _ _ _ _ i t Hm0 Ht ltac:(unfold IX_OVS; lia)). assert (t0 = t) by congruence. subst t0.
    split; [|split].
    + exists (set_attr t (clr_flag (t_attr t) A_OVR_SET)). split; [cbn; apply znth_zset_eq; eapply znth_range; eassumption|].
      split; [|exact D]. cbn [t_attr set_attr]. rewrite has_clr_flag by (unfold A_VIRTUAL, A_OVR_SET; lia || reflexivity). exact V.
    + intros t1 A. cbn in A. rewrite znth_zset_eq in A by (eapply znth_range; eassumption). injection A as <-. cbn. apply has_clr_same; reflexivity.
    + apply answered_step. apply answered_resp. exact EO.
  - inv1 Hm. split; [exists t; auto|]. split; [intros t1 A; cbn in A; congruence|].
    apply answered_step. apply answered_resp. exact EO.
Qed.
(** a tag of any type but BOOL: the size the override functions use is the size of the tag *)
Lemma raw_stored s i t b : Inv s -> znth (s_db s) i = Some t -> t_data t = DBytes b -> t_type t <> T_BOOL ->
  raw_size (s_types s) t = Done (s32 (zlen b)).
Proof.
  intros I Ht D N. assert (A := stored_size _ _ _ _ I Ht D). unfold tag_size in A. unfold raw_size.
  replace (t_type t =? T_BOOL) with false in A by lia. destruct (type_size (s_types s) (t_type t)); [|discriminate].
  cbn [rbind] in *. rewrite Z.mul_comm. exact A.
Qed.
(** installing: the override data and mask of the range are the ones sent *)
Lemma install_effect : forall E s fd i off d m s' b,
  reachable E s -> 9 <= i -> stored s i b -> zlen b < 2147483648 -> zlen m = zlen d -> 0 <= off ->
  (forall t, znth (s_db s) i = Some t -> t_type t <> T_BOOL) ->
  (forall t, znth (s_db s) i = Some t -> t_odata t = None) ->
  step E s (OpOvAdd fd i off d m) = Done s' -> answered s s' (OResp fd MSG_ADD_OVRD []) ->
  off + zlen d <= zlen b /\ stored s' i b /\
  exists od om, override_in s' i od om /\ zlen od = zlen b /\ zlen om = zlen b /\
    slice off (zlen d) od = d /\ slice off (zlen d) om = m /\
    ((forall a p, u8 (en_junk E a p) = 0) -> forall k, 0 <= k < off \/ off + zlen d <= k < zlen b -> znth om k = Some 0).
Proof.
  intros E s fd i off d m s' b R Hi (t & Ht & V & D) Hb Lm Ho Nb No H A. assert (I := reachable_Inv _ _ R).
  specialize (Nb _ Ht). specialize (No _ Ht).
  apply step_inv in H as (s1 & u & H & ->). cbn [handle_op] in H. inv1 H. apply reply_status_done in H. subst s1.
  assert (EO := override_add_evout _ _ _ _ _ _ _ _ Hm).
  assert (Rz : v = 0).
  { destruct (v =? 0) eqn:Q; [lia|]. assert (B := answered_step _ _ _ (s_step s0 + 1) (answered_err _ _ fd MSG_ADD_OVRD v EO)).
    assert (X := answered_fun _ _ _ _ A B). discriminate. }
  clear A. cbn in EO. unfold override_add in Hm. inv1 Hm. rewrite Ht, D in Hm.
  rewrite (bind_lift_done _ _ _ _ (raw_stored _ _ _ _ I Ht D Nb)) in Hm. assert (Lb := zlen_nonneg b). rewrite s32_small in Hm by lia.
  cbv zeta in Hm. rewrite No in Hm. assert (Ld := zlen_nonneg d).
  destruct ((0 <=? zlen b) && (zlen b <? zlen d)) eqn:Q1; [discriminate|].
  replace (zlen b <? 0) with false in Hm by lia. cbn [andb] in Hm. inv1 Hm.
  destruct (negb (fits32 (off + zlen d))) eqn:Q2; [discriminate|].
  destruct (zlen b <? off + zlen d) eqn:Q3; [inv1 Hm; discriminate|].
  split; [lia|].
  inv1 Hm. cbn [s_db set_tag set_db] in Ht0. rewrite znth_zset_eq in Ht0 by (eapply znth_range; eassumption). injection Ht0 as <-.
  cbn [t_odata t_omask set_ovr] in Hm.
  set (fr := fun p => zeros (zlen d) ++ jbytes E (s_step s) p (zlen b - zlen d)) in *.
  assert (Lf : forall p, zlen (fr p) = zlen b) by (intros p; unfold fr; rewrite zlen_app, zlen_zeros, zlen_jbytes by lia; lia).
  fold (fr 200) in Hm. fold (fr 300) in Hm. rewrite !Lf in Hm.
  assert (Bd : in_bounds off (zlen d) (zlen b) = true) by (apply in_bounds_iff; lia). rewrite Bd in Hm. cbn [negb orb] in Hm.
  rewrite bind_put_tag in Hm. apply bind_done in Hm. destruct Hm as (s2 & v2 & Hm1 & Hm).
  inv1 Hm. inv1 Hm. apply ret_done in Hm as [-> _].
  set (t3 := set_ovr (set_ovr t (Some (fr 200)) (Some (fr 300))) (Some (splice off m (fr 200))) (Some (splice off d (fr 300)))) in *.
  assert (Z2 : znth (s_db s2) i = Some t3).
  { rewrite set_tag_set_tag in Hm1. assert (Z3 : znth (s_db (set_tag s i t3)) i = Some t3) by (cbn; apply znth_zset_eq; eapply znth_range; eassumption).
    cbn [t_attr set_ovr] in Hm1. destruct (negb (has (t_attr t) A_OVERRIDE)); [|inv1 Hm1; exact Z3].
    inv1 Hm1. inv1 Hm1. eapply sys_write_tag; [exact Hm1 | exact Z3 | unfold IX_OVI; lia]. }
  assert (t0 = t3) by congruence. subst t0.
  set (t4 := set_attr t3 (set_flag (t_attr t3) A_OVERRIDE)) in *.
  assert (Z4 : znth (s_db (set_tag s2 i t4)) i = Some t4) by (cbn; apply znth_zset_eq; eapply znth_range; eassumption).
  split.
  - exists t4. split; [exact Z4|]. split; [|exact D]. cbn. rewrite has_set_flag. cbn. rewrite orb_false_r. exact V.
  - exists (splice off d (fr 300)), (splice off m (fr 200)). split; [exists t4; split; [exact Z4|]; split; reflexivity|].
    assert (B1 : in_bounds off (zlen d) (zlen (fr 300)) = true) by (rewrite Lf; exact Bd).
    assert (B2 : in_bounds off (zlen m) (zlen (fr 200)) = true) by (rewrite Lf, Lm; exact Bd).
    rewrite !zlen_splice by assumption. rewrite !Lf. split; [reflexivity|]. split; [reflexivity|].
    split; [apply slice_splice_same; exact B1|]. split; [rewrite <- Lm; apply slice_splice_same; exact B2|].
    intros J k Hk. rewrite znth_splice by (exact B2 || (rewrite ?Lf; lia)).
    replace ((off <=? k) && (k <? off + zlen m)) with false by lia.
    assert (Z0 : forall l : list Z, (forall x, In x l -> x = 0) -> 0 <= k < zlen l -> znth l k = Some 0).
    { intros l Hl Hr. destruct (znth_some l k Hr) as [x Hx]. rewrite Hx. f_equal. apply Hl. unfold znth in Hx.
      destruct ((0 <=? k) && (k <? zlen l)); [|discriminate]. eapply nth_error_In; exact Hx. }
    apply Z0; [|rewrite Lf; lia]. intros x Hx. unfold fr in Hx. apply in_app_or in Hx as [Hx|Hx].
    + apply repeat_spec in Hx. exact Hx.
    + unfold jbytes in Hx. apply in_map_iff in Hx as (y & Hy & _). rewrite <- Hy. apply J.
Qed.
Theorem C13_install : forall E s fd i off d m s' b,
  reachable E s -> 9 <= i -> stored s i b -> zlen b < 2147483648 -> zlen m = zlen d -> 0 <= off ->
  (forall t, znth (s_db s) i = Some t -> t_type t <> T_BOOL) ->
  (forall t, znth (s_db s) i = Some t -> t_odata t = None) ->
  step E s (OpOvAdd fd i off d m) = Done s' -> answered s s' (OResp fd MSG_ADD_OVRD []) ->
  off + zlen d <= zlen b /\ stored s' i b /\
  exists od om, override_in s' i od om /\ zlen od = zlen b /\ zlen om = zlen b /\
    slice off (zlen d) od = d /\ slice off (zlen d) om = m.
Proof.
  intros E s fd i off d m s' b R Hi S Hb Lm Ho N1 N2 H A.
  destruct (install_effect _ _ _ _ _ _ _ _ _ R Hi S Hb Lm Ho N1 N2 H A) as (B & S1 & od & om & P1 & P2 & P3 & P4 & P5 & _).
  split; [exact B|]. split; [exact S1|]. exists od, om. auto.
Qed.
(** activating an installed override *)
Theorem C13_set : forall E s fd i s' b od om flag,
  reachable E s -> 9 <= i -> stored s i b -> override_in s i od om -> flag <> 0 ->
  step E s (OpOvSet fd i flag) = Done s' ->
  stored s' i b /\ override_on s' i od om /\ answered s s' (OResp fd MSG_SET_OVRD []).
Proof.
  intros E s fd i s' b od om flag R Hi (t & Ht & V & D) (t' & Ht' & Od & Om) Hf H. assert (t' = t) by congruence. subst t'.
  apply step_inv in H as (s1 & u & H & ->). cbn [handle_op] in H. inv1 H. apply reply_status_done in H. subst s1.
  assert (EO := override_set_evout _ _ _ _ _ _ Hm).
  unfold override_set in Hm. inv1 Hm. rewrite Ht, D in Hm. replace (flag =? 0) with false in Hm by lia. cbn [negb] in Hm. rewrite Od in Hm.
  destruct (has (t_attr t) A_OVR_SET) eqn:O.
  - inv1 Hm. split; [exists t; auto|]. split; [exists t; auto|].
    apply answered_step. apply answered_resp. exact EO.
  - inv1 Hm. inv1 Hm. inv1 Hm. inv1 Hm. inv1 Hm. inv1 Hm.
    assert (Ht1 := sys_write_tag _ _ _ _ _ _ i t Hm0 Ht ltac:(unfold IX_OVS; lia)). assert (t0 = t) by congruence. subst t0.
    set (t4 := set_attr t (set_flag (t_attr t) A_OVR_SET)).
    assert (Z4 : znth (s_db (set_tag s1 i t4)) i = Some t4) by (cbn; apply znth_zset_eq; eapply znth_range; eassumption).
    split; [|split].
    + exists t4. split; [exact Z4|]. split; [|exact D]. cbn. rewrite has_set_flag. cbn. rewrite orb_false_r. exact V.
    + exists t4. split; [exact Z4|]. split; [|split; [exact Od | exact Om]]. cbn. rewrite has_set_flag. cbn. apply orb_true_r.
    + apply answered_step. apply answered_resp. exact EO.
Qed.
(** the whole cycle: install, activate, read, clear, read *)
Theorem C13_cycle : forall E s fd i off d m b s1 s2 s3,
  reachable E s -> 9 <= i -> stored s i b -> zlen b < 2147483648 -> zlen m = zlen d -> 0 <= off -> zlen d <= MSG_DATA_SIZE -> bytes_ok m ->
  (forall t, znth (s_db s) i = Some t -> t_type t <> T_BOOL /\ t_odata t = None) ->
  step E s (OpOvAdd fd i off d m) = Done s1 -> answered s s1 (OResp fd MSG_ADD_OVRD []) ->
  step E s1 (OpOvSet fd i 1) = Done s2 -> step E s2 (OpOvSet fd i 0) = Done s3 ->
  (forall rfd, exists r, step E s2 (OpRead rfd i off (zlen d)) = Done (after s2 [OResp rfd MSG_TAG_READ r]) /\ zlen r = zlen d /\
     forall k, 0 <= k < 8 * zlen d -> bit r k = if bit m k then bit d k else bit b (k + 8 * off)) /\
  (forall rfd, step E s3 (OpRead rfd i off (zlen d)) = Done (after s3 [OResp rfd MSG_TAG_READ (slice off (zlen d) b)])).
Proof.
  intros E s fd i off d m b s1 s2 s3 R Hi S Hb Lm Ho Ld Bm Nt H1 A1 H2 H3.
  destruct (C13_install _ _ _ _ _ _ _ _ _ R Hi S Hb Lm Ho (fun t Q => proj1 (Nt t Q)) (fun t Q => proj2 (Nt t Q)) H1 A1)
    as (B & S1 & od & om & O1 & L1 & L2 & E1 & E2).
  assert (R1 := reachable_step _ _ _ _ R H1). assert (one : 1 <> 0) by lia.
  destruct (C13_set _ _ _ _ _ _ _ _ _ R1 Hi S1 O1 one H2) as (S2 & O2 & _).
  assert (R2 := reachable_step _ _ _ _ R1 H2).
  destruct (C13_clear _ _ _ _ _ _ R2 Hi S2 H3) as (S3 & O3 & _). assert (R3 := reachable_step _ _ _ _ R2 H3).
  assert (Zd := zlen_nonneg d).
  split; intros rfd.
  - assert (Bo : bytes_ok (slice off (zlen d) om)) by (rewrite E2; exact Bm).
    destruct (C13_read_mixes E s2 rfd i off (zlen d) b od om R2 S2 Hb O2 Bo) as (r & P1 & P2 & P3); try lia.
    exists r. split; [exact P1|]. split; [exact P2|]. intros k Hk. rewrite (P3 k Hk).
    assert (I1 : in_bounds off (zlen d) (zlen od) = true) by (apply in_bounds_iff; lia).
    assert (I2 : in_bounds off (zlen d) (zlen om) = true) by (apply in_bounds_iff; lia).
    rewrite <- (slice_bit off (zlen d) om k) by (assumption || lia). rewrite <- (slice_bit off (zlen d) od k) by (assumption || lia).
    rewrite E1, E2. reflexivity.
  - apply C04_read_stored; try assumption; try lia.
Qed.
Example C13_ex : exists s1 s2 s3 b, stored demo 15 b /\ zlen b = 8 /\
  (forall t, znth (s_db demo) 15 = Some t -> t_type t <> T_BOOL /\ t_odata t = None) /\
  step env0 demo (OpOvAdd 6 15 2 [7; 9] [255; 15]) = Done s1 /\ answered demo s1 (OResp 6 MSG_ADD_OVRD []) /\
  step env0 s1 (OpOvSet 6 15 1) = Done s2 /\ step env0 s2 (OpOvSet 6 15 0) = Done s3.
Proof.
  eexists _, _, _, _. split; [eexists; split; [vm_compute; reflexivity|]; split; vm_compute; reflexivity|]. split; [vm_compute; reflexivity|].
  split; [intros t; vm_compute; intros H; injection H as <-; split; [discriminate | reflexivity]|].
  split; [vm_compute; reflexivity|]. split; [exists []; split; [vm_compute; reflexivity | constructor]|].
  split; [vm_compute; reflexivity|]. vm_compute; reflexivity.
Qed.
(** non-trivial also for a reader: the override shows through *)
Example C13_ex_read : exists s2 s3, exec env0 demo [OpOvAdd 6 15 2 [7; 9] [255; 15]; OpOvSet 6 15 1] = Done s2 /\
  step env0 s2 (OpRead 5 15 2 2) = Done s3 /\ s_out s3 = s_out s2 ++ [OResp 5 MSG_TAG_READ [7; 9]].
Proof. eexists _, _. split; [vm_compute; reflexivity|]. split; [vm_compute; reflexivity|]. vm_compute; reflexivity. Qed.

(** the mask that is left after removing the part [m] at [off] *)
Definition unmasked (off : Z) (m om om' : list Z) : Prop :=
  zlen om' = zlen om /\
  forall k, 0 <= k < 8 * zlen om ->
    bit om' k = bit om k && negb ((8 * off <=? k) && (k <? 8 * (off + zlen m)) && bit m (k - 8 * off)).
Lemma clr_bit off m l k : in_bounds off (zlen m) (zlen l) = true -> bytes_ok m -> 0 <= k < 8 * zlen l ->
  bit (splice off (mix (slice off (zlen m) l) (zeros (zlen m)) m) l) k =
  bit l k && negb ((8 * off <=? k) && (k <? 8 * (off + zlen m)) && bit m (k - 8 * off)).
Proof.
  intros B Bm Hk. assert (L := zlen_slice _ _ _ B). assert (Lm := zlen_nonneg m).
  assert (Lx : zlen (mix (slice off (zlen m) l) (zeros (zlen m)) m) = zlen m) by (rewrite zlen_mix; rewrite ?zlen_zeros; lia).
  rewrite splice_bit by (rewrite ?Lx; assumption). rewrite Lx.
  destruct ((8 * off <=? k) && (k <? 8 * (off + zlen m))) eqn:C; cbn [andb negb]; [|rewrite andb_true_r; reflexivity].
  apply in_bounds_iff in B as B'.
  rewrite mix_bit by (rewrite ?L, ?zlen_zeros; try assumption; lia).
  assert (Z0 : bit (zeros (zlen m)) (k - 8 * off) = false).
  { unfold bit, nthb, zeros. rewrite nth_repeat. apply Z.bits_0. }
  rewrite Z0. rewrite slice_bit by (assumption || lia). replace (k - 8 * off + 8 * off) with k by lia.
  destruct (bit m (k - 8 * off)); cbn [negb]; rewrite ?andb_false_r, ?andb_true_r; reflexivity.
Qed.
Lemma clr_bytes l : forall m, bytes_ok l -> bytes_ok (mix l (zeros (zlen m)) m).
Proof.
  induction l as [|x l IH]; intros [|z m] A; try (cbn; constructor; fail).
  - unfold zeros. rewrite zlen_cons. rewrite Z2Nat.inj_add by (pose proof (zlen_nonneg m); lia). cbn [Z.to_nat Pos.to_nat Pos.iter_op Nat.add repeat mix].
    constructor; [|apply IH; apply Forall_inv_tail in A; exact A]. apply Forall_inv in A. cbn [Z.land]. rewrite Z.lor_0_l.
    split; [apply Z.land_nonneg; lia|]. apply Z.le_lt_trans with x; [|lia].
    assert (Q : x - Z.land x (bnot z) = Z.ldiff x (Z.land x (bnot z))).
    { apply Z.sub_nocarry_ldiff. apply Z.bits_inj'. intros n Hn. rewrite Z.ldiff_spec, Z.land_spec, Z.bits_0. destruct (Z.testbit x n); cbn; [apply andb_false_r | reflexivity]. }
    assert (0 <= Z.ldiff x (Z.land x (bnot z))) by (apply Z.ldiff_nonneg; lia). lia.
Qed.
Lemma zero_bits_byte l k x : znth l k = Some x -> 0 <= x < 256 -> (forall j, 0 <= j < 8 -> bit l (8 * k + j) = false) -> x = 0.
Proof.
  intros H Hx B. apply Z.bits_inj_iff. intros j. rewrite Z.bits_0. destruct (Z.ltb_spec j 0) as [Hj|Hj]; [apply Z.testbit_neg_r; exact Hj|].
  destruct (Z.ltb_spec j 8) as [H8|H8].
  - specialize (B j (conj Hj H8)). unfold bit in B. replace ((8 * k + j) / 8) with k in B by lia. replace ((8 * k + j) mod 8) with j in B by lia.
    rewrite (nthb_znth _ _ _ H) in B. exact B.
  - destruct (Z.eq_dec x 0) as [->|N]; [apply Z.bits_0|]. apply Z.bits_above_log2; [lia|].
    assert (Z.log2 x < 8) by (apply Z.log2_lt_pow2; lia). lia.
Qed.
(** removing (part of) an override: the stored bytes stay; when no masked bit is left the override is gone, active or not,
    and readers see the stored bytes again; otherwise the rest of the override stays installed, and active if it was *)
Theorem C13_delete : forall E s fd i off m s' b od om,
  reachable E s -> 9 <= i -> stored s i b -> zlen b < 2147483648 ->
  (forall t, znth (s_db s) i = Some t -> t_type t <> T_BOOL) ->
  override_in s i od om -> zlen od = zlen b -> zlen om = zlen b -> bytes_ok om -> bytes_ok m ->
  step E s (OpOvDel fd i off m) = Done s' ->
  answered s s' (OResp fd MSG_DEL_OVRD []) /\ stored s' i b /\
  exists om', unmasked off m om om' /\
    ((forall k, 0 <= k < 8 * zlen b -> bit om' k = false) ->
       no_override s' i /\ forall t, znth (s_db s') i = Some t -> t_odata t = None /\ t_omask t = None) /\
    (forall k, 0 <= k < 8 * zlen b -> bit om' k = true ->
       exists od', override_in s' i od' om' /\ unmasked off m od od' /\ (override_on s i od om -> override_on s' i od' om')).
Proof.
  intros E s fd i off m s' b od om R Hi (t & Ht & V & D) Hb Nb (t' & Ht' & Od & Om) Lod Lom Bom Bm H.
  assert (t' = t) by congruence. subst t'. assert (I := reachable_Inv _ _ R). specialize (Nb _ Ht).
  apply step_inv in H as (s1 & u & H & ->). cbn [handle_op] in H. inv1 H. apply reply_status_done in H. subst s1.
  assert (EO := override_del_evout _ _ _ _ _ _ _ Hm). assert (Lb := zlen_nonneg b). assert (Lm := zlen_nonneg m).
  unfold override_del in Hm. inv1 Hm. rewrite Ht, D in Hm.
  rewrite (bind_lift_done _ _ _ _ (raw_stored _ _ _ _ I Ht D Nb)) in Hm. rewrite s32_small in Hm by lia.
  rewrite Od, Om in Hm. cbv zeta in Hm.
  destruct ((0 <? zlen m) && (negb (in_bounds off (zlen m) (zlen od)) || negb (in_bounds off (zlen m) (zlen om)))) eqn:Q1; [discriminate|].
  set (om' := if 0 <? zlen m then splice off (mix (slice off (zlen m) om) (zeros (zlen m)) m) om else om) in *.
  set (od' := if 0 <? zlen m then splice off (mix (slice off (zlen m) od) (zeros (zlen m)) m) od else od) in *.
  assert (U : unmasked off m om om' /\ unmasked off m od od' /\ bytes_ok om').
  { unfold unmasked, om', od'. destruct (0 <? zlen m) eqn:P.
    - cbn [andb] in Q1. assert (B1 : in_bounds off (zlen m) (zlen od) = true) by (destruct (in_bounds off (zlen m) (zlen od)); [reflexivity | discriminate]).
      assert (B2 : in_bounds off (zlen m) (zlen om) = true) by (destruct (in_bounds off (zlen m) (zlen om)); [reflexivity | rewrite orb_true_r in Q1; discriminate]).
      assert (L1 : zlen (mix (slice off (zlen m) od) (zeros (zlen m)) m) = zlen m) by (rewrite zlen_mix; rewrite (zlen_slice _ _ _ B1), ?zlen_zeros; lia).
      assert (L2 : zlen (mix (slice off (zlen m) om) (zeros (zlen m)) m) = zlen m) by (rewrite zlen_mix; rewrite (zlen_slice _ _ _ B2), ?zlen_zeros; lia).
      split; [split; [apply zlen_splice; rewrite L2; exact B2 | intros k Hk; apply clr_bit; assumption]|].
      split; [split; [apply zlen_splice; rewrite L1; exact B1 | intros k Hk; apply clr_bit; assumption]|].
      apply bytes_ok_splice; [|exact Bom]. apply clr_bytes. apply bytes_ok_slice. exact Bom.
    - assert (Z : forall k, (8 * off <=? k) && (k <? 8 * (off + zlen m)) = false) by (intros k; lia).
      split; [split; [reflexivity|]|split; [split; [reflexivity|]|exact Bom]]; intros k Hk; rewrite Z; cbn; rewrite andb_true_r; reflexivity. }
  destruct U as (U1 & U2 & Bom'). clearbody om' od'. assert (Lo : zlen om' = zlen b) by (rewrite (proj1 U1); exact Lom).
  replace (firstn (Z.to_nat (zlen b)) om') with om' in Hm by (symmetry; apply firstn_all2; unfold zlen in Lo |- *; lia).
  inv1 Hm. set (t2 := set_ovr t (Some om') (Some od')) in *.
  assert (Z2 : znth (s_db (set_tag s i t2)) i = Some t2) by (cbn; apply znth_zset_eq; eapply znth_range; exact Ht).
  destruct (existsb (fun x => negb (x =? 0)) om') eqn:X.
  - inv1 Hm. split; [apply answered_step; apply answered_resp; exact EO|].
    split; [exists t2; split; [exact Z2|]; split; [exact V | exact D]|]. exists om'. split; [exact U1|]. split.
    + intros F. exfalso. apply existsb_exists in X as (x & Hx & Nx). apply In_nth_error in Hx as (n & Hn).
      assert (Hz : znth om' (Z.of_nat n) = Some x).
      { unfold znth. assert (n < length om')%nat by (apply nth_error_Some; congruence).
        replace ((0 <=? Z.of_nat n) && (Z.of_nat n <? zlen om')) with true by (unfold zlen; lia). rewrite Nat2Z.id. exact Hn. }
      assert (Rg := znth_range _ _ _ Hz). assert (Bx := proj1 (bytes_ok_znth om') Bom' _ _ Hz).
      assert (x = 0); [|subst x; discriminate]. eapply zero_bits_byte; [exact Hz | exact Bx |]. intros j Hj. apply F. lia.
    + intros k Hk Bk. exists od'. split; [exists t2; split; [exact Z2|]; split; reflexivity|]. split; [exact U2|].
      intros (t0 & Ht0 & F & _ & _). assert (t0 = t) by congruence. subst t0. exists t2. split; [exact Z2|]. split; [exact F|]. split; reflexivity.
  - replace (zlen om' <? zlen b) with false in Hm by lia.
    inv1 Hm. rewrite set_tag_set_tag in Hm. inv1 Hm. inv1 Hm.
    match type of Hm with context [set_tag _ _ ?x] => set (t3 := x) in * end.
    apply bind_done in Hm as (s3 & v3 & H3 & Hm). inv1 Hm. inv1 Hm. apply ret_done in Hm as [-> ->].
    assert (Z3 : znth (s_db (set_tag s i t3)) i = Some t3) by (cbn; apply znth_zset_eq; eapply znth_range; exact Ht).
    assert (Z4 := sys_write_tag _ _ _ _ _ _ i t3 H3 Z3 ltac:(unfold IX_OVI; lia)). assert (t0 = t3) by congruence. subst t0.
    set (t5 := set_ovr t3 None None) in *.
    assert (Z5 : znth (s_db (set_tag s3 i t5)) i = Some t5) by (cbn; apply znth_zset_eq; eapply znth_range; exact Z4).
    split; [apply answered_step; apply answered_resp; exact EO|].
    split.
    + exists t5. split; [exact Z5|]. split; [|exact D]. cbn. unfold has, clr_flag in *. rewrite <- Z.land_assoc. exact V.
    + exists om'. split; [exact U1|]. split.
      * intros _. split.
        { intros t0 Q. cbn in Q. assert (t0 = t5) by (cbn in Z5; congruence). subst t0. cbn. unfold has, clr_flag. rewrite <- Z.land_assoc. cbn. rewrite Z.land_0_r. reflexivity. }
        { intros t0 Q. cbn in Q. assert (t0 = t5) by (cbn in Z5; congruence). subst t0. split; reflexivity. }
      * intros k Hk Bk. exfalso. assert (F : forall x, In x om' -> x = 0).
        { intros x Hx. destruct (x =? 0) eqn:Q; [lia|]. assert (existsb (fun x => negb (x =? 0)) om' = true); [|congruence].
          apply existsb_exists. exists x. rewrite Q. auto. }
        unfold bit in Bk. assert (W : 0 <= k / 8 < zlen om') by lia. assert (Y := znth_nthb om' (k / 8) W).
        assert (In (nthb om' (k / 8)) om').
        { unfold znth in Y. destruct ((0 <=? k / 8) && (k / 8 <? zlen om')); [|discriminate]. eapply nth_error_In; exact Y. }
        rewrite (F _ H) in Bk. rewrite Z.bits_0 in Bk. discriminate.
Qed.
(** removing an active override of two bytes in two steps: after the first the other byte is still overridden *)
Definition c13_on : server := after_ops env0 (demo_ops ++ [OpOvAdd 6 15 2 [7; 9] [255; 15]; OpOvSet 6 15 1]).
Example C13_ex_delete : reachable env0 c13_on /\ stored c13_on 15 (zeros 8) /\
  override_on c13_on 15 [0;0;7;9;0;0;0;0] [0;0;255;15;0;0;0;0] /\
  match step env0 c13_on (OpOvDel 6 15 2 [255]) with
  | Done s1 => override_on s1 15 [0;0;0;9;0;0;0;0] [0;0;0;15;0;0;0;0] /\
     match step env0 s1 (OpOvDel 6 15 3 [15]) with Done s2 => no_override s2 15 | Undef _ => False end
  | Undef _ => False end.
Proof.
  split; [apply after_reachable; vm_compute; reflexivity|].
  split; [eexists; split; [vm_compute; reflexivity|]; split; vm_compute; reflexivity|].
  split; [eexists; split; [vm_compute; reflexivity|]; split; [|split]; vm_compute; reflexivity|].
  vm_compute. split; [eexists; split; [reflexivity|]; split; [|split]; reflexivity|].
  intros t H. injection H as <-. reflexivity.
Qed.

(** ** C14 *)
(** FULL STATEMENT (false, see the two [_refuted] theorems): for every tag type and every content of
    fresh memory, installing in range succeeds and leaves the rest of the tag alone.
    MISSING here: BOOL tags; the rest of the tag when fresh memory is not zero. *)
Lemma bind_run {S A B} (m : M S A) (k : A -> M S B) s s' a : m s = Done (s', a) -> bind m k s = k a s'.
Proof. intros H. unfold bind. rewrite H. reflexivity. Qed.
Theorem C14_installs_partial : forall E s fd i off d m s' b,
  reachable E s -> 9 <= i -> stored s i b -> zlen b < 2147483648 -> zlen m = zlen d -> 0 <= off -> off + zlen d <= zlen b ->
  (forall t, znth (s_db s) i = Some t -> t_type t <> T_BOOL) ->
  (forall t, znth (s_db s) i = Some t -> t_odata t = None) ->
  step E s (OpOvAdd fd i off d m) = Done s' -> answered s s' (OResp fd MSG_ADD_OVRD []).
Proof.
  intros E s fd i off d m s' b R Hi (t & Ht & V & D) Hb Lm Ho Hd Nb No H. assert (I := reachable_Inv _ _ R).
  specialize (Nb _ Ht). specialize (No _ Ht).
  apply step_inv in H as (s1 & u & H & ->). cbn [handle_op] in H. inv1 H. apply reply_status_done in H. subst s1.
  assert (EO := override_add_evout _ _ _ _ _ _ _ _ Hm). apply answered_step.
  enough (v = 0) as -> by (apply answered_resp; exact EO).
  unfold override_add in Hm. inv1 Hm. rewrite Ht, D in Hm.
  rewrite (bind_lift_done _ _ _ _ (raw_stored _ _ _ _ I Ht D Nb)) in Hm. assert (Lb := zlen_nonneg b). rewrite s32_small in Hm by lia.
  cbv zeta in Hm. rewrite No in Hm. assert (Ld := zlen_nonneg d).
  destruct ((0 <=? zlen b) && (zlen b <? zlen d)) eqn:Q1; [discriminate|].
  replace (zlen b <? 0) with false in Hm by lia. cbn [andb] in Hm. inv1 Hm.
  destruct (negb (fits32 (off + zlen d))) eqn:Q2; [discriminate|].
  replace (zlen b <? off + zlen d) with false in Hm by lia. inv1 Hm.
  destruct (t_odata t0); [|discriminate]. destruct (t_omask t0); [|discriminate].
  match type of Hm with (if ?c then _ else _) _ = _ => destruct c; [discriminate|] end.
  inv1 Hm. apply bind_done in Hm as (s2 & v2 & _ & Hm). inv1 Hm. inv1 Hm. apply ret_done in Hm as [_ ->]. reflexivity.
Qed.
(** a request nobody watches the counter of cannot fail to be defined *)
Theorem C14_defined_partial : forall E s fd i off d m b b7 t7,
  reachable E s -> 9 <= i -> stored s i b -> zlen b < 2147483648 -> zlen m = zlen d -> 0 <= off -> off + zlen d <= zlen b ->
  (forall t, znth (s_db s) i = Some t -> t_type t <> T_BOOL) ->
  (forall t, znth (s_db s) i = Some t -> t_odata t = None) ->
  znth (s_db s) IX_OVI = Some t7 -> t_data t7 = DBytes b7 -> zlen b7 = 4 -> t_attr t7 = A_READONLY -> t_events t7 = [] ->
  exists s', step E s (OpOvAdd fd i off d m) = Done s'.
Proof.
  intros E s fd i off d m b b7 t7 R Hi (t & Ht & V & D) Hb Lm Ho Hd Nb No H7 D7 L7 A7 E7. assert (I := reachable_Inv _ _ R).
  specialize (Nb _ Ht). specialize (No _ Ht). assert (Lb := zlen_nonneg b). assert (Ld := zlen_nonneg d).
  enough (K : exists s' r, override_add E i off d m s = Done (s', r)).
  { destruct K as (s' & r & K). unfold step. cbn [handle_op]. unfold bind. rewrite K, reply_status_out. eexists. reflexivity. }
  unfold override_add. rewrite bind_get, Ht, D. rewrite (bind_lift_done _ _ _ _ (raw_stored _ _ _ _ I Ht D Nb)). rewrite s32_small by lia.
  cbv zeta. rewrite No. replace ((0 <=? zlen b) && (zlen b <? zlen d)) with false by lia. replace (zlen b <? 0) with false by lia.
  cbn [andb]. rewrite bind_put_tag. assert (F : fits32 (off + zlen d) = true) by (unfold fits32; lia). rewrite F. cbn [negb].
  replace (zlen b <? off + zlen d) with false by lia.
  set (fr := fun p => zeros (zlen d) ++ jbytes E (s_step s) p (zlen b - zlen d)).
  assert (Lf : forall p, zlen (fr p) = zlen b) by (intros p; unfold fr; rewrite zlen_app, zlen_zeros, zlen_jbytes by lia; lia).
  fold (fr 200). fold (fr 300).
  set (t1 := set_ovr t (Some (fr 200)) (Some (fr 300))).
  assert (Zr := znth_range _ _ _ Ht).
  assert (Z1 : znth (s_db (set_tag s i t1)) i = Some t1) by (cbn; apply znth_zset_eq; exact Zr).
  assert (TA : forall B (k : tag -> SM B) x j u, znth (s_db x) j = Some u -> bind (tag_at j) k x = k u x).
  { intros B k x j u Q. unfold bind, tag_at. rewrite Q. reflexivity. }
  rewrite (TA _ _ _ _ _ Z1). cbn [t_odata t_omask t1 set_ovr]. rewrite !Lf.
  assert (Bd : in_bounds off (zlen d) (zlen b) = true) by (apply in_bounds_iff; lia). rewrite Bd. cbn [negb orb].
  rewrite bind_put_tag, set_tag_set_tag.
  set (t2 := set_ovr t1 _ _). set (s2 := set_tag s i t2).
  assert (Z2 : znth (s_db s2) i = Some t2) by (cbn; apply znth_zset_eq; exact Zr).
  assert (Z27 : znth (s_db s2) IX_OVI = Some t7) by (cbn; rewrite znth_zset_ne by (unfold IX_OVI; lia); exact H7).
  assert (TS : tag_size (s_types s) t7 = Done 4) by (rewrite (stored_size _ _ _ _ I H7 D7), L7; reflexivity).
  assert (SW : forall x, exists s3, sys_write E IX_OVI (le_bytes 4 x) (set_ovi s2 x) = Done (s3, tt) /\ znth (s_db s3) i = Some t2).
  { intros x. unfold sys_write. change (s_db (set_ovi s2 x)) with (s_db s2). rewrite Z27, D7.
    unfold tag_write. change (s_db (set_ovi s2 x)) with (s_db s2). rewrite Z27, A7. change (has A_READONLY A_VIRTUAL) with false. cbv iota.
    change (fits32 (0 + zlen (le_bytes 4 x))) with true. cbn [negb]. change (s_types (set_ovi s2 x)) with (s_types s). rewrite TS. cbn [rbind].
    change (4 <? 0 + zlen (le_bytes 4 x)) with false. cbv iota. rewrite D7. change (has A_READONLY A_SPECIAL) with false. cbv iota zeta. cbn [Z.eqb negb].
    rewrite L7. change (in_bounds 0 (zlen (le_bytes 4 x)) 4) with true. cbn [negb].
    unfold commit. rewrite E7. cbn [check_events rbind fst snd]. rewrite A7. change (has A_READONLY A_RETAIN) with false. cbv iota.
    eexists. split; [reflexivity|]. cbn. rewrite znth_zset_ne by (unfold IX_OVI; lia). apply znth_zset_eq; exact Zr. }
  cbn [t_attr t1 set_ovr]. destruct (negb (has (t_attr t) A_OVERRIDE)).
  - destruct (SW (s_ovi s + 1)) as (s3 & W & Z3).
    rewrite (bind_run _ _ s2 s3 tt) by (rewrite bind_modify, bind_get; exact W).
    rewrite (TA _ _ _ _ _ Z3), bind_put_tag. unfold ret. eexists _, _. reflexivity.
  - rewrite bind_ret, (TA _ _ _ _ _ Z2), bind_put_tag. unfold ret. eexists _, _. reflexivity.
Qed.
(** bytes outside the installed range keep showing the stored value, provided fresh memory is zero *)
Theorem C14_outside_partial : forall E s fd i off d m b s1 s2 rfd p n,
  (forall a p, u8 (en_junk E a p) = 0) ->
  reachable E s -> 9 <= i -> stored s i b -> zlen b < 2147483648 -> zlen m = zlen d -> 0 <= off ->
  (forall t, znth (s_db s) i = Some t -> t_type t <> T_BOOL /\ t_odata t = None) ->
  step E s (OpOvAdd fd i off d m) = Done s1 -> answered s s1 (OResp fd MSG_ADD_OVRD []) ->
  step E s1 (OpOvSet fd i 1) = Done s2 ->
  0 <= p -> 0 <= n <= MSG_DATA_SIZE -> p + n <= zlen b -> (p + n <= off \/ off + zlen d <= p) ->
  exists r, step E s2 (OpRead rfd i p n) = Done (after s2 [OResp rfd MSG_TAG_READ r]) /\ zlen r = n /\
     forall k, 0 <= k < 8 * n -> bit r k = bit b (k + 8 * p).
Proof.
  intros E s fd i off d m b s1 s2 rfd p n J R Hi S Hb Lm Ho Nt H1 A1 H2 Hp Hn Hb2 Hout.
  destruct (install_effect _ _ _ _ _ _ _ _ _ R Hi S Hb Lm Ho (fun t Q => proj1 (Nt t Q)) (fun t Q => proj2 (Nt t Q)) H1 A1)
    as (B & S1 & od & om & O1 & L1 & L2 & E1 & E2 & Z). specialize (Z J).
  assert (R1 := reachable_step _ _ _ _ R H1). assert (one : 1 <> 0) by lia.
  destruct (C13_set _ _ _ _ _ _ _ _ _ R1 Hi S1 O1 one H2) as (S2 & O2 & _).
  assert (R2 := reachable_step _ _ _ _ R1 H2). assert (Zd := zlen_nonneg d).
  assert (I2 : in_bounds p n (zlen om) = true) by (apply in_bounds_iff; lia).
  assert (Bo : bytes_ok (slice p n om)).
  { apply Forall_forall. intros x Hx. apply In_nth_error in Hx as [k Hk].
    assert (Hl : (k < length (slice p n om))%nat) by (apply nth_error_Some; congruence).
    assert (Ls := zlen_slice _ _ _ I2). assert (Hk' : znth (slice p n om) (Z.of_nat k) = Some x).
    { apply znth_iff. rewrite Nat2Z.id. split; [unfold zlen; lia | exact Hk]. }
    unfold zlen in Ls at 1. rewrite znth_slice in Hk' by lia. assert (Y := Z (p + Z.of_nat k) ltac:(lia)). assert (x = 0) by congruence. lia. }
  destruct (C13_read_mixes E s2 rfd i p n b od om R2 S2 Hb O2 Bo) as (r & P1 & P2 & P3); try lia.
  exists r. split; [exact P1|]. split; [exact P2|]. intros k Hk. rewrite (P3 k Hk).
  assert (Y := Z ((k + 8 * p) / 8) ltac:(lia)). apply nthb_znth in Y. unfold bit at 1. rewrite Y. rewrite Z.testbit_0_l by lia. reflexivity.
Qed.
(** BOOL tags: the tag size computed for the allocation is 0, any non-empty override overruns it *)
Theorem C14_bool_refuted : exists E s fd i b d m, reachable E s /\ stored s i b /\ 9 <= i /\ 0 + zlen d <= zlen b /\ zlen m = zlen d /\
  step E s (OpOvAdd fd i 0 d m) = Undef UOob.
Proof.
  exists env0, demo, 5, 14, [0; 0], [1], [1]. split; [apply demo_reachable|].
  split; [eexists; split; [vm_compute; reflexivity|]; split; vm_compute; reflexivity|].
  split; [lia|]. split; [vm_compute; discriminate|]. split; [reflexivity|]. vm_compute. reflexivity.
Qed.
Definition demoS : server := after_ops envS demo_ops.
Lemma demoS_reachable : reachable envS demoS.
Proof. apply after_reachable. vm_compute. reflexivity. Qed.
(** other tags: the mask outside the installed range is whatever malloc returned *)
Theorem C14_outside_refuted : exists E s fd i b d m s1 s2 s3 r, reachable E s /\ stored s i b /\ 9 <= i /\
  step E s (OpOvAdd fd i 0 d m) = Done s1 /\ step E s1 (OpOvSet fd i 1) = Done s2 /\
  zlen d = 1 /\ step E s2 (OpRead fd i 4 1) = Done s3 /\ answered s2 s3 (OResp fd MSG_TAG_READ r) /\ r <> slice 4 1 b.
Proof.
  eexists envS, demoS, 5, 13, _, [1], [1], _, _, _, _. split; [apply demoS_reachable|].
  split; [eexists; split; [vm_compute; reflexivity|]; split; [vm_compute; reflexivity|vm_compute; reflexivity]|].
  split; [lia|]. split; [vm_compute; reflexivity|]. split; [vm_compute; reflexivity|]. split; [reflexivity|].
  split; [vm_compute; reflexivity|]. split; [exists []; split; [vm_compute; reflexivity | constructor]|]. vm_compute. discriminate.
Qed.
Example C14_ex : exists b t7, stored demo 15 b /\ 2 + 2 <= zlen b /\ znth (s_db demo) IX_OVI = Some t7 /\
  t_attr t7 = A_READONLY /\ t_events t7 = [] /\ (forall t, znth (s_db demo) 15 = Some t -> t_type t <> T_BOOL /\ t_odata t = None) /\
  (forall a p, u8 (en_junk env0 a p) = 0).
Proof.
  eexists _, _. split; [eexists; split; [vm_compute; reflexivity|]; split; [vm_compute; reflexivity|vm_compute; reflexivity]|].
  split; [vm_compute; discriminate|]. split; [vm_compute; reflexivity|]. split; [reflexivity|]. split; [reflexivity|]. split; [|reflexivity].
  intros t; vm_compute; intros H; injection H as <-; split; [discriminate | reflexivity].
Qed.

(** ** C15 *)
Definition installed (t : tag) : bool := live t && has (t_attr t) A_OVERRIDE.
Definition active (t : tag) : bool := live t && has (t_attr t) A_OVR_SET.
(** the counters the server publishes are the numbers of live tags with an override installed / set *)
Definition truthful (s : server) : Prop :=
  s_ovi s = zlen (filter installed (s_db s)) /\ s_ovs s = zlen (filter active (s_db s)).

Definition oflag (t : tag) := (installed t, active t).
Record okeep (s s' : server) : Prop := {
  ok_i : s_ovi s' = s_ovi s; ok_s : s_ovs s' = s_ovs s; ok_len : zlen (s_db s') = zlen (s_db s);
  ok_tag : forall i t, znth (s_db s) i = Some t -> exists t', znth (s_db s') i = Some t' /\ oflag t' = oflag t }.
Lemma okeep_refl s : okeep s s.
Proof. constructor; eauto. Qed.
Lemma okeep_trans a b c : okeep a b -> okeep b c -> okeep a c.
Proof.
  intros [A1 A2 A3 A4] [B1 B2 B3 B4]. constructor; try congruence.
  intros i t H. destruct (A4 _ _ H) as (t1 & X & Y). destruct (B4 _ _ X) as (t2 & Z & W). exists t2. split; congruence.
Qed.
Lemma okeep_set_tag s i t t' : znth (s_db s) i = Some t -> oflag t' = oflag t -> okeep s (set_tag s i t').
Proof.
  intros H W. constructor; try reflexivity; [cbn; apply zset_zlen|].
  intros j u Hu. cbn. rewrite znth_zset. destruct ((i =? j) && (0 <=? i) && (i <? zlen (s_db s))) eqn:B; [|eauto].
  assert (i = j) by lia. subst j. exists t'. split; congruence.
Qed.
Lemma okeep_same s s' : s_db s' = s_db s -> s_ovi s' = s_ovi s -> s_ovs s' = s_ovs s -> okeep s s'.
Proof. intros H1 H2 H3. constructor; try congruence. intros i t H. exists t. rewrite H1. auto. Qed.
Lemma wrel_okeep s s' : wrel s s' -> okeep s s'.
Proof.
  intros [L T R]. unfold srest in R. constructor; try congruence.
  intros i t H. destruct (T _ _ H) as (t' & A & B). exists t'. split; [exact A|]. unfold oflag, installed, active, live. rewrite (wg_attr _ _ B), (wg_name _ _ B). reflexivity.
Qed.
Lemma filter_count {X} (f : X -> bool) (l l' : list X) : zlen l' = zlen l ->
  (forall i t, znth l i = Some t -> exists t', znth l' i = Some t' /\ f t' = f t) -> zlen (filter f l') = zlen (filter f l).
Proof.
  revert l'; induction l as [|x l IH]; intros l' L H.
  - destruct l'; [reflexivity|]. unfold zlen in L. cbn in L. lia.
  - destruct l' as [|y l']; [unfold zlen in L; cbn in L; lia|].
    destruct (H 0 x) as (t' & A & B); [reflexivity|]. cbn in A. injection A as <-.
    assert (Q : zlen (filter f l') = zlen (filter f l)).
    { apply IH; [unfold zlen in *; cbn in L; lia|]. intros i t Hi. assert (R := znth_range _ _ _ Hi).
      destruct (H (i + 1) t) as (t' & A & C).
      { apply znth_iff in Hi as [_ Hi]. apply znth_iff. unfold zlen in *. cbn [length]. split; [lia|]. replace (Z.to_nat (i + 1)) with (S (Z.to_nat i)) by lia. exact Hi. }
      exists t'. split; [|exact C]. apply znth_iff in A as [_ A]. apply znth_iff. unfold zlen in *. cbn [length] in *. split; [lia|].
      replace (Z.to_nat (i + 1)) with (S (Z.to_nat i)) in A by lia. exact A. }
    cbn [filter]. rewrite B. destruct (f x); unfold zlen in *; cbn [length]; lia.
Qed.
Lemma okeep_truthful s s' : okeep s s' -> truthful s -> truthful s'.
Proof.
  intros [A B C D] [T1 T2]. split; [rewrite A, T1|rewrite B, T2]; apply eq_sym, filter_count; try assumption;
  intros i t H; destruct (D _ _ H) as (t' & X & Y); exists t'; (split; [exact X|]); unfold oflag in Y; congruence.
Qed.
Lemma oflag_attr t t' : t_name t' = t_name t -> has (t_attr t') A_OVERRIDE = has (t_attr t) A_OVERRIDE ->
  has (t_attr t') A_OVR_SET = has (t_attr t) A_OVR_SET -> oflag t' = oflag t.
Proof. intros A B C. unfold oflag, installed, active, live. rewrite A, B, C. reflexivity. Qed.
Ltac oflag_solve :=
  first [reflexivity | apply oflag_attr; [reflexivity | |]; cbn;
    repeat match goal with |- context [match ?x with [] => _ | _ => _ end] => destruct x end;
    rewrite ?has_set_flag; try rewrite !has_clr_flag by reflexivity; try reflexivity; cbn; apply orb_false_r ].
Create HintDb okp.
Ltac okeep_step :=
  match goal with
  | |- okeep ?s ?s => apply okeep_refl
  | |- okeep _ (set_tag ?Y ?j ?t') => eapply (okeep_trans _ Y); [| eapply okeep_set_tag; [cbn; eassumption | oflag_solve]]
  | |- okeep _ (set_out ?Y _) => apply (okeep_trans _ Y); [| apply okeep_same; reflexivity]
  | |- okeep _ (set_mods ?Y _) => apply (okeep_trans _ Y); [| apply okeep_same; reflexivity]
  | |- okeep _ (upd_mod _ _ ?Y) => apply (okeep_trans _ Y); [| apply okeep_same; reflexivity]
  | |- okeep _ (set_now ?Y _) => apply (okeep_trans _ Y); [| apply okeep_same; reflexivity]
  | |- okeep _ (set_types ?Y _) => apply (okeep_trans _ Y); [| apply okeep_same; reflexivity]
  | |- okeep _ (set_index ?Y _) => apply (okeep_trans _ Y); [| apply okeep_same; reflexivity]
  | |- okeep _ (set_tagcount ?Y _) => apply (okeep_trans _ Y); [| apply okeep_same; reflexivity]
  | |- okeep _ (set_dbsize ?Y _) => apply (okeep_trans _ Y); [| apply okeep_same; reflexivity]
  | H : ?m ?Y = Done (?X, _) |- okeep _ ?X =>
      eapply (okeep_trans _ Y); [| first [ let P := fresh in assert (P : pres wrel m) by (auto with wrel); exact (wrel_okeep _ _ (P _ _ _ H))
                                         | let P := fresh in assert (P : pres okeep m) by (auto with okp); exact (P _ _ _ H) ]]
  end.
Ltac okeeps := repeat okeep_step.
Ltac okeep_tac := let s := fresh "s" in let s' := fresh "s'" in let a := fresh "a" in let H := fresh "H" in
  intros s s' a H; inv_all; okeeps.
Lemma event_add_okeep E h et ud m : pres okeep (event_add E h et ud m).
Proof. unfold event_add. okeep_tac. Qed.
Lemma event_del_okeep E idx id mo : pres okeep (event_del E idx id mo).
Proof. unfold event_del. okeep_tac. Qed.
Lemma event_opt_okeep idx id o mo : pres okeep (event_opt idx id o mo).
Proof. unfold event_opt. okeep_tac. Qed.
Lemma map_add_okeep a b : pres okeep (map_add a b).
Proof. unfold map_add. okeep_tac. Qed.
Lemma group_add_okeep a b c : pres okeep (group_add a b c).
Proof. unfold group_add. okeep_tac. Qed.
Lemma group_del_okeep a b c : pres okeep (group_del a b c).
Proof. unfold group_del. okeep_tac. Qed.
Lemma h_cdt_create_okeep E a b : pres okeep (h_cdt_create E a b).
Proof. unfold h_cdt_create. okeep_tac. Qed.
#[export] Hint Resolve event_add_okeep event_del_okeep event_opt_okeep map_add_okeep group_add_okeep group_del_okeep h_cdt_create_okeep : okp.
Lemma cleanup_tag_okeep E n uid l : pres okeep (cleanup_tag E n uid l).
Proof. induction l; cbn [cleanup_tag]; okeep_tac. Qed.
#[export] Hint Resolve cleanup_tag_okeep : okp.
Lemma cleanup_loop_okeep E k uid : pres okeep (cleanup_loop E k uid).
Proof. induction k; cbn [cleanup_loop]; okeep_tac. Qed.
Lemma set_attribute_okeep E j a : pres okeep (set_attribute E j a).
Proof.
  intros s s' u H. destruct (set_attribute_spec _ _ _ _ _ _ H) as (t & r & f & x & Ht & Hf & ->).
  eapply okeep_trans with (b := set_tag s j (set_attr (set_retid t r) (Z.lor (t_attr t) f))); [|apply okeep_same; reflexivity].
  eapply okeep_set_tag; [exact Ht|].
  apply oflag_attr; [reflexivity | |]; cbn; fold (set_flag (t_attr t) f); rewrite has_set_flag;
    (destruct Hf as [-> | [-> | [-> | -> ]]]; apply orb_false_r).
Qed.
#[export] Hint Resolve cleanup_loop_okeep set_attribute_okeep : okp.
Lemma okeep_set_dbsize s0 s : (s0 = s \/ exists z, s0 = set_dbsize s z) -> okeep s s0.
Proof. intros [->|[z ->]]; [apply okeep_refl | apply okeep_same; reflexivity]. Qed.
(** memory that the tag table was grown into carries no override flags *)
Definition clean_attr (E : env) : Prop := forall i, has (fresh_attr E i) A_OVERRIDE = false /\ has (fresh_attr E i) A_OVR_SET = false.
Lemma truthful_app s t x : truthful s -> oflag t = (false, false) ->
  s_db x = s_db s ++ [t] -> s_ovi x = s_ovi s -> s_ovs x = s_ovs s -> truthful x.
Proof.
  intros [A B] F D P Q. unfold oflag in F. injection F as F1 F2.
  split; [rewrite P, A, D|rewrite Q, B, D]; rewrite filter_app, zlen_app; cbn [filter]; [rewrite F1|rewrite F2]; cbn; lia.
Qed.
(** flags other than those of tag [i] stay put *)
Lemma tag_add_truthful E fd nm type count attr s s' r : clean_attr E -> Inv s -> 0 <= count ->
  tag_add E fd nm type count attr s = Done (s', r) -> truthful s -> truthful s'.
Proof.
  intros CE I Hc H. apply tag_add_cases in H; [|exact I | lia].
  destruct H as [s' r Hr S1 | n t s0 s' u S1 Ht Hnm Hty Hct How Hsa
    | n t s0 d size s1 s' u v S1 Ht Hnm Hty Hct How Hns Hrg Hsa Htw
    | n t s0 d S1 Ht Hnm Hty Hct Hrg Hns
    | s0 s1 s3 s4 s' ix size u v w x S1 Hno Hck Hvn Hcp Hns Hix Hw1 Hw2 Hsa Hw3];
  destruct (set_dbsize_db _ _ S1) as (Edb & _); apply okeep_set_dbsize in S1.
  - apply okeep_truthful; exact S1.
  - apply okeep_truthful. eapply okeep_trans; [exact S1|]. clear S1. okeeps.
  - apply okeep_truthful. eapply okeep_trans; [exact S1|]. rewrite <- Edb in Ht. clear S1. okeeps.
  - apply okeep_truthful. eapply okeep_trans; [exact S1|]. rewrite <- Edb in Ht. clear S1. okeeps.
  - intros T. assert (T1 : truthful s1). { eapply okeep_truthful; [|exact T]. eapply okeep_trans; [exact S1|]. clear S1. okeeps. }
    set (x1 := set_tagcount _ _) in Hw2. assert (T2 : truthful x1).
    { eapply (truthful_app s1 (new_tag E fd (zlen (s_db s)) nm type count size)); try reflexivity; [exact T1|].
      destruct (CE (zlen (s_db s))) as [C1 C2]. unfold oflag, installed, active, new_tag. cbn [t_attr].
      destruct (is_queue type); rewrite ?has_set_flag, C1, C2; reflexivity. }
    eapply okeep_truthful; [|exact T2]. clear S1. okeeps.
Qed.
Lemma tag_del_okeep E i s s' r : (forall t, znth (s_db s) i = Some t -> oflag t = (false, false)) ->
  tag_del E i s = Done (s', r) -> okeep s s'.
Proof.
  intros F H. apply tag_del_cases in H.
  destruct H as [r Hr | t nm o ix s1 s3 s' t1 v u Ht Hn Hd Ho Hix Hs1 Hw Ht1 Hw2]; [apply okeep_refl|].
  assert (K1 : okeep s s3) by (subst s1; clear Hw2; okeeps).
  eapply okeep_trans; [exact K1|].
  assert (F1 : oflag t1 = (false, false)). { destruct (ok_tag _ _ K1 _ _ Ht) as (t' & A & B). rewrite (F _ Ht) in B. congruence. }
  clear Hw. okeep_step. okeep_step. eapply okeep_set_tag; [exact Ht1|]. rewrite F1. reflexivity.
Qed.
(** no tag owned by connection [fd], nor tag [k], has an override *)
Definition nf (fd k : Z) (s : server) : Prop := forall i t, znth (s_db s) i = Some t ->
  (has (t_attr t) A_OWNED && (t_fd t =? fd) = true \/ i = k) -> oflag t = (false, false).
Lemma nf_keep fd k s s' : okeep s s' -> (forall j, core_at s' j = core_at s j \/ name_at s' j = None) -> nf fd k s -> nf fd k s'.
Proof.
  intros O C N i t' Ht' Ho. destruct (znth_some (s_db s) i) as [t Ht]; [apply znth_range in Ht'; rewrite <- (ok_len _ _ O); exact Ht'|].
  destruct (C i) as [Q|Q].
  - unfold core_at in Q. rewrite Ht, Ht' in Q. cbn in Q. unfold tcore in Q. injection Q as _ _ _ Q1 _ _ _ _ Q2.
    destruct (ok_tag _ _ O _ _ Ht) as (t1 & A & B). assert (t1 = t') by congruence. subst t1. rewrite B. apply (N _ _ Ht).
    rewrite <- Q1, <- Q2. exact Ho.
  - unfold name_at in Q. rewrite Ht' in Q. unfold oflag, installed, active, live. rewrite Q. reflexivity.
Qed.
Lemma tag_del_core E i s s' r : tag_del E i s = Done (s', r) -> forall j, core_at s' j = core_at s j \/ name_at s' j = None.
Proof.
  intros H. apply tag_del_effect in H as [[_ ->]|(_ & _ & (t' & A & B & _) & C & _)]; [auto|].
  intros j. destruct (Z.eq_dec j i) as [->|N]; [right; unfold name_at; rewrite A; exact B | left; apply C; exact N].
Qed.
Lemma del_owned_loop_okeep E fd k : forall c n s s' u, nf fd k s -> del_owned_loop E fd c n s = Done (s', u) -> okeep s s' /\ nf fd k s'.
Proof.
  induction c as [|c IH]; intros n s s' u N H; cbn [del_owned_loop] in H; [inv1 H; split; [apply okeep_refl | exact N]|].
  inv1 H. assert (G : okeep s s0 /\ nf fd k s0).
  { clear H. unfold del_owned in Hm. inv1 Hm. destruct (tag_owned s fd n) eqn:O; [|inv1 Hm; split; [apply okeep_refl | exact N]].
    apply bind_done in Hm as (s2 & v2 & Hm0 & Hm). apply ret_done in Hm as [-> _]. unfold tag_owned in O. assert (K : okeep s s2).
    { eapply tag_del_okeep; [|exact Hm0]. intros t Ht. rewrite Ht in O. apply (N _ _ Ht). auto. }
    split; [exact K|]. eapply nf_keep; [exact K | eapply tag_del_core; exact Hm0 | exact N]. }
  destruct G as [G1 G2]. destruct (IH _ _ _ _ G2 H) as [G3 G4]. split; [eapply okeep_trans; eassumption | exact G4].
Qed.
Lemma module_unregister_okeep E fd s s' u : (forall m, find_mod s fd = Some m -> nf fd (m_tagidx m) s) ->
  module_unregister E fd s = Done (s', u) -> okeep s s'.
Proof.
  intros N H. unfold module_unregister in H. inv1 H. destruct (find_mod s fd) as [m|]; [|inv1 H; apply okeep_refl].
  specialize (N _ eq_refl). inv1 H. inv1 H. inv1 H. inv1 H. unfold modify in H. injection H as <- _.
  assert (K0 : okeep s s0) by (clear Hm0 Hm1; okeeps).
  assert (N0 : nf fd (m_tagidx m) s0).
  { eapply nf_keep; [exact K0 | intros j; left; apply shape_core; eapply cleanup_loop_shape; exact Hm | exact N]. }
  destruct (del_owned_loop_okeep _ _ _ _ _ _ _ _ N0 Hm0) as [K1 N1].
  eapply okeep_trans; [exact K0|]. eapply okeep_trans; [exact K1|].
  match goal with |- okeep _ (set_mods ?Y _) => apply okeep_trans with (b := Y); [|apply okeep_same; reflexivity] end.
  eapply tag_del_okeep; [|exact Hm1]. intros t Ht. apply (N1 _ _ Ht). auto.
Qed.
Lemma Inv_same s s' : s_db s' = s_db s -> s_index s' = s_index s -> s_tagcount s' = s_tagcount s -> s_types s' = s_types s -> Inv s -> Inv s'.
Proof. intros A B C D [P Q R S]. constructor; rewrite ?A, ?B, ?C, ?D; assumption. Qed.
Lemma module_register_truthful E nm fd s s' u : clean_attr E -> Inv s -> (forall m, find_mod s fd = Some m -> nf fd (m_tagidx m) s) ->
  module_register E nm fd s = Done (s', u) -> truthful s -> truthful s'.
Proof.
  intros CE I N H T. unfold module_register in H. inv1 H. inv1 H. inv1 H. inv1 H.
  assert (G : Inv s0 /\ truthful s0).
  { clear H. destruct (find_mod s fd) as [m|] eqn:F; [|inv1 Hm; auto].
    assert (Fd : m_fd m = fd) by (apply find_some in F; destruct F; lia). rewrite Fd in Hm.
    split; [eapply module_unregister_good; eassumption|]. eapply okeep_truthful; [|exact T]. eapply module_unregister_okeep; [|exact Hm]. rewrite F. exact N. }
  destruct G as [I0 T0]. clear Hm I T N.
  match type of H with (if _ then _ else _) ?z = _ => set (s1 := z) in * end.
  assert (T1 : truthful s1) by exact T0.
  assert (I1 : Inv s1) by (eapply Inv_same; [..|exact I0]; reflexivity).
  clearbody s1. destruct (existsb (fun x => name_eqb x nm) (en_excl E)); [inv1 H; exact T1|].
  inv1 H. inv1 H. destruct v0 as [tn uuid]. inv1 H. inv1 H. inv1 H.
  destruct (v0 <? 0); [discriminate|]. 
  assert (T2 : truthful s2).
  { eapply tag_add_truthful; [exact CE | | | exact Hm |exact T1]; [eapply Inv_same; [..|exact I1]; reflexivity | lia]. }
  eapply okeep_truthful; [|exact T2]. clear Hm. inv_all. okeeps.
Qed.
Lemma count_zset {X} (f : X -> bool) (l : list X) i t t' : znth l i = Some t ->
  zlen (filter f (zset l i t')) = zlen (filter f l) - Z.b2z (f t) + Z.b2z (f t').
Proof.
  intros H. assert (Rg := znth_range _ _ _ H). apply znth_iff in H as [R H]. unfold zset. replace ((0 <=? i) && (i <? zlen l)) with true by lia.
  destruct (nth_error_split l (Z.to_nat i) H) as (a & b & -> & L). unfold upd. rewrite <- L.
  rewrite firstn_app, firstn_all, Nat.sub_diag. cbn [firstn]. rewrite app_nil_r. rewrite skipn_app, skipn_all, Nat.sub_diag. cbn [skipn app].
  rewrite !filter_app, !zlen_app. cbn [filter]. destruct (f t), (f t'); unfold zlen; cbn [length Z.b2z]; lia.
Qed.
Lemma truthful_set s i t t' x : truthful s -> znth (s_db s) i = Some t -> s_db x = zset (s_db s) i t' ->
  s_ovi x = s_ovi s - Z.b2z (installed t) + Z.b2z (installed t') -> s_ovs x = s_ovs s - Z.b2z (active t) + Z.b2z (active t') -> truthful x.
Proof. intros [A B] Ht D P Q. split; [rewrite P, A, D | rewrite Q, B, D]; symmetry; apply count_zset; exact Ht. Qed.
Lemma live_data s i t : Inv s -> znth (s_db s) i = Some t -> t_data t <> DNull -> live t = true.
Proof.
  intros I Ht D. unfold live. destruct (t_name t) eqn:N; [reflexivity|]. exfalso. apply D. apply (it_live _ _ (iv_tags _ I _ _ Ht)). exact N.
Qed.
(** publishing a counter does not touch the flags *)
Lemma sys_write_set E j d s s' u i t : sys_write E j d s = Done (s', u) -> znth (s_db s) i = Some t ->
  exists t', znth (s_db s') i = Some t' /\ t_attr t' = t_attr t /\ t_name t' = t_name t.
Proof.
  intros H Ht. destruct (wr_tag _ _ (sys_write_wrel _ _ _ _ _ _ H) _ _ Ht) as (t' & A & B). exists t'. split; [exact A|]. destruct B. auto.
Qed.
Lemma oflag_name_attr t t' : t_attr t' = t_attr t -> t_name t' = t_name t -> oflag t' = oflag t.
Proof. intros A B. unfold oflag, installed, active, live. rewrite A, B. reflexivity. Qed.
Lemma truthful_okeep_set s i t t' x : truthful s -> znth (s_db s) i = Some t -> 
  zlen (s_db x) = zlen (s_db s) -> (forall j u, j <> i -> znth (s_db s) j = Some u -> exists u', znth (s_db x) j = Some u' /\ oflag u' = oflag u) ->
  znth (s_db x) i = Some t' ->
  s_ovi x = s_ovi s - Z.b2z (installed t) + Z.b2z (installed t') -> s_ovs x = s_ovs s - Z.b2z (active t) + Z.b2z (active t') -> truthful x.
Proof.
  intros T Ht L K Hx P Q.
  assert (T1 : truthful (set_ovs (set_ovi (set_tag s i t') (s_ovi x)) (s_ovs x))).
  { eapply truthful_set; [exact T | exact Ht | reflexivity | exact P | exact Q]. }
  eapply okeep_truthful; [|exact T1]. constructor; try reflexivity; [cbn; rewrite zset_zlen; exact L|].
  intros j u Hu. cbn in Hu. rewrite znth_zset in Hu. destruct ((i =? j) && (0 <=? i) && (i <? zlen (s_db s))) eqn:B.
  - assert (i = j) by lia. subst j. injection Hu as <-. eauto.
  - destruct (Z.eq_dec j i) as [->|N]; [|apply K; assumption]. apply znth_range in Ht. lia.
Qed.
Lemma publish_truthful s p s3 i t t5 : truthful s -> znth (s_db s) i = Some t -> s_db p = s_db s -> wrel p s3 ->
  s_ovi p = s_ovi s - Z.b2z (installed t) + Z.b2z (installed t5) -> s_ovs p = s_ovs s - Z.b2z (active t) + Z.b2z (active t5) ->
  truthful (set_tag s3 i t5).
Proof.
  intros T Ht D W P Q. assert (Rw := wr_rest _ _ W). unfold srest in Rw. assert (Lw := wr_len _ _ W). rewrite D in Lw.
  eapply (truthful_okeep_set s i t t5); [exact T | exact Ht | cbn; rewrite zset_zlen; exact Lw | | | |].
  - intros j u Hj Hu. rewrite <- D in Hu. destruct (ok_tag _ _ (wrel_okeep _ _ W) _ _ Hu) as (u' & A & B).
    exists u'. cbn. rewrite znth_zset_ne by congruence. auto.
  - cbn. apply znth_zset_eq. rewrite Lw. eapply znth_range; exact Ht.
  - cbn. rewrite <- P. congruence.
  - cbn. rewrite <- Q. congruence.
Qed.
Lemma override_add_truthful E i off d m s s' r : Inv s -> override_add E i off d m s = Done (s', r) -> truthful s -> truthful s'.
Proof.
  intros I H T. unfold override_add in H. inv1 H. destruct (znth (s_db s) i) as [t|] eqn:Ht; [|inv1 H; exact T].
  destruct (t_data t) eqn:D; [inv1 H; exact T|..];
  (assert (Lv : live t = true) by (eapply live_data; [exact I | exact Ht | congruence]); clear D;
   inv1 H; cbv zeta in H; apply bind_done in H as (s1 & v1 & H1 & H);
   assert (K1 : okeep s s1 /\ exists t1, znth (s_db s1) i = Some t1 /\ t_attr t1 = t_attr t /\ t_name t1 = t_name t) by
     (clear H; destruct (t_odata t); [inv1 H1; split; [apply okeep_refl | exists t; auto]|];
      match type of H1 with (if ?c then _ else _) _ = _ => destruct c; [discriminate|] end;
      destruct (v <? 0); [inv1 H1; split; [apply okeep_refl | exists t; auto]|];
      inv1 H1; inv1 H1; split; [eapply okeep_set_tag; [exact Ht | reflexivity]|];
      eexists; split; [cbn; apply znth_zset_eq; eapply znth_range; exact Ht|]; split; reflexivity);
   destruct K1 as (K1 & t1 & Ht1 & At1 & Nt1); assert (T1 := okeep_truthful _ _ K1 T); clear H1;
   match type of H with (if ?c then _ else _) _ = _ => destruct c; [inv1 H; exact T1|] end;
   match type of H with (if ?c then _ else _) _ = _ => destruct c; [discriminate|] end;
   match type of H with (if ?c then _ else _) _ = _ => destruct c; [inv1 H; exact T1|] end;
   inv1 H; assert (t0 = t1) by congruence; subst t0;
   destruct (t_odata t1); [|discriminate]; destruct (t_omask t1); [|discriminate];
   match type of H with (if ?c then _ else _) _ = _ => destruct c; [discriminate|] end;
   inv1 H; apply bind_done in H as (s3 & v3 & H3 & H); inv1 H; inv1 H; apply ret_done in H as [-> _];
   match type of H3 with _ (set_tag _ _ ?x) = _ => set (t2 := x) in * end;
   assert (Z2 : znth (s_db (set_tag s1 i t2)) i = Some t2) by (cbn; apply znth_zset_eq; eapply znth_range; exact Ht1);
   assert (K2 : okeep s1 (set_tag s1 i t2)) by (eapply okeep_set_tag; [exact Ht1 | reflexivity]);
   assert (T2 := okeep_truthful _ _ K2 T1);
   destruct (negb (has (t_attr t1) A_OVERRIDE)) eqn:O;
   [ inv1 H3; inv1 H3;
     assert (W := sys_write_wrel _ _ _ _ _ _ H3); destruct (sys_write_set _ _ _ _ _ _ _ _ H3 Z2) as (t4 & Z4 & A4 & N4);
     assert (t0 = t4) by congruence; subst t0;
     assert (At : t_attr t2 = t_attr t1) by reflexivity; assert (Nt : t_name t2 = t_name t1) by reflexivity;
     eapply publish_truthful with (p := set_ovi (set_tag s1 i t2) (s_ovi (set_tag s1 i t2) + 1)); [exact T2 | exact Z2 | reflexivity | exact W | |];
     unfold installed, active, live in *; cbn [t_attr t_name set_attr s_ovi s_ovs set_ovi set_tag set_db];
     rewrite A4, N4, At, Nt, Nt1, Lv; rewrite ?has_set_flag; apply negb_true_iff in O; rewrite ?O; cbn;
     rewrite ?orb_false_r; lia
   | inv1 H3; assert (t0 = t2) by congruence; subst t0;
     eapply okeep_truthful; [|exact T2]; eapply okeep_set_tag; [exact Z2|]; apply oflag_attr; [reflexivity | |]; cbn; rewrite has_set_flag; cbn;
     [ apply negb_false_iff in O; rewrite O; reflexivity | apply orb_false_r] ]).
Qed.
Lemma override_set_truthful E i flag s s' r : Inv s -> override_set E i flag s = Done (s', r) -> truthful s -> truthful s'.
Proof.
  intros I H T. unfold override_set in H. inv1 H. destruct (znth (s_db s) i) as [t|] eqn:Ht; [|inv1 H; exact T].
  destruct (t_data t) eqn:D; [inv1 H; exact T|..];
  (assert (Lv : live t = true) by (eapply live_data; [exact I | exact Ht | congruence]); clear D;
   destruct (negb (flag =? 0));
   [ destruct (t_odata t); [|inv1 H; exact T]; destruct (has (t_attr t) A_OVR_SET) eqn:O; [inv1 H; exact T|]
   | destruct (has (t_attr t) A_OVR_SET) eqn:O; [|inv1 H; exact T] ];
   inv1 H; inv1 H; apply bind_done in H as (s3 & v3 & H3 & H); inv1 H; inv1 H; apply ret_done in H as [-> _];
   assert (W := sys_write_wrel _ _ _ _ _ _ H3);
   destruct (sys_write_set _ _ _ _ _ _ i t H3 Ht) as (t4 & Z4 & A4 & N4); assert (t0 = t4) by congruence; subst t0;
   match type of W with wrel ?pp _ => eapply publish_truthful with (p := pp); [exact T | exact Ht | reflexivity | exact W | |] end;
   unfold installed, active, live in *; cbn [t_attr t_name set_attr s_ovi s_ovs set_ovs set_tag set_db];
   rewrite A4, N4, Lv; rewrite ?has_set_flag, ?has_clr_same, ?O by reflexivity; try rewrite has_clr_flag by reflexivity; cbn;
   rewrite ?orb_false_r; lia).
Qed.
Lemma override_del_truthful E i off m s s' r : Inv s ->
  (forall t, znth (s_db s) i = Some t -> t_odata t <> None -> has (t_attr t) A_OVERRIDE = true /\ has (t_attr t) A_OVR_SET = false) ->
  override_del E i off m s = Done (s', r) -> truthful s -> truthful s'.
Proof.
  intros I C H T. unfold override_del in H. inv1 H. destruct (znth (s_db s) i) as [t|] eqn:Ht; [|inv1 H; exact T]. specialize (C _ eq_refl).
  destruct (t_data t) eqn:D; [inv1 H; exact T|..];
  (assert (Lv : live t = true) by (eapply live_data; [exact I | exact Ht | congruence]); clear D;
   inv1 H; destruct (t_odata t) as [od|]; [|inv1 H; exact T]; destruct C as [C1 C2]; [discriminate|];
   destruct (t_omask t); [|discriminate]; cbv zeta in H;
   match type of H with (if ?c then _ else _) _ = _ => destruct c; [discriminate|] end;
   inv1 H;
   match type of H with _ (set_tag _ _ ?x) = _ => set (t2 := x) in * end;
   assert (Z2 : znth (s_db (set_tag s i t2)) i = Some t2) by (cbn; apply znth_zset_eq; eapply znth_range; exact Ht);
   assert (K2 : okeep s (set_tag s i t2)) by (eapply okeep_set_tag; [exact Ht | reflexivity]);
   assert (T2 := okeep_truthful _ _ K2 T);
   match type of H with (if ?c then _ else _) _ = _ => destruct c; [inv1 H; exact T2|] end;
   match type of H with (if ?c then _ else _) _ = _ => destruct c; [discriminate|] end;
   inv1 H; rewrite set_tag_set_tag in H; inv1 H; inv1 H;
   match type of H with context [set_tag _ _ ?x] => set (t3 := x) in * end;
   apply bind_done in H as (s3 & v3 & H3 & H); inv1 H; inv1 H; apply ret_done in H as [-> _];
   assert (Z3 : znth (s_db (set_tag s i t3)) i = Some t3) by (cbn; apply znth_zset_eq; eapply znth_range; exact Ht);
   destruct (sys_write_set _ _ _ _ _ _ i t3 H3 Z3) as (t4 & Z4 & A4 & N4); assert (t0 = t4) by congruence; subst t0;
   assert (W := sys_write_wrel _ _ _ _ _ _ H3);
   match type of W with wrel ?p _ =>
     assert (T3 : truthful p) by (eapply (truthful_set s i t t3); [exact T | exact Ht | reflexivity | |];
       unfold installed, active, live in *; cbn; rewrite Lv, ?C1, ?C2; unfold has, clr_flag;
       rewrite <- !Z.land_assoc; cbn; rewrite ?Z.land_0_r; cbn; lia) end;
   eapply okeep_truthful; [|exact T3]; eapply okeep_trans; [apply wrel_okeep; exact W|];
   eapply okeep_set_tag; [exact Z4 | reflexivity]).
Qed.
(** the requests that keep the counters right: everything, except deleting a tag (directly, or by the owner
    leaving) while an override is installed on it, and removing an override that is still active or was
    never completely installed *)
Definition careful (s : server) (o : op) : Prop :=
  match o with
  | OpTagDel _ i => forall t, znth (s_db s) i = Some t -> oflag t = (false, false)
  | OpOvDel _ i _ _ => forall t, znth (s_db s) i = Some t -> t_odata t <> None -> has (t_attr t) A_OVERRIDE = true /\ has (t_attr t) A_OVR_SET = false
  | OpDisconnect fd | OpRegister fd _ => forall m, find_mod s fd = Some m -> nf fd (m_tagidx m) s
  | _ => True
  end.
(** FULL STATEMENT (false, see [C15_refuted]): as below without [careful] and [clean_attr]. *)
Theorem C15_truthful_partial : forall E s o s', clean_attr E -> reachable E s -> truthful s -> careful s o ->
  step E s o = Done s' -> truthful s'.
Proof.
  intros E s o s' CE R T C H. assert (I := reachable_Inv _ _ R).
  apply step_inv in H as (s1 & u & H & ->). change (truthful s1).
  destruct (data_op o) eqn:Do; [eapply okeep_truthful; [apply wrel_okeep; eapply handle_op_wrel; eassumption | exact T]|].
  destruct o; try discriminate Do; clear Do; cbn [handle_op careful] in *.
  - inv1 H. eapply (module_register_truthful _ _ _ _ _ _ CE I C) in T; [|exact Hm]. clear Hm. eapply okeep_truthful; [|exact T]. inv_all; okeeps.
  - eapply okeep_truthful; [eapply module_unregister_okeep; eassumption | exact T].
  - inv1 H. eapply okeep_truthful with (s := s0); [clear Hm; okeeps|].
    destruct (nthb nm 0 =? 95); [inv1 Hm; exact T|]. assert (Uc := u32_range count).
    eapply tag_add_truthful; try eassumption. lia.
  - unfold h_tag_del in H. inv1 H. inv1 H. inv1 H. eapply okeep_truthful with (s := s0); [clear Hm; inv_all; okeeps|].
    clear H. eapply okeep_truthful; [|exact T]. destruct v as [[[[[a b] c] d] nm]|e]; [|inv1 Hm; apply okeep_refl].
    destruct (nthb nm 0 =? 95); [inv1 Hm; apply okeep_refl|]. eapply tag_del_okeep; eassumption.
  - eapply okeep_truthful; [|exact T]. inv_all; okeeps.
  - eapply okeep_truthful; [|exact T]. inv_all; okeeps.
  - eapply okeep_truthful; [|exact T]. inv_all; okeeps.
  - eapply okeep_truthful; [|exact T]. okeeps.
  - eapply okeep_truthful; [|exact T]. inv_all; okeeps.
  - eapply okeep_truthful; [|exact T]. unfold with_mod in H. inv_all; okeeps.
  - eapply okeep_truthful; [|exact T]. unfold with_mod in H. inv_all; okeeps.
  - inv1 H. eapply okeep_truthful with (s := s0); [clear Hm; okeeps|]. eapply override_add_truthful; eassumption.
  - inv1 H. eapply okeep_truthful with (s := s0); [clear Hm; okeeps|]. eapply override_del_truthful; eassumption.
  - inv1 H. eapply okeep_truthful with (s := s0); [clear Hm; okeeps|]. eapply override_set_truthful; eassumption.
  - unfold modify in H. injection H as <- _. exact T.
Qed.

(** *** along a whole history, from start-up *)
Definition quiet0 (s : server) : Prop := truthful s /\ s_ovi s = 0 /\ s_ovs s = 0.
Lemma quiet0_flags s i t : quiet0 s -> znth (s_db s) i = Some t -> oflag t = (false, false).
Proof.
  intros ([A B] & C & D) H. rewrite C in A. rewrite D in B.
  assert (F : forall f : tag -> bool, 0 = zlen (filter f (s_db s)) -> f t = false).
  { intros f Hf. destruct (f t) eqn:X; [|reflexivity]. exfalso.
    assert (K : In t (filter f (s_db s))) by (apply filter_In; split; [eapply znth_In; exact H | exact X]).
    destruct (filter f (s_db s)); [exact K|]. unfold zlen in Hf. cbn in Hf. lia. }
  unfold oflag. rewrite (F _ A), (F _ B). reflexivity.
Qed.
Lemma quiet0_okeep s s' : okeep s s' -> quiet0 s -> quiet0 s'.
Proof. intros K (A & B & C). split; [eapply okeep_truthful; eassumption|]. rewrite (ok_i _ _ K), (ok_s _ _ K). auto. Qed.
Lemma tag_add_ovc E fd nm type count attr s s' r : Inv s -> 0 <= count ->
  tag_add E fd nm type count attr s = Done (s', r) -> s_ovi s' = s_ovi s /\ s_ovs s' = s_ovs s.
Proof.
  intros I Hc H. apply tag_add_cases in H; [|exact I | lia].
  assert (P : forall a b, okeep a b -> s_ovi b = s_ovi a /\ s_ovs b = s_ovs a) by (intros a b []; auto).
  destruct H as [s' r Hr S1 | n t s0 s' u S1 Ht Hnm Hty Hct How Hsa
    | n t s0 d size s1 s' u v S1 Ht Hnm Hty Hct How Hns Hrg Hsa Htw
    | n t s0 d S1 Ht Hnm Hty Hct Hrg Hns
    | s0 s1 s3 s4 s' ix size u v w x S1 Hno Hck Hvn Hcp Hns Hix Hw1 Hw2 Hsa Hw3];
  destruct (set_dbsize_db _ _ S1) as (Edb & _); apply okeep_set_dbsize in S1.
  - apply P; exact S1.
  - apply P. eapply okeep_trans; [exact S1|]. clear S1 P. okeeps.
  - apply P. eapply okeep_trans; [exact S1|]. rewrite <- Edb in Ht. clear S1 P. okeeps.
  - apply P. eapply okeep_trans; [exact S1|]. rewrite <- Edb in Ht. clear S1 P. okeeps.
  - assert (K1 : okeep s s1) by (eapply okeep_trans; [exact S1|]; clear S1 P; okeeps).
    set (x1 := set_tagcount _ _) in Hw2. assert (K2 : okeep x1 s') by (clear S1 K1 P; okeeps).
    destruct (P _ _ K1) as [A B]. destruct (P _ _ K2) as [C D]. rewrite C, D. split; assumption.
Qed.
Lemma tag_add_quiet0 E fd nm type count attr s s' r : clean_attr E -> Inv s -> 0 <= count ->
  tag_add E fd nm type count attr s = Done (s', r) -> quiet0 s -> quiet0 s'.
Proof.
  intros CE I Hc H (A & B & C). split; [eapply tag_add_truthful; eassumption|].
  destruct (tag_add_ovc _ _ _ _ _ _ _ _ _ I Hc H) as [-> ->]. auto.
Qed.
Definition gq (s s' : server) : Prop := Inv s -> quiet0 s -> Inv s' /\ quiet0 s'.
Lemma gq_trans a b c : gq a b -> gq b c -> gq a c.
Proof. intros F G I Q. destruct (F I Q). apply G; assumption. Qed.
Lemma gq_refl s : gq s s. Proof. intros I Q; auto. Qed.
Lemma gq_okeep s s' : good s s' -> okeep s s' -> gq s s'.
Proof. intros G K I Q. split; [apply G; exact I | eapply quiet0_okeep; eassumption]. Qed.
Lemma make_type_gq def : pres gq (make_type def).
Proof.
  intros s s' a H. apply gq_okeep; [eapply make_type_good; exact H|]. unfold make_type in H. inv1 H. inv1 H.
  destruct v as [[ts ty] err]. inv_all. apply okeep_same; reflexivity.
Qed.
Lemma add_sys_gq E nm ty c : clean_attr E -> 0 < c < 4294967296 -> pres gq (add_sys E nm ty c).
Proof.
  intros CE Hc s s' a H I Q. split; [eapply (add_sys_good E nm ty c); eassumption|]. unfold add_sys in H. inv1 H. inv1 H. inv_all.
  assert (Q1 : quiet0 s0) by (eapply tag_add_quiet0; try eassumption; lia).
  eapply quiet0_okeep; [|exact Q1]. eapply okeep_set_tag; [exact Ht|]. rewrite (quiet0_flags _ _ _ Q1 Ht).
  unfold oflag, installed, active. cbn [t_attr set_attr]. rewrite !andb_false_r. reflexivity.
Qed.
Lemma add_virtual_gq E nm ty c d : clean_attr E -> 0 < c < 4294967296 -> d = DTime \/ d = DMyName -> pres gq (add_virtual E nm ty c d).
Proof.
  intros CE Hc Hd s s' a H I Q. split; [eapply (add_virtual_good E nm ty c d); eassumption|]. unfold add_virtual in H. inv1 H. inv1 H. inv_all.
  assert (Q1 : quiet0 s0) by (eapply tag_add_quiet0; try eassumption; lia).
  eapply quiet0_okeep; [|exact Q1]. eapply okeep_set_tag; [exact Ht|]. assert (F := quiet0_flags _ _ _ Q1 Ht).
  unfold oflag, installed, active, live in *. cbn [t_attr t_name set_data set_attr]. rewrite !has_set_flag.
  injection F as F1 F2. rewrite F1, F2. cbn. rewrite !orb_false_r, F1, F2. reflexivity.
Qed.
Lemma init_tagbase_gq E : clean_attr E -> pres gq (init_tagbase E).
Proof.
  intros CE s s' a H. unfold init_tagbase in H. repeat inv1 H.
  repeat match goal with
  | Hm : make_type _ ?x = Done (?y, _) |- gq ?x _ => eapply gq_trans; [eapply make_type_gq; exact Hm|]
  | Hm : add_sys _ _ _ _ ?x = Done (?y, _) |- gq ?x _ => eapply gq_trans; [eapply add_sys_gq; [exact CE | |exact Hm]; lia|]
  | Hm : add_virtual _ _ _ _ _ ?x = Done (?y, _) |- gq ?x _ => eapply gq_trans; [eapply add_virtual_gq; [exact CE | | |exact Hm]; [lia | tauto]|]
  | Hm : tag_write _ _ _ _ _ ?x = Done (?y, _) |- gq ?x _ => eapply gq_trans; [apply gq_okeep; [apply shape_good; eapply tag_write_shape; exact Hm | apply wrel_okeep; eapply tag_write_wrel; exact Hm]|]
  end. apply gq_refl.
Qed.
Lemma restore_types_gq l : pres gq (restore_types l).
Proof.
  induction l as [|d l IH]; intros s s' a H; cbn [restore_types] in H; [inv_all; apply gq_refl|].
  inv1 H. eapply gq_trans; [eapply make_type_gq; exact Hm | eapply IH; exact H].
Qed.
Lemma restore_tag_gq E row : clean_attr E -> pres gq (restore_tag E row).
Proof.
  intros CE s s' a H I Q. split; [eapply (restore_tag_good E row); eassumption|]. unfold restore_tag in H. inv1 H. inv1 H.
  assert (Hc : 0 <= u32 (rr_count row) < 4294967296) by (unfold u32; apply Z.mod_pos_bound; lia).
  assert (Q1 : quiet0 s0) by (eapply tag_add_quiet0; try eassumption; lia). clear Hm.
  eapply quiet0_okeep; [|exact Q1]. inv_all; try apply okeep_refl. eapply okeep_set_tag; [eassumption | reflexivity].
Qed.
Lemma restore_tags_gq E l : clean_attr E -> pres gq (restore_tags E l).
Proof.
  intros CE. induction l as [|d l IH]; intros s s' a H; cbn [restore_tags] in H; [inv_all; apply gq_refl|].
  inv1 H. eapply gq_trans; [eapply restore_tag_gq; eassumption | eapply IH; exact H].
Qed.
Transparent boot.
Lemma boot_quiet E now r s : clean_attr E -> boot E now r = Done s -> Inv s /\ quiet0 s.
Proof.
  intros CE. unfold boot. match goal with |- match ?m ?x with _ => _ end = _ -> _ => destruct (m x) as [[s1 u]|] eqn:H end; [|discriminate].
  intros K; injection K as <-. enough (G : gq (empty_server now (mk_rdb false [] 1 [])) s1).
  { apply G; [apply Inv_empty|]. repeat split; reflexivity. }
  inv1 H. eapply gq_trans; [eapply init_tagbase_gq; eassumption|].
  destruct (r_open r); [|inv_all; apply gq_refl].
  inv1 H. inv1 H. unfold modify in H; injection H as <-. eapply gq_trans; [eapply restore_types_gq; eassumption|].
  eapply gq_trans; [eapply restore_tags_gq; eassumption|]. apply gq_okeep; [apply good_same; reflexivity | apply okeep_same; reflexivity].
Qed.
Opaque boot.
Fixpoint careful_all (E : env) (s : server) (os : list op) : Prop :=
  match os with
  | [] => True
  | o :: r => careful s o /\ forall s', step E s o = Done s' -> careful_all E s' r
  end.
(** FULL STATEMENT: the same without [careful_all]; false by [C15_refuted] *)
Theorem C15_history_partial : forall E now r s0 os s, clean_attr E -> boot E now r = Done s0 ->
  careful_all E s0 os -> exec E s0 os = Done s -> truthful s.
Proof.
  intros E now r s0 os s CE B C H. assert (T : truthful s0) by (apply (boot_quiet _ _ _ _ CE B)).
  assert (R : reachable E s0) by (exists now, r, s0, []; split; [exact B | reflexivity]).
  clear B. revert s0 T R C H. induction os as [|o os IH]; intros s0 T R C H; cbn in H; [injection H as <-; exact T|].
  apply rbind_done in H as [s1 [H1 H2]]. destruct C as [C1 C2].
  apply (IH s1); [eapply C15_truthful_partial; eassumption | eapply reachable_step; eassumption | apply C2; exact H1 | exact H2].
Qed.
(** deleting an overridden tag leaves the published number of overrides at one although no tag has any;
    removing an active override leaves the number of active ones at one *)
Theorem C15_refuted :
  (exists s, exec env0 demo [OpOvAdd 6 13 0 [1] [1]; OpTagDel 5 13] = Done s /\ reachable env0 s /\
     s_ovi s = 1 /\ (forall i t, znth (s_db s) i = Some t -> installed t = false) /\ stored s IX_OVI [1; 0; 0; 0]) /\
  (exists s, exec env0 demo [OpOvAdd 6 13 0 [1] [1]; OpOvSet 6 13 1; OpOvDel 6 13 0 [1]] = Done s /\ reachable env0 s /\
     s_ovs s = 1 /\ (forall i t, znth (s_db s) i = Some t -> active t = false) /\ stored s IX_OVS [1; 0; 0; 0]).
Proof.
  assert (F : forall (f : tag -> bool) s, forallb (fun t => negb (f t)) (s_db s) = true -> forall i t, znth (s_db s) i = Some t -> f t = false).
  { intros f s H i t Ht. rewrite forallb_forall in H. apply negb_true_iff, H. eapply znth_In; exact Ht. }
  split.
  - exists (after_ops env0 (demo_ops ++ [OpOvAdd 6 13 0 [1] [1]; OpTagDel 5 13])).
    split; [vm_compute; reflexivity|]. split; [apply after_reachable; vm_compute; reflexivity|].
    split; [vm_compute; reflexivity|]. split; [apply F; vm_compute; reflexivity|].
    eexists. split; [vm_compute; reflexivity|]. split; vm_compute; reflexivity.
  - exists (after_ops env0 (demo_ops ++ [OpOvAdd 6 13 0 [1] [1]; OpOvSet 6 13 1; OpOvDel 6 13 0 [1]])).
    split; [vm_compute; reflexivity|]. split; [apply after_reachable; vm_compute; reflexivity|].
    split; [vm_compute; reflexivity|]. split; [apply F; vm_compute; reflexivity|].
    eexists. split; [vm_compute; reflexivity|]. split; vm_compute; reflexivity.
Qed.
Lemma clean_env0 : clean_attr env0.
Proof. intros i. unfold fresh_attr. destruct (_ <? _); split; reflexivity. Qed.
(** a careful history in which both counters move *)
Definition c15_ops : list op := demo_ops ++ [OpOvAdd 6 13 0 [1] [1]; OpOvSet 6 13 1; OpOvAdd 5 15 0 [1] [1]; OpTagDel 6 14].
Example C15_ex : exists s0, boot env0 1000 empty_ret = Done s0 /\ careful_all env0 s0 c15_ops /\
  s_ovi (after_ops env0 c15_ops) = 2 /\ s_ovs (after_ops env0 c15_ops) = 1.
Proof.
  eexists. split; [vm_compute; reflexivity|]. split; [|split; vm_compute; reflexivity].
  unfold c15_ops, demo_ops. cbn [app].
  repeat (split; [vm_compute; first [exact Logic.I | intros ? X; discriminate X | intros ? X; injection X as <-; reflexivity] |
    let X := fresh in let y := fresh in intros y X; vm_compute in X; injection X as <-]). exact Logic.I.
Qed.
