(** * Prop_Queue: queue tags (C29, C30) *)
From Verif Require Import Base Const Types State Events Atomic Server Lib SearchProofs Shape Inv Reach Spec Frame Effects Out DataFrame WRel ModInv IdInv Demo Prop_Tags Prop_Data QueueFrame.

(** ** one queue *)
(** [q] holds the items [l], oldest first.  The slots form a ring; the blocks of different slots are different. *)
Record rep (q : queue) (l : list (list Z)) : Prop := {
  rp_read : 0 <= q_read q < zlen (q_slots q);
  rp_count : q_count q = zlen l;
  rp_room : zlen l <= zlen (q_slots q);
  rp_tame : forall j, znth (q_slots q) j <> Some SWild;
  rp_blk : forall j k, znth (q_slots q) j = Some (SBlk k) -> 0 <= k < zlen (q_blocks q);
  rp_inj : forall j j' k, znth (q_slots q) j = Some (SBlk k) -> znth (q_slots q) j' = Some (SBlk k) -> j = j';
  rp_item : forall p x, znth l p = Some x -> exists k, znth (q_slots q) ((q_read q + p) mod zlen (q_slots q)) = Some (SBlk k) /\ znth (q_blocks q) k = Some x }.

Lemma znth_repeat {A} (x : A) n j y : znth (repeat x n) j = Some y -> y = x.
Proof. intros H. apply znth_In in H. apply repeat_spec in H. exact H. Qed.
Lemma zlen_zseq a n : zlen (zseq a n) = Z.max 0 n.
Proof. unfold zseq. rewrite zlen_map. unfold zlen. rewrite seq_length. lia. Qed.
Lemma zlen_one {A} (x : A) : zlen [x] = 1.
Proof. reflexivity. Qed.
Lemma rep_new size : rep (new_queue size) [].
Proof.
  constructor; cbn; try (unfold zlen; cbn; lia).
  - intros j H. apply (znth_repeat SNull 16) in H. discriminate.
  - intros j k H. apply (znth_repeat SNull 16) in H. discriminate.
  - intros j j' k H. apply (znth_repeat SNull 16) in H. discriminate.
  - intros p x H. apply znth_range in H. unfold zlen in H. cbn in H. lia.
Qed.
Lemma rep_get q x l : rep q (x :: l) -> exists q', queue_read q = Done (Some (q', x)) /\ rep q' l /\ q_size q' = q_size q /\ q_slots q' = q_slots q.
Proof.
  intros [A B C D F G H]. rewrite zlen_cons in *. assert (Zl := zlen_nonneg l). unfold queue_read.
  replace (q_count q =? 0) with false by lia. destruct (H 0 x) as (k & K1 & K2); [reflexivity|].
  rewrite Z.add_0_r, Z.mod_small in K1 by lia. rewrite K1, K2. eexists. split; [reflexivity|]. split; [|split; reflexivity].
  assert (M : forall p, ((if q_read q + 1 =? zlen (q_slots q) then 0 else q_read q + 1) + p) mod zlen (q_slots q) = (q_read q + (p + 1)) mod zlen (q_slots q)).
  { intros p. destruct (Z.eqb_spec (q_read q + 1) (zlen (q_slots q))) as [Q|Q]; [|f_equal; lia].
    replace (q_read q + (p + 1)) with (p + 1 * zlen (q_slots q)) by lia. rewrite Z_mod_plus_full. f_equal. }
  constructor; cbn [q_read q_slots q_blocks q_count]; try assumption; try lia.
  - destruct (_ =? _) eqn:Q; lia.
  - intros p y P. rewrite M. apply H. assert (R := znth_range _ _ _ P). rewrite znth_S by lia. exact P.
Qed.
Lemma rep_empty q : rep q [] -> queue_read q = Done None.
Proof. intros R. unfold queue_read. rewrite (rp_count _ _ R). reflexivity. Qed.
Lemma rep_fields q q' l : q_slots q' = q_slots q -> q_blocks q' = q_blocks q -> q_count q' = q_count q -> q_read q' = q_read q -> rep q l -> rep q' l.
Proof. intros A B C D [E F G H I J K]. constructor; rewrite ?A, ?B, ?C, ?D; assumption. Qed.
(** growing a queue nothing was read from, into zeroed memory *)
Lemma rep_grow E step q l : rep q l -> q_read q = 0 -> (forall a p, en_qnull E a p = true) -> rep (mk_q (q_size q) (grow_slots E step q) (q_blocks q) (q_count q) (q_read q)) l /\ zlen (grow_slots E step q) = 2 * zlen (q_slots q).
Proof.
  intros [A B C D F G H] R0 Q. unfold grow_slots. rewrite R0. cbn [Z.ltb Z.compare]. set (n := zlen (q_slots q)) in *.
  set (j0 := map _ _). assert (Lj : zlen j0 = n) by (unfold j0; rewrite zlen_map, zlen_zseq; lia).
  assert (J : forall j y, znth j0 j = Some y -> y = SNull).
  { intros j y Y. apply znth_In in Y. unfold j0 in Y. apply in_map_iff in Y as (p & P & _). rewrite Q in P. congruence. }
  assert (Lt : zlen (q_slots q ++ j0) = 2 * n) by (rewrite zlen_app; lia).
  assert (Z1 : forall j y, znth (q_slots q ++ j0) j = Some y -> y = SNull \/ znth (q_slots q) j = Some y).
  { intros j y Y. destruct (Z_lt_le_dec j n); [right; rewrite <- Y; symmetry; apply znth_app1; lia|]. left. rewrite znth_app2 in Y by lia. eapply J; exact Y. }
  split; [|exact Lt]. constructor; cbn [q_read q_slots q_blocks q_count]; rewrite ?Lt; try lia.
  - intros j Y. destruct (Z1 _ _ Y) as [?|Y']; [discriminate|]. exact (D _ Y').
  - intros j k Y. destruct (Z1 _ _ Y) as [?|Y']; [discriminate|]. eauto.
  - intros j j' k Y Y'. destruct (Z1 _ _ Y) as [?|W]; [discriminate|]. destruct (Z1 _ _ Y') as [?|W']; [discriminate|]. eauto.
  - intros p x P. destruct (H _ _ P) as (k & K1 & K2). exists k. split; [|exact K2]. assert (Rp := znth_range _ _ _ P). rewrite R0 in *. cbn [Z.add] in *.
    rewrite Z.mod_small in K1 by lia. rewrite Z.mod_small by lia. rewrite znth_app1; [exact K1 | lia].
Qed.
(** storing an item when there is a free slot *)
Lemma rep_store q l d step E q' : rep q l -> zlen l < zlen (q_slots q) -> queue_write E step q d = Done q' ->
  rep q' (l ++ [d]) /\ q_size q' = q_size q /\ zlen (q_slots q') = zlen (q_slots q) /\ q_read q' = q_read q.
Proof.
  intros [A B C D F G H] L W. unfold queue_write in W. assert (Zl := zlen_nonneg l). replace (q_count q =? zlen (q_slots q)) with false in W by lia. rewrite B in W.
  set (n := zlen (q_slots q)) in *. set (nx := (q_read q + zlen l) mod n) in *. assert (Nx : 0 <= nx < n) by (apply Z.mod_pos_bound; lia).
  assert (Ne : forall p, 0 <= p < zlen l -> (q_read q + p) mod n <> nx).
  { intros p P Q. unfold nx in Q. assert (exists z, zlen l - p = n * z) as [z Hz].
    { exists ((q_read q + zlen l) / n - (q_read q + p) / n). assert (U := Z.div_mod (q_read q + zlen l) n ltac:(lia)). assert (V := Z.div_mod (q_read q + p) n ltac:(lia)). nia. }
    assert (0 < z \/ z <= 0) as [Z|Z] by lia; nia. }
  destruct (znth (q_slots q) nx) as [[|k|]|] eqn:S; try discriminate; injection W as <-; cbn [q_size q_slots q_read].
  - set (k := zlen (q_blocks q)) in *. assert (Zk := zlen_nonneg (q_blocks q)). fold k in Zk.
    assert (St : forall j y, znth (zset (q_slots q) nx (SBlk k)) j = Some y -> (j = nx /\ y = SBlk k) \/ (j <> nx /\ znth (q_slots q) j = Some y)).
    { intros j y Y. destruct (Z.eq_dec j nx) as [->|N]; [left; rewrite znth_zset_eq in Y by (fold n; lia); split; congruence | right; rewrite znth_zset_ne in Y by congruence; auto]. }
    split; [|rewrite zset_zlen; auto]. constructor; cbn [q_read q_slots q_blocks q_count]; rewrite ?zset_zlen, ?zlen_app; fold n; rewrite ?zlen_one; try lia.
    + intros j Y. destruct (St _ _ Y) as [[_ Q]|[_ Q]]; [discriminate | exact (D _ Q)].
    + intros j k' Y. fold k. destruct (St _ _ Y) as [[_ Q]|[_ Q]]; [injection Q as ->; lia | apply F in Q; fold k in Q; lia].
    + intros j j' k' Y Y'. destruct (St _ _ Y) as [[-> Q]|[_ Q]], (St _ _ Y') as [[-> Q']|[_ Q']]; [reflexivity | | | eauto].
      * injection Q as ->. apply F in Q'. fold k in Q'. lia.
      * injection Q' as ->. apply F in Q. fold k in Q. lia.
    + intros p x P. assert (R := znth_range _ _ _ P). rewrite zlen_app, zlen_one in R. destruct (Z_lt_le_dec p (zlen l)) as [Lp|Lp].
      * rewrite znth_app1 in P by lia. destruct (H _ _ P) as (k' & K1 & K2). exists k'. split.
        -- rewrite znth_zset_ne by (apply not_eq_sym, Ne; lia). exact K1.
        -- rewrite znth_app1; [exact K2|]. apply znth_range in K2. lia.
      * assert (p = zlen l) by lia. subst p. rewrite znth_app2 in P by lia. rewrite Z.sub_diag in P. injection P as <-.
        exists k. split; [apply znth_zset_eq; fold n; lia|]. rewrite znth_app2 by lia. unfold k. rewrite Z.sub_diag. reflexivity.
  - assert (Bk := F _ _ S).
    split; [|auto]. constructor; cbn [q_read q_slots q_blocks q_count]; rewrite ?zlen_app, ?zset_zlen; fold n; rewrite ?zlen_one; try assumption; try lia.
    + intros p x P. assert (R := znth_range _ _ _ P). rewrite zlen_app, zlen_one in R. destruct (Z_lt_le_dec p (zlen l)) as [Lp|Lp].
      * rewrite znth_app1 in P by lia. destruct (H _ _ P) as (k' & K1 & K2). exists k'. split; [exact K1|].
        rewrite znth_zset_ne; [exact K2|]. intros ->. apply (Ne p); [lia|]. eapply G; eassumption.
      * assert (p = zlen l) by lia. subst p. rewrite znth_app2 in P by lia. rewrite Z.sub_diag in P. injection P as <-.
        exists k. split; [exact S|]. apply znth_zset_eq. exact Bk.
Qed.

(** ** a queue tag in the tag base *)
(** tag [i] is a queue of [n]-byte items holding [l], oldest first *)
Definition queued (s : server) (i n : Z) (l : list (list Z)) : Prop :=
  exists t q, znth (s_db s) i = Some t /\ has (t_attr t) A_VIRTUAL = true /\ t_data t = DQueue q /\ q_size q = n /\
              rep q l /\ 16 <= zlen (q_slots q) /\ Forall (fun x => zlen x = n) l.
(** nothing was read from it yet *)
Definition unread_yet (s : server) (i : Z) : Prop := forall t q, znth (s_db s) i = Some t -> t_data t = DQueue q -> q_read q = 0.

Lemma tcore_virtual t t' : tcore t' = tcore t -> has (t_attr t') A_VIRTUAL = has (t_attr t) A_VIRTUAL.
Proof. unfold tcore. congruence. Qed.
Lemma queued_keep s s' i n l : qk i s s' -> ck i s s' -> queued s i n l -> queued s' i n l.
Proof.
  intros Q C (t & q & H1 & H2 & H3 & R). destruct (Q _ H1) as (t1 & A1 & A2). destruct (C _ H1) as (t2 & B1 & B2).
  assert (t2 = t1) by congruence. subst t2. exists t1, q. split; [exact A1|]. split; [rewrite (tcore_virtual _ _ B2); exact H2|]. split; [congruence | exact R].
Qed.
Lemma unread_keep s s' i n l : qk i s s' -> queued s i n l -> unread_yet s i -> unread_yet s' i.
Proof.
  intros Q (t & q & H1 & H2 & H3 & _) U t' q' Z D. destruct (Q _ H1) as (t1 & A1 & A2). assert (t' = t1) by congruence. subst t'.
  assert (q' = q) by congruence. subst. eapply U; eassumption.
Qed.
Lemma queued_db s s' i n l : s_db s' = s_db s -> queued s i n l -> queued s' i n l.
Proof. intros H. unfold queued. rewrite H. auto. Qed.
Lemma unread_db s s' i : s_db s' = s_db s -> unread_yet s i -> unread_yet s' i.
Proof. intros H. unfold unread_yet. rewrite H. auto. Qed.

(** a mapping whose source is a queue copies nothing (or the copy is undefined behaviour) *)
Lemma map_loop_queue E s i t q off w : znth (s_db s) i = Some t -> t_data t = DQueue q ->
  forall l s' u, (forall m, In m l -> h_index (m_src m) = i) -> map_loop E l off w s = Done (s', u) -> s' = s.
Proof.
  intros Ht Hq. induction l as [|m l IH]; intros s' u M H; cbn [map_loop] in H; [unfold ret in H; congruence|].
  apply bind_done in H as (s2 & v & H1 & H). assert (s2 = s).
  { destruct (map_overlap m off w); [|unfold ret in H1; congruence]. unfold map_fire in H1. rewrite (M m) in H1 by (left; reflexivity).
    inv1 H1. assert (t0 = t) by congruence. subst t0. rewrite Hq in H1. discriminate. }
  subst s2. eapply IH; [|exact H]. intros m' Hm. apply M. right. exact Hm.
Qed.
Lemma map_check_queue E s i t q off w s' u : IdInv s -> znth (s_db s) i = Some t -> t_data t = DQueue q ->
  map_check E i off w s = Done (s', u) -> s' = s.
Proof.
  intros W Ht Hq H. unfold map_check in H. inv1 H. assert (t0 = t) by congruence. subst t0. destruct (t_maps t) as [l|] eqn:M; [|discriminate].
  eapply map_loop_queue; [exact Ht | exact Hq | | exact H]. intros m Hm. apply (wf_maps _ _ _ (W _ _ Ht) _ M). exact Hm.
Qed.

(** ** one request on a queue tag *)
Lemma queue_write_grown E st q d l : rep q l -> zlen l = zlen (q_slots q) -> q_read q = 0 -> (forall a p, en_qnull E a p = true) ->
  queue_write E st q d = queue_write E st (mk_q (q_size q) (grow_slots E st q) (q_blocks q) (q_count q) (q_read q)) d.
Proof.
  intros R L R0 Q. destruct (rep_grow E st q l R R0 Q) as [_ G]. assert (A := rp_read _ _ R). assert (B := rp_count _ _ R).
  unfold queue_write at 2. cbn [q_count q_slots q_read q_blocks q_size]. rewrite G. replace (q_count q =? 2 * zlen (q_slots q)) with false by lia.
  unfold queue_write. replace (q_count q =? zlen (q_slots q)) with true by lia. rewrite G. reflexivity.
Qed.
Definition room (E : env) (s : server) (i : Z) (l : list (list Z)) : Prop :=
  zlen l < 16 \/ (unread_yet s i /\ forall a p, en_qnull E a p = true).
Lemma put_queued E s i n l fd off d s' : reachable E s -> queued s i n l -> room E s i l ->
  step E s (OpWrite fd i off d) = Done s' -> answered s s' (OResp fd MSG_TAG_WRITE []) ->
  queued s' i n (l ++ [d]) /\ (unread_yet s i -> unread_yet s' i).
Proof.
  intros Re (t & q & H1 & H2 & H3 & H4 & H5 & H6 & H7) Ro St A. destruct (write_ok _ _ _ _ _ _ _ St A) as (s1 & s2 & W & M & ->).
  assert (I1 : IdInv s1) by (eapply (IdInv_er (fun _ _ => True)); [apply er_wrel; eapply tag_write_wrel; exact W | apply (reachable_ids _ _ Re)]).
  unfold tag_write in W. rewrite H1, H2, H3 in W. destruct (negb (off =? 0) || negb (zlen d =? q_size q)) eqn:Ck; [discriminate|].
  destruct (queue_write E (s_step s) q d) as [q'|] eqn:Qw; [|discriminate]. cbn [rbind] in W.
  destruct (check_events E (s_mods s) i [] off (zlen d) (t_events t)) as [r|] eqn:Ce; [|discriminate]. cbn [rbind] in W. injection W as W. subst s1.
  set (t1 := set_events (set_data t (DQueue q')) (fst r)) in *.
  assert (Z1 : znth (s_db (set_out (set_tag s i t1) (s_out s ++ snd r))) i = Some t1) by (cbn; apply znth_zset_eq; apply znth_range in H1; lia).
  assert (s2 = set_out (set_tag s i t1) (s_out s ++ snd r)) by (eapply (map_check_queue E _ i t1 q'); [exact I1 | exact Z1 | reflexivity | exact M]). subst s2.
  assert (P : rep q' (l ++ [d]) /\ q_size q' = q_size q /\ zlen (q_slots q) <= zlen (q_slots q') /\ q_read q' = q_read q).
  { destruct (Z_lt_le_dec (zlen l) (zlen (q_slots q))) as [Lt|Ge].
    - destruct (rep_store _ _ _ _ _ _ H5 Lt Qw) as (P1 & P2 & P3 & P4). split; [exact P1|]. split; [lia|]. split; [lia|]. lia.
    - assert (Rm := rp_room _ _ H5). destruct Ro as [Ro|[U N]]; [lia|]. assert (R0 := U _ _ H1 H3).
      rewrite (queue_write_grown E (s_step s) q d l H5) in Qw by (assumption || lia). destruct (rep_grow E (s_step s) q l H5 R0 N) as [G1 G2].
      assert (X := rp_read _ _ H5). assert (Lt : zlen l < zlen (grow_slots E (s_step s) q)) by lia. destruct (rep_store _ _ _ _ _ _ G1 Lt Qw) as (P1 & P2 & P3 & P4). cbn [q_slots q_size q_read] in *.
      split; [exact P1|]. split; [lia|]. split; [lia|]. lia. }
  destruct P as (P1 & P2 & P3 & P4). split.
  - exists t1, q'. split; [exact Z1|]. split; [exact H2|]. split; [reflexivity|]. split; [lia|]. split; [exact P1|]. split; [lia|].
    apply Forall_app. split; [exact H7|]. constructor; [lia | constructor].
  - intros U t' q0 Zt D. change (znth (s_db (set_out (set_tag s i t1) (s_out s ++ snd r))) i = Some t') in Zt. assert (t' = t1) by congruence. subst t'.
    injection D as <-. rewrite P4. exact (U _ _ H1 H3).
Qed.
Lemma write_refused E s fd i off d s' e : step E s (OpWrite fd i off d) = Done s' -> answered s s' (OErr fd MSG_TAG_WRITE e) -> s_db s' = s_db s.
Proof.
  intros H A. apply write_outcome in H as [(c & _ & ->)|(s1 & s2 & W & M & ->)]; [reflexivity|].
  exfalso. assert (EO : evout s s2) by (eapply evout_trans; [eapply tag_write_evout; exact W | eapply map_check_evout; exact M]).
  assert (Q := answered_fun _ _ _ _ A (answered_step _ _ _ _ (answered_resp _ _ fd MSG_TAG_WRITE [] EO))). discriminate.
Qed.
(** reading answers with the oldest item and removes it *)
Lemma get_queued E s i n l fd off s' : queued s i n l -> step E s (OpRead fd i off n) = Done s' ->
  match l with
  | [] => s' = after s [OErr fd MSG_TAG_READ E_EMPTY]
  | x :: r => queued s' i n r /\ answered s s' (OResp fd MSG_TAG_READ x)
  end.
Proof.
  intros (t & q & H1 & H2 & H3 & H4 & H5 & H6 & H7) H. apply step_inv in H as (s1 & u & H & ->). cbn [handle_op] in H. unfold h_read in H. inv1 H. 
  apply bind_done in H as (s2 & v & Hr & H). unfold tag_read in Hr. rewrite H1, H2, H3 in Hr. destruct l as [|x r].
  - rewrite (rep_empty _ H5) in Hr. cbn [rbind] in Hr. injection Hr as <- <-. unfold reply_err, emit, modify in H. injection H as <- _. reflexivity.
  - destruct (rep_get _ _ _ H5) as (q' & G1 & G2 & G3 & G4). rewrite G1 in Hr. cbn [rbind] in Hr. destruct (MSG_DATA_SIZE <? zlen x) eqn:Big; [discriminate|].
    assert (Lx := Forall_inv H7). cbn in Lx. assert (Zx := zlen_nonneg x).
    injection Hr as <- <-. replace ((n <? 0) || (MSG_DATA_SIZE <? n)) with false in H by lia.
    rewrite <- Lx in H at 1. rewrite firstn_app in H. replace (Z.to_nat (zlen x) - length x)%nat with 0%nat in H by (unfold zlen; lia).
    rewrite firstn_O, app_nil_r, firstn_all2 in H by (unfold zlen; lia). unfold respond, emit, modify in H. rewrite Big in H. injection H as <- _.
    split; [|exists []; split; [reflexivity | constructor]].
    exists (set_data t (DQueue q')), q'. split; [cbn; apply znth_zset_eq; apply znth_range in H1; lia|]. split; [exact H2|]. split; [reflexivity|].
    split; [lia|]. split; [exact G2|]. split; [rewrite G4; exact H6 | exact (Forall_inv_tail H7)].
Qed.
Lemma read_refused E s fd i off n l s' e : queued s i n l -> step E s (OpRead fd i off n) = Done s' -> answered s s' (OErr fd MSG_TAG_READ e) -> l = [] /\ s_db s' = s_db s.
Proof.
  intros Q H A. assert (G := get_queued _ _ _ _ _ _ _ _ Q H). destruct l; [subst; auto|]. destruct G as [_ G].
  assert (Z := answered_fun _ _ _ _ A G). discriminate.
Qed.

(** ** creating a queue tag *)
Lemma queue_type ts t : In t base_types -> type_size ts (t + T_QUEUE) = Done (typesize_bits t / 8) /\ is_queue (t + T_QUEUE) = true /\ u32 (t + T_QUEUE) = t + T_QUEUE /\ (t + T_QUEUE =? T_BOOL) = false.
Proof. intros H. cbn in H. repeat (destruct H as [<-|H]; [repeat split; reflexivity|]). contradiction. Qed.
Lemma new_queue_tag E s fd nm t c a s' i tg : reachable E s -> In t base_types -> 0 < c < 4294967296 -> c * (typesize_bits t / 8) < 2147483648 -> ~ exists_tag s nm ->
  step E s (OpTagAdd fd nm (t + T_QUEUE) c a) = Done s' -> named s' i nm tg ->
  queued s' i (c * (typesize_bits t / 8)) [] /\ unread_yet s' i /\ 9 <= i.
Proof.
  intros R Bt Hc Hs Nx H Nm. assert (R' := reachable_step _ _ _ _ R H). assert (I := reachable_Inv _ _ R). assert (L := SysInv_len _ _ (reachable_sys _ _ R)).
  destruct (queue_type (s_types s) t Bt) as (T1 & T2 & T3 & T4).
  assert (Tb : 0 <= typesize_bits t / 8) by (apply Z.div_pos; [unfold typesize_bits; apply Z.pow_nonneg; lia | lia]).
  apply step_inv in H as (s1 & u & H & ->). apply h_tag_add_effect in H as [[_ ->]|(U & s2 & r & Ha & ->)].
  { exfalso. apply Nx. exists i, tg. exact Nm. }
  assert (Nm2 : named s2 i nm tg) by exact Nm.
  rewrite T3 in Ha. replace (u32 c) with c in Ha by (unfold u32; rewrite Z.mod_small; lia).
  apply tag_add_cases in Ha; [|exact I | lia].
  destruct Ha as [s' r Hr X1 | n0 t1 s0 s' u0 X1 Ht Hnm Hty' Hct How Hsa
    | n0 t1 s0 d size0 s1 s' u0 v X1 Ht Hnm Hty' Hct How Hns Hrg Hsa Htw
    | n0 t1 s0 d X1 Ht Hnm Hty' Hct Hrg Hns
    | s0 s1 s3 s4 s' ix size0 u0 v w x X1 Hno Hck Hvn Hcp Hns Hix Hw1 Hw2 Hsa Hw3].
  - exfalso. apply Nx. exists i, tg. destruct X1 as [->|[z ->]]; exact Nm2.
  - exfalso. apply Nx. exists n0, t1. split; assumption.
  - exfalso. apply Nx. exists n0, t1. split; assumption.
  - exfalso. apply Nx. exists n0, t1. split; assumption.
  - unfold new_size in Hns. rewrite T4, T1 in Hns. cbn [rbind] in Hns. assert (Hz : size0 = c * (typesize_bits t / 8)).
    { injection Hns as <-. rewrite Z.mul_comm. unfold u32. apply Z.mod_small. nia. }
    set (k := zlen (s_db s)) in *. set (nt := new_tag E fd k nm (t + T_QUEUE) c size0) in *.
    destruct (set_dbsize_db _ _ X1) as (Edb & _).
    assert (L1 : zlen (s_db s1) = k) by (rewrite (sh_len _ _ (sys_write_shape _ _ _ _ _ _ Hw1)), Edb; reflexivity).
    assert (Z3 : znth (s_db s3) k = Some nt).
    { rewrite (sys_write_others _ _ _ _ _ _ Hw2) by (unfold IX_TAGCOUNT; lia). cbn. rewrite znth_app2 by lia. rewrite L1, Z.sub_diag. reflexivity. }
    destruct (set_attribute_spec _ _ _ _ _ _ Hsa) as (t2 & r2 & f2 & x2 & Q1 & Q2 & ->). assert (t2 = nt) by congruence. subst t2.
    set (nt' := set_attr (set_retid nt r2) (Z.lor (t_attr nt) f2)) in *.
    assert (Z4 : znth (s_db s') k = Some nt').
    { rewrite (tag_write_others _ _ _ _ _ _ _ _ Hw3) by (unfold IX_ADDED; lia). cbn. apply znth_zset_eq. eapply znth_range; exact Q1. }
    assert (i = k) by (eapply (C01_unique_names E _ i k nm tg nt' R' Nm); split; [exact Z4 | reflexivity]). subst i.
    assert (Dq : t_data nt' = DQueue (new_queue (s32 size0))) by (unfold nt', nt, new_tag; cbn [t_data set_attr set_retid]; rewrite T2; reflexivity).
    split; [|split].
    + exists nt', (new_queue (s32 size0)). split; [exact Z4|]. split.
      { unfold nt', nt, new_tag; cbn [t_attr set_attr set_retid]. rewrite T2. fold (set_flag (set_flag (fresh_attr E k) A_VIRTUAL) f2). rewrite !has_set_flag. cbn. rewrite orb_true_r. reflexivity. }
      split; [exact Dq|]. split; [cbn [q_size new_queue]; rewrite Hz; unfold s32; destruct (c * (typesize_bits t / 8) <? 2147483648) eqn:Q; rewrite ?Z.mod_small by nia; rewrite ?Q; lia|].
      split; [apply rep_new|]. split; [cbn; unfold zlen; cbn; lia | constructor].
    + intros t' q' A B. cbn in A. assert (t' = nt') by congruence. subst t'. assert (q' = new_queue (s32 size0)) by congruence. subst q'. reflexivity.
    + lia.
Qed.

(** ** the history of a queue tag *)
(** Tag [i] was created as a queue of [n]-byte items and since then the items [w] were written to it, in this
    order, and the answers [r] were received from reading it.  Between the writes and reads every other
    request may happen that does not write to, read, delete or re-create tag [i] ([spares], DataFrame.v;
    [unread], QueueFrame.v).  [ok w r] is required whenever a write is accepted. *)
Inductive qrun (E : env) (i n : Z) (ok : list (list Z) -> list (list Z) -> Prop) : server -> list (list Z) -> list (list Z) -> Prop :=
| qr_new s0 s fd nm t c a tg : reachable E s0 -> In t base_types -> 0 < c < 4294967296 -> n = c * (typesize_bits t / 8) -> n < 2147483648 ->
    ~ exists_tag s0 nm -> step E s0 (OpTagAdd fd nm (t + T_QUEUE) c a) = Done s -> named s i nm tg -> qrun E i n ok s [] []
| qr_put s w r fd off d s' : qrun E i n ok s w r -> ok w r -> step E s (OpWrite fd i off d) = Done s' ->
    answered s s' (OResp fd MSG_TAG_WRITE []) -> qrun E i n ok s' (w ++ [d]) r
| qr_put_refused s w r fd off d s' e : qrun E i n ok s w r -> step E s (OpWrite fd i off d) = Done s' ->
    answered s s' (OErr fd MSG_TAG_WRITE e) -> qrun E i n ok s' w r
| qr_get s w r fd off x s' : qrun E i n ok s w r -> step E s (OpRead fd i off n) = Done s' ->
    answered s s' (OResp fd MSG_TAG_READ x) -> qrun E i n ok s' w (r ++ [x])
| qr_get_refused s w r fd off s' e : qrun E i n ok s w r -> step E s (OpRead fd i off n) = Done s' ->
    answered s s' (OErr fd MSG_TAG_READ e) -> qrun E i n ok s' w r
| qr_other s w r o s' : qrun E i n ok s w r -> spares s o i -> unread s o i -> step E s o = Done s' -> qrun E i n ok s' w r.

Lemma qrun_inv E i n (ok : list (list Z) -> list (list Z) -> Prop) s w r :
  (forall w r pend, ok w r -> w = r ++ pend -> zlen pend < 16 \/ (r = [] /\ forall a p, en_qnull E a p = true)) ->
  qrun E i n ok s w r ->
  reachable E s /\ 9 <= i /\ exists pend, w = r ++ pend /\ queued s i n pend /\ (r = [] -> unread_yet s i).
Proof.
  intros Ok Q. induction Q.
  - destruct (new_queue_tag E s0 fd nm t c a s i tg) as (A & B & C); try assumption; [lia|]. split; [eapply reachable_step; eassumption|]. split; [exact C|].
    exists []. subst n. auto.
  - destruct IHQ as (R & Hi & pend & -> & Qd & U). split; [eapply reachable_step; eassumption|]. split; [exact Hi|]. exists (pend ++ [d]). split; [rewrite app_assoc; reflexivity|].
    assert (Ro : room E s i pend). { destruct (Ok _ _ _ H eq_refl) as [?|[-> N]]; [left; assumption | right; auto]. }
    destruct (put_queued _ _ _ _ _ _ _ _ _ R Qd Ro H0 H1) as [A B]. auto.
  - destruct IHQ as (R & Hi & pend & -> & Qd & U). split; [eapply reachable_step; eassumption|]. split; [exact Hi|]. exists pend. split; [reflexivity|].
    assert (D := write_refused _ _ _ _ _ _ _ _ H H0). split; [eapply queued_db; eassumption|]. intros Z. eapply unread_db; [exact D | auto].
  - destruct IHQ as (R & Hi & pend & -> & Qd & U). split; [eapply reachable_step; eassumption|]. split; [exact Hi|].
    assert (G := get_queued _ _ _ _ _ _ _ _ Qd H). destruct pend as [|y pend].
    { subst s'. exfalso. assert (Z := answered_fun _ _ _ _ H0 (answered_after _ _)). discriminate. }
    destruct G as [G1 G2]. assert (Z := answered_fun _ _ _ _ H0 G2). injection Z as ->. exists pend. split; [rewrite <- app_assoc; reflexivity|]. split; [exact G1|].
    intros Z. destruct r; discriminate.
  - destruct IHQ as (R & Hi & pend & -> & Qd & U). split; [eapply reachable_step; eassumption|]. split; [exact Hi|]. exists pend. split; [reflexivity|].
    destruct (read_refused _ _ _ _ _ _ _ _ _ Qd H H0) as [_ D]. split; [eapply queued_db; eassumption|]. intros Z. eapply unread_db; [exact D | auto].
  - destruct IHQ as (R & Hi & pend & -> & Qd & U). split; [eapply reachable_step; eassumption|]. split; [exact Hi|]. exists pend. split; [reflexivity|].
    assert (I := reachable_Inv _ _ R). assert (F := queue_frame _ _ _ _ _ I Hi H H0 H1). split; [eapply queued_keep; [exact F | eapply core_frame; eassumption | exact Qd]|].
    intros Z. eapply unread_keep; [exact F | exact Qd | auto].
Qed.
Lemma qrun_answers E i n (ok : list (list Z) -> list (list Z) -> Prop) s w r :
  (forall w r pend, ok w r -> w = r ++ pend -> zlen pend < 16 \/ (r = [] /\ forall a p, en_qnull E a p = true)) ->
  qrun E i n ok s w r ->
  (exists pending, w = r ++ pending) /\
  forall fd off s', step E s (OpRead fd i off n) = Done s' ->
    (forall x rest, w = r ++ x :: rest -> answered s s' (OResp fd MSG_TAG_READ x)) /\
    (w = r -> answered s s' (OErr fd MSG_TAG_READ E_EMPTY)).
Proof.
  intros Ok Q. destruct (qrun_inv _ _ _ _ _ _ _ Ok Q) as (_ & _ & pend & -> & Qd & _). split; [eauto|].
  intros fd off s' H. assert (G := get_queued _ _ _ _ _ _ _ _ Qd H). split.
  - intros x rest W. apply app_inv_head in W. subst pend. apply G.
  - intros W. rewrite <- (app_nil_r r) in W at 2. apply app_inv_head in W. subst pend s'. apply answered_after.
Qed.

(** C29: as long as no item is written while sixteen are outstanding, the answers so far are the first items
    written, in the order written; the next read answers the oldest outstanding item, and
    "empty" exactly when everything written has been read. *)
Definition backlog16 (w r : list (list Z)) : Prop := zlen w - zlen r < 16.
Theorem C29_fifo : forall E i n s w r,
  qrun E i n backlog16 s w r ->
  (exists pending, w = r ++ pending) /\
  forall fd off s', step E s (OpRead fd i off n) = Done s' ->
    (forall x rest, w = r ++ x :: rest -> answered s s' (OResp fd MSG_TAG_READ x)) /\
    (w = r -> answered s s' (OErr fd MSG_TAG_READ E_EMPTY)).
Proof.
  intros E i n s w r Q. eapply qrun_answers; [|exact Q]. intros w0 r0 pend B ->. left. unfold backlog16 in B. rewrite zlen_app in B. lia.
Qed.
(** reads of items that fit into a message always work *)
Theorem C29_read_works : forall E i n s w r fd off,
  qrun E i n backlog16 s w r -> n <= MSG_DATA_SIZE -> exists s', step E s (OpRead fd i off n) = Done s'.
Proof.
  intros E i n s w r fd off Q Hn. assert (Ok : forall w r pend, backlog16 w r -> w = r ++ pend -> zlen pend < 16 \/ (r = [] /\ forall a p, en_qnull E a p = true)).
  { intros w0 r0 pend B ->. left. unfold backlog16 in B. rewrite zlen_app in B. lia. }
  destruct (qrun_inv _ _ _ _ _ _ _ Ok Q) as (_ & _ & pend & -> & (t & q & H1 & H2 & H3 & H4 & H5 & H6 & H7) & _).
  unfold step. cbn [handle_op]. unfold h_read, bind, get, tag_read. rewrite H1, H2, H3. destruct pend as [|x pend].
  - rewrite (rep_empty _ H5). cbn. eexists; reflexivity.
  - destruct (rep_get _ _ _ H5) as (q' & G1 & _). rewrite G1. cbn [rbind]. assert (Lx := Forall_inv H7). cbn in Lx.
    replace (MSG_DATA_SIZE <? zlen x) with false by lia. cbv beta iota zeta. unfold ret, respond, emit, modify.
    destruct ((n <? 0) || (MSG_DATA_SIZE <? n)); [eexists; reflexivity|].
    match goal with |- context [if MSG_DATA_SIZE <? ?z then _ else _] => destruct (MSG_DATA_SIZE <? z) end; eexists; reflexivity.
Qed.
(** a write of the item size is accepted while fewer than sixteen items are outstanding: on a tag that is not
    write protected and carries no event or mapping *)
Theorem C29_write_works : forall E i n s w r fd d t,
  qrun E i n backlog16 s w r -> zlen w - zlen r < 16 -> zlen d = n ->
  znth (s_db s) i = Some t -> has (t_attr t) A_READONLY = false -> t_events t = [] -> t_maps t = Some [] ->
  exists s', step E s (OpWrite fd i 0 d) = Done s' /\ answered s s' (OResp fd MSG_TAG_WRITE []).
Proof.
  intros E i n s w r fd d t0 Q Hb Hd Ht0 Hro Hev Hmp. assert (Ok : forall w r pend, backlog16 w r -> w = r ++ pend -> zlen pend < 16 \/ (r = [] /\ forall a p, en_qnull E a p = true)).
  { intros w0 r0 pend B ->. left. unfold backlog16 in B. rewrite zlen_app in B. lia. }
  destruct (qrun_inv _ _ _ _ _ _ _ Ok Q) as (_ & _ & pend & -> & (t & q & H1 & H2 & H3 & H4 & H5 & H6 & H7) & _). rewrite zlen_app in Hb.
  assert (t0 = t) by congruence. subst t0. assert (Bd := znth_range _ _ _ H1).
  assert (Qw : exists q', queue_write E (s_step s) q d = Done q').
  { unfold queue_write. assert (C := rp_count _ _ H5). assert (Rr := rp_read _ _ H5). replace (q_count q =? zlen (q_slots q)) with false by lia.
    destruct (znth_some (q_slots q) ((q_read q + q_count q) mod zlen (q_slots q))) as [y Hy]; [apply Z.mod_pos_bound; lia|]. rewrite Hy.
    destruct y; [eauto | eauto | exfalso; exact (rp_tame _ _ H5 _ Hy)]. }
  destruct Qw as [q' Qw].
  set (t1 := set_events (set_data t (DQueue q')) []).
  exists (after (set_out (set_tag s i t1) (s_out s ++ [])) [OResp fd MSG_TAG_WRITE []]). split.
  - unfold step. cbn [handle_op]. unfold h_write, bind, get, lift, attr_at. rewrite H1. rewrite Hro. cbn [andb]. unfold tag_write. rewrite H1, H2, H3.
    replace (negb (0 =? 0) || negb (zlen d =? q_size q)) with false by (cbn; lia). rewrite Qw, Hev. cbn [rbind check_events fst snd]. fold t1. cbn [negb Z.eqb].
    unfold map_check, tag_at, bind, get. cbn [s_db set_out set_tag set_db]. rewrite znth_zset_eq by lia. cbn [t_maps t1 set_events set_data]. rewrite Hmp. reflexivity.
  - apply answered_step. exists []. split; [cbn; rewrite app_nil_r; reflexivity | constructor].
Qed.

(** C30 (partial): the same for any backlog, if a write with sixteen or more items outstanding only happens before the
    first read and if fresh heap memory reads as zeros.  Both conditions are necessary, see below. *)
Definition grows_first (w r : list (list Z)) : Prop := zlen w - zlen r < 16 \/ r = [].
Theorem C30_partial : forall E i n s w r,
  (forall st p, en_qnull E st p = true) ->
  qrun E i n grows_first s w r ->
  (exists pending, w = r ++ pending) /\
  forall fd off s', step E s (OpRead fd i off n) = Done s' ->
    (forall x rest, w = r ++ x :: rest -> answered s s' (OResp fd MSG_TAG_READ x)) /\
    (w = r -> answered s s' (OErr fd MSG_TAG_READ E_EMPTY)).
Proof.
  intros E i n s w r Z Q. eapply qrun_answers; [|exact Q]. intros w0 r0 pend [B|B] ->; [left; rewrite zlen_app in B; lia | right; auto].
Qed.

(** C30 (partial): a write that doubles the ring keeps every outstanding item in its place, also after items have been
    read: whatever the phase of the ring, if only reads (and requests that leave the tag alone) follow, the answers are the
    outstanding items and then the new one.  Again fresh heap memory must read as zeros; what goes wrong is the next writes. *)
Record line (q : queue) (l : list (list Z)) : Prop := {
  ln_read : 0 <= q_read q < zlen (q_slots q);
  ln_count : q_count q = zlen l;
  ln_room : zlen l <= zlen (q_slots q);
  ln_item : forall p x, znth l p = Some x -> exists k, znth (q_slots q) ((q_read q + p) mod zlen (q_slots q)) = Some (SBlk k) /\ znth (q_blocks q) k = Some x }.
Lemma rep_line q l : rep q l -> line q l.
Proof. intros [A B C D F G H]. constructor; assumption. Qed.
Lemma line_get q x l : line q (x :: l) -> exists q', queue_read q = Done (Some (q', x)) /\ line q' l /\ q_size q' = q_size q /\ q_slots q' = q_slots q.
Proof.
  intros [A B C H]. rewrite zlen_cons in *. assert (Zl := zlen_nonneg l). unfold queue_read.
  replace (q_count q =? 0) with false by lia. destruct (H 0 x) as (k & K1 & K2); [reflexivity|].
  rewrite Z.add_0_r, Z.mod_small in K1 by lia. rewrite K1, K2. eexists. split; [reflexivity|]. split; [|split; reflexivity].
  assert (M : forall p, ((if q_read q + 1 =? zlen (q_slots q) then 0 else q_read q + 1) + p) mod zlen (q_slots q) = (q_read q + (p + 1)) mod zlen (q_slots q)).
  { intros p. destruct (Z.eqb_spec (q_read q + 1) (zlen (q_slots q))) as [Q|Q]; [|f_equal; lia].
    replace (q_read q + (p + 1)) with (p + 1 * zlen (q_slots q)) by lia. rewrite Z_mod_plus_full. f_equal. }
  constructor; cbn [q_read q_slots q_blocks q_count]; try assumption; try lia.
  - destruct (_ =? _) eqn:Q; lia.
  - intros p y P. rewrite M. apply H. assert (R := znth_range _ _ _ P). rewrite znth_S by lia. exact P.
Qed.
Lemma line_write E st q l d q' : (forall a p, en_qnull E a p = true) -> rep q l -> queue_write E st q d = Done q' ->
  line q' (l ++ [d]) /\ q_size q' = q_size q.
Proof.
  intros N R W. destruct (Z_lt_le_dec (zlen l) (zlen (q_slots q))) as [Lt|Ge].
  { destruct (rep_store _ _ _ _ _ _ R Lt W) as (P1 & P2 & _). split; [apply rep_line; exact P1 | exact P2]. }
  destruct R as [A B C D F G H]. assert (Lq : zlen l = zlen (q_slots q)) by lia. clear C Ge.
  unfold queue_write in W. replace (q_count q =? zlen (q_slots q)) with true in W by lia.
  set (n := zlen (q_slots q)) in *. set (r := q_read q) in *.
  set (sl := grow_slots E st q) in *.
  assert (Lj : forall l0 : list Z, zlen l0 = n -> zlen (map (fun p => if en_qnull E st p then SNull else SWild) l0) = n) by (intros; rewrite zlen_map; assumption).
  assert (Gz : zlen sl = 2 * n /\ (forall j, 0 <= j < n -> znth sl j = znth (q_slots q) j) /\
               (forall j, 0 <= j < r -> znth sl (n + j) = znth (q_slots q) j) /\ znth sl (n + r) = Some SNull).
  { unfold sl, grow_slots. fold n. fold r. set (j0 := map _ _). assert (L0 : zlen j0 = n) by (unfold j0; apply Lj; rewrite zlen_zseq; lia).
    assert (J : forall j, 0 <= j < n -> znth j0 j = Some SNull).
    { intros j Hj. destruct (znth_some j0 j) as [y Y]; [lia|]. rewrite Y. f_equal. apply znth_In in Y. unfold j0 in Y. apply in_map_iff in Y as (p & P & _). rewrite N in P. congruence. }
    destruct (0 <? r) eqn:Pr.
    - assert (L1 : zlen (firstn (Z.to_nat r) (q_slots q)) = r) by (unfold zlen in *; rewrite firstn_length; lia).
      assert (L2 : zlen (skipn (Z.to_nat r) j0) = n - r) by (unfold zlen in *; rewrite skipn_length; lia).
      split; [rewrite !zlen_app; fold n; lia|]. split; [intros j Hj; apply znth_app1; fold n; lia|]. split.
      + intros j Hj. rewrite znth_app2 by (fold n; lia). fold n. replace (n + j - n) with j by lia. rewrite znth_app1 by lia.
        rewrite <- (firstn_skipn (Z.to_nat r) (q_slots q)) at 2. symmetry. apply znth_app1. lia.
      + rewrite znth_app2 by (fold n; lia). fold n. replace (n + r - n) with r by lia. rewrite znth_app2 by lia. rewrite L1, Z.sub_diag.
        rewrite <- (J r) by lia. rewrite <- (firstn_skipn (Z.to_nat r) j0) at 2.
        assert (L3 : zlen (firstn (Z.to_nat r) j0) = r) by (unfold zlen in *; rewrite firstn_length; lia).
        rewrite znth_app2 by lia. rewrite L3, Z.sub_diag. reflexivity.
    - assert (r = 0) by lia. split; [rewrite zlen_app; fold n; lia|]. split; [intros j Hj; apply znth_app1; fold n; lia|]. split; [intros; lia|].
      rewrite znth_app2 by (fold n; lia). fold n. replace (n + r - n) with 0 by lia. apply J. lia. }
  destruct Gz as (L2 & G1 & G2 & G3). rewrite L2, B, Lq in W.
  replace ((r + n) mod (2 * n)) with (n + r) in W by (rewrite Z.mod_small; lia). rewrite G3 in W. injection W as <-.
  split; [|reflexivity]. constructor; cbn [q_read q_slots q_blocks q_count]; rewrite ?zset_zlen, ?zlen_app, ?zlen_one; fold r; try lia.
  intros p x P. assert (Rp := znth_range _ _ _ P). rewrite zlen_app, zlen_one in Rp. rewrite L2. rewrite Z.mod_small by lia.
  destruct (Z_lt_le_dec p (zlen l)) as [Lp|Lp].
  - rewrite znth_app1 in P by lia. destruct (H _ _ P) as (k & K1 & K2). exists k. rewrite znth_zset_ne by lia. split.
    + destruct (Z_lt_le_dec (r + p) n) as [Q|Q].
      * rewrite Z.mod_small in K1 by lia. rewrite G1 by lia. exact K1.
      * replace (r + p) with (n + (r + p - n)) by lia. rewrite G2 by lia.
        replace ((r + p) mod n) with (r + p - n) in K1; [exact K1|]. replace (r + p) with ((r + p - n) + 1 * n) at 2 by lia. rewrite Z_mod_plus_full. symmetry. apply Z.mod_small. lia.
    + rewrite znth_app1; [exact K2|]. apply znth_range in K2. lia.
  - assert (p = zlen l) by lia. subst p. rewrite znth_app2 in P by lia. rewrite Z.sub_diag in P. injection P as <-.
    exists (zlen (q_blocks q)). rewrite Lq. replace (r + n) with (n + r) by lia. split; [apply znth_zset_eq; lia|]. rewrite znth_app2 by lia. rewrite Z.sub_diag. reflexivity.
Qed.
Definition lined (s : server) (i n : Z) (l : list (list Z)) : Prop :=
  exists t q, znth (s_db s) i = Some t /\ has (t_attr t) A_VIRTUAL = true /\ t_data t = DQueue q /\ q_size q = n /\
              line q l /\ Forall (fun x => zlen x = n) l.
Lemma lined_keep s s' i n l : qk i s s' -> ck i s s' -> lined s i n l -> lined s' i n l.
Proof.
  intros Q C (t & q & H1 & H2 & H3 & R). destruct (Q _ H1) as (t1 & A1 & A2). destruct (C _ H1) as (t2 & B1 & B2).
  assert (t2 = t1) by congruence. subst t2. exists t1, q. split; [exact A1|]. split; [rewrite (tcore_virtual _ _ B2); exact H2|]. split; [congruence | exact R].
Qed.
Lemma put_lined E s i n l fd off d s' : (forall a p, en_qnull E a p = true) -> reachable E s -> queued s i n l ->
  step E s (OpWrite fd i off d) = Done s' -> answered s s' (OResp fd MSG_TAG_WRITE []) -> lined s' i n (l ++ [d]).
Proof.
  intros N Re (t & q & H1 & H2 & H3 & H4 & H5 & H6 & H7) St A. destruct (write_ok _ _ _ _ _ _ _ St A) as (s1 & s2 & W & M & ->).
  assert (I1 : IdInv s1) by (eapply (IdInv_er (fun _ _ => True)); [apply er_wrel; eapply tag_write_wrel; exact W | apply (reachable_ids _ _ Re)]).
  unfold tag_write in W. rewrite H1, H2, H3 in W. destruct (negb (off =? 0) || negb (zlen d =? q_size q)) eqn:Ck; [discriminate|].
  destruct (queue_write E (s_step s) q d) as [q'|] eqn:Qw; [|discriminate]. cbn [rbind] in W.
  destruct (check_events E (s_mods s) i [] off (zlen d) (t_events t)) as [r|] eqn:Ce; [|discriminate]. cbn [rbind] in W. injection W as W. subst s1.
  set (t1 := set_events (set_data t (DQueue q')) (fst r)) in *.
  assert (Z1 : znth (s_db (set_out (set_tag s i t1) (s_out s ++ snd r))) i = Some t1) by (cbn; apply znth_zset_eq; apply znth_range in H1; lia).
  assert (s2 = set_out (set_tag s i t1) (s_out s ++ snd r)) by (eapply (map_check_queue E _ i t1 q'); [exact I1 | exact Z1 | reflexivity | exact M]). subst s2.
  destruct (line_write _ _ _ _ _ _ N H5 Qw) as [P1 P2].
  exists t1, q'. split; [exact Z1|]. split; [exact H2|]. split; [reflexivity|]. split; [lia|]. split; [exact P1|].
  apply Forall_app. split; [exact H7|]. constructor; [lia | constructor].
Qed.
Lemma get_lined E s i n l fd off s' : lined s i n l -> step E s (OpRead fd i off n) = Done s' ->
  match l with
  | [] => s' = after s [OErr fd MSG_TAG_READ E_EMPTY]
  | x :: r => lined s' i n r /\ answered s s' (OResp fd MSG_TAG_READ x)
  end.
Proof.
  intros (t & q & H1 & H2 & H3 & H4 & H5 & H7) H. apply step_inv in H as (s1 & u & H & ->). cbn [handle_op] in H. unfold h_read in H. inv1 H. 
  apply bind_done in H as (s2 & v & Hr & H). unfold tag_read in Hr. rewrite H1, H2, H3 in Hr. destruct l as [|x r].
  - assert (Em : queue_read q = Done None) by (unfold queue_read; rewrite (ln_count _ _ H5); reflexivity).
    rewrite Em in Hr. cbn [rbind] in Hr. injection Hr as <- <-. unfold reply_err, emit, modify in H. injection H as <- _. reflexivity.
  - destruct (line_get _ _ _ H5) as (q' & G1 & G2 & G3 & G4). rewrite G1 in Hr. cbn [rbind] in Hr. destruct (MSG_DATA_SIZE <? zlen x) eqn:Big; [discriminate|].
    assert (Lx := Forall_inv H7). cbn in Lx. assert (Zx := zlen_nonneg x).
    injection Hr as <- <-. replace ((n <? 0) || (MSG_DATA_SIZE <? n)) with false in H by lia.
    rewrite <- Lx in H at 1. rewrite firstn_app in H. replace (Z.to_nat (zlen x) - length x)%nat with 0%nat in H by (unfold zlen; lia).
    rewrite firstn_O, app_nil_r, firstn_all2 in H by (unfold zlen; lia). unfold respond, emit, modify in H. rewrite Big in H. injection H as <- _.
    split; [|exists []; split; [reflexivity | constructor]].
    exists (set_data t (DQueue q')), q'. split; [cbn; apply znth_zset_eq; apply znth_range in H1; lia|]. split; [exact H2|]. split; [reflexivity|].
    split; [lia|]. split; [exact G2 | exact (Forall_inv_tail H7)].
Qed.
(** from [s] to [s'] tag [i] is only read, with the answers [r] *)
Inductive drained (E : env) (i n : Z) (s : server) : server -> list (list Z) -> Prop :=
| dr_start : drained E i n s s []
| dr_get s1 r fd off x s2 : drained E i n s s1 r -> step E s1 (OpRead fd i off n) = Done s2 ->
    answered s1 s2 (OResp fd MSG_TAG_READ x) -> drained E i n s s2 (r ++ [x])
| dr_other s1 r o s2 : drained E i n s s1 r -> spares s1 o i -> unread s1 o i -> step E s1 o = Done s2 -> drained E i n s s2 r.
Theorem C30_growth_partial : forall E i n s w r fd off d s1 s2 r',
  (forall st p, en_qnull E st p = true) ->
  qrun E i n grows_first s w r ->
  step E s (OpWrite fd i off d) = Done s1 -> answered s s1 (OResp fd MSG_TAG_WRITE []) ->
  drained E i n s1 s2 r' ->
  exists pending, w ++ [d] = r ++ r' ++ pending /\
  forall fd' off' s3, step E s2 (OpRead fd' i off' n) = Done s3 ->
    match pending with
    | x :: _ => answered s2 s3 (OResp fd' MSG_TAG_READ x)
    | [] => answered s2 s3 (OErr fd' MSG_TAG_READ E_EMPTY)
    end.
Proof.
  intros E i n s w r fd off d s1 s2 r' N Q H A Dr.
  assert (Ok : forall w r pend, grows_first w r -> w = r ++ pend -> zlen pend < 16 \/ (r = [] /\ forall a p, en_qnull E a p = true)).
  { intros w0 r0 pend [B|B] ->; [left; rewrite zlen_app in B; lia | right; auto]. }
  destruct (qrun_inv _ _ _ _ _ _ _ Ok Q) as (R & Hi & pend & -> & Qd & _).
  assert (L1 := put_lined _ _ _ _ _ _ _ _ _ N R Qd H A). assert (R1 := reachable_step _ _ _ _ R H).
  assert (K : reachable E s2 /\ exists p, pend ++ [d] = r' ++ p /\ lined s2 i n p).
  { clear H A Q Qd R. induction Dr as [|s2 r' fd' off' x s3 Dr IH G An|s2 r' o s3 Dr IH S1 S2 H].
    - split; [exact R1|]. exists (pend ++ [d]). auto.
    - destruct IH as (R2 & p & P1 & P2). split; [eapply reachable_step; eassumption|]. assert (G' := get_lined _ _ _ _ _ _ _ _ P2 G). destruct p as [|y p].
      { subst s3. exfalso. assert (Z := answered_fun _ _ _ _ An (answered_after _ _)). discriminate. }
      destruct G' as [G1 G2]. assert (Z := answered_fun _ _ _ _ An G2). injection Z as ->. exists p. rewrite <- app_assoc. auto.
    - destruct IH as (R2 & p & P1 & P2). split; [eapply reachable_step; eassumption|]. exists p. split; [exact P1|].
      assert (I := reachable_Inv _ _ R2). eapply lined_keep; [eapply queue_frame; eassumption | eapply core_frame; eassumption | exact P2]. }
  destruct K as (R2 & p & P1 & P2). exists p. split; [rewrite <- app_assoc; f_equal; exact P1|].
  intros fd' off' s3 H3. assert (G := get_lined _ _ _ _ _ _ _ _ P2 H3). destruct p; [subst s3; apply answered_after | apply G].
Qed.
(** C30 fails in general.  1. When the ring is doubled after items have been read, the old slot and its copy
    share one block: thirty-three writes with one read in between, and the reads that follow return item 33 in place of
    item 17 (heap memory all zeros). *)
Definition q_ops : list op := [OpTagAdd 5 (str "q") (T_BYTE + T_QUEUE) 1 0].
Definition puts (i from n : Z) : list op := map (fun k => OpWrite 5 i 0 [k]) (zseq from n).
Definition gets (i n : Z) : list op := repeat (OpRead 5 i 0 1) (Z.to_nat n).
Definition answers (l : list out) : list (list Z) :=
  flat_map (fun o => match o with OResp _ c x => if c =? MSG_TAG_READ then [x] else [] | _ => [] end) l.
Definition qdemo : server := after_ops env0 q_ops.
Lemma qdemo_reachable : reachable env0 qdemo.
Proof. apply after_reachable. vm_compute. reflexivity. Qed.
Lemma qdemo_queue : queued qdemo 11 1 [].
Proof.
  eexists. exists (new_queue 1). split; [vm_compute; reflexivity|]. split; [vm_compute; reflexivity|]. split; [reflexivity|].
  split; [reflexivity|]. split; [apply rep_new|]. split; [vm_compute; discriminate | constructor].
Qed.
Theorem C30_refuted : exists E s i s', reachable E s /\ queued s i 1 [] /\ (forall st p, en_qnull E st p = true) /\
  exec E s (puts i 1 16 ++ gets i 1 ++ puts i 17 17 ++ gets i 16) = Done s' /\
  answers (skipn (length (s_out s)) (s_out s')) = map (fun k => [k]) (zseq 1 16 ++ [33]).
Proof.
  exists env0, qdemo, 11, (match exec env0 qdemo (puts 11 1 16 ++ gets 11 1 ++ puts 11 17 17 ++ gets 11 16) with Done x => x | Undef _ => qdemo end).
  split; [exact qdemo_reachable|]. split; [exact qdemo_queue|]. split; [reflexivity|]. split; vm_compute; reflexivity.
Qed.
(** the ring doubles with the read position in the middle: sixteen items, three read, four more written *)
Example C30_growth_ex : match exec env0 qdemo (puts 11 1 16 ++ gets 11 3 ++ puts 11 17 4 ++ gets 11 17) with
  | Done s => answers (skipn (length (s_out qdemo)) (s_out s)) = map (fun k => [k]) (zseq 1 20) | Undef _ => False end.
Proof. vm_compute. reflexivity. Qed.
(** 2. The new half of the ring is not initialised: with other heap contents the write that doubles it follows a
    wild pointer. *)
Definition envQ : env :=
  mk_env false (fun _ => 0) (fun _ => true) (fun _ => 0) (fun _ _ => 165) (fun _ _ => false) (fun _ => 0)
         (fun _ _ _ => 0) (fun _ _ _ => 0) [].
Definition qdemoQ : server := after_ops envQ q_ops.
Theorem C30_heap_refuted : exists E s i, reachable E s /\ queued s i 1 [] /\ exec E s (puts i 1 17) = Undef UUninit.
Proof.
  exists envQ, qdemoQ, 11. split; [apply after_reachable; vm_compute; reflexivity|]. split.
  - eexists. exists (new_queue 1). split; [vm_compute; reflexivity|]. split; [vm_compute; reflexivity|]. split; [reflexivity|].
    split; [reflexivity|]. split; [apply rep_new|]. split; [vm_compute; discriminate | constructor].
  - vm_compute. reflexivity.
Qed.
(** a history as in C29 and C30: two items written, one read *)
Definition qstate (os : list op) : server := match exec env0 qdemo os with Done s => s | Undef _ => qdemo end.
Lemma answered_ok s s' a : s_out s' = s_out s ++ [a] -> answered s s' a.
Proof. intros H. exists []. split; [exact H | constructor]. Qed.
Lemma qrun_ex (ok : list (list Z) -> list (list Z) -> Prop) : ok [] [] -> ok [[7]] [] ->
  qrun env0 11 1 ok (qstate [OpWrite 5 11 0 [7]; OpWrite 6 11 0 [8]; OpRead 5 11 0 1]) [[7]; [8]] [[7]].
Proof.
  intros O1 O2.
  apply (qr_get env0 11 1 ok (qstate [OpWrite 5 11 0 [7]; OpWrite 6 11 0 [8]]) _ [] 5 0 [7]); [| vm_compute; reflexivity | apply answered_ok; vm_compute; reflexivity].
  apply (qr_put env0 11 1 ok (qstate [OpWrite 5 11 0 [7]]) [[7]] [] 6 0 [8]); [| exact O2 | vm_compute; reflexivity | apply answered_ok; vm_compute; reflexivity].
  apply (qr_put env0 11 1 ok qdemo [] [] 5 0 [7]); [| exact O1 | vm_compute; reflexivity | apply answered_ok; vm_compute; reflexivity].
  apply (qr_new env0 11 1 ok (after_ops env0 []) _ 5 (str "q") T_BYTE 1 0 (nth 11 (s_db qdemo) (mk_tag 0 0 0 None 0 0 0 [] None DNull None None 0))).
  - apply after_reachable. vm_compute. reflexivity.
  - right. left. reflexivity.
  - lia.
  - reflexivity.
  - lia.
  - apply (absent_check env0); [apply after_reachable; vm_compute; reflexivity | vm_compute; reflexivity].
  - vm_compute. reflexivity.
  - split; vm_compute; reflexivity.
Qed.
Example C29_ex : qrun env0 11 1 backlog16 (qstate [OpWrite 5 11 0 [7]; OpWrite 6 11 0 [8]; OpRead 5 11 0 1]) [[7]; [8]] [[7]].
Proof. apply qrun_ex; unfold backlog16, zlen; cbn; lia. Qed.
Example C30_ex : qrun env0 11 1 grows_first (qstate [OpWrite 5 11 0 [7]; OpWrite 6 11 0 [8]; OpRead 5 11 0 1]) [[7]; [8]] [[7]].
Proof. apply qrun_ex; unfold grows_first; right; reflexivity. Qed.
