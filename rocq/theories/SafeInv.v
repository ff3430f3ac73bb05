(** * SafeInv: the invariant behind the safety theorem of Prop_Safe *)
From Verif Require Import Base Const Types State Events Atomic Server Lib SearchProofs Shape Inv Reach Spec Frame Effects Out DataFrame WRel ModInv IdInv
  EvLoops TypeFrame TypesProofs Safe SafeLoops.

(** ** Queues *)
Record queue_ok (q : queue) : Prop := {
  qo_len : 0 < zlen (q_slots q);
  qo_read : 0 <= q_read q < zlen (q_slots q);
  qo_count : 0 <= q_count q <= zlen (q_slots q);
  qo_wild : forall i, znth (q_slots q) i <> Some SWild;
  qo_blk : forall i k, znth (q_slots q) i = Some (SBlk k) -> 0 <= k < zlen (q_blocks q);
  qo_full : forall j, 0 <= j < q_count q -> exists k, znth (q_slots q) ((q_read q + j) mod zlen (q_slots q)) = Some (SBlk k);
  qo_size : forall d, In d (q_blocks q) -> zlen d <= 4080 }.
Lemma In_zset {A} (l : list A) i x y : In y (zset l i x) -> y = x \/ In y l.
Proof. intros H. apply In_znth in H as [j H]. rewrite znth_zset in H. destruct (_ && _); [injection H as <-; auto | right; eapply znth_In; exact H]. Qed.
Lemma queue_write_ok E st q d : queue_ok q -> q_count q < zlen (q_slots q) -> zlen d <= 4080 -> exists q', queue_write E st q d = Done q' /\ queue_ok q'.
Proof.
  intros [L R C W B F S] H1 H2. unfold queue_write. replace (q_count q =? zlen (q_slots q)) with false by lia. cbv zeta.
  set (n := zlen (q_slots q)) in *. set (nx := (q_read q + q_count q) mod n). assert (Nx : 0 <= nx < n) by (apply Z.mod_pos_bound; lia).
  destruct (znth_some (q_slots q) nx Nx) as [sl Hs]. rewrite Hs. destruct sl as [|k|]; [| |exfalso; exact (W _ Hs)].
  - eexists. split; [reflexivity|]. constructor; cbn [q_slots q_blocks q_count q_read]; rewrite ?zset_zlen; fold n; try lia.
    + intros i K. rewrite znth_zset in K. destruct (_ && _); [discriminate | exact (W _ K)].
    + intros i k K. rewrite zlen_app. change (zlen [d]) with 1. rewrite znth_zset in K. destruct (_ && _); [injection K as <-; assert (Z0 := zlen_nonneg (q_blocks q)); lia | apply B in K; lia].
    + intros j Hj. rewrite znth_zset. destruct (_ && _) eqn:Q; [eexists; reflexivity|]. destruct (Z.eq_dec j (q_count q)) as [->|Nj]; [|apply F; lia].
      exfalso. fold nx in Q. fold n in Q. lia.
    + intros x I. apply in_app_or in I as [I|[<-|[]]]; [apply S; exact I | exact H2].
  - eexists. split; [reflexivity|]. constructor; cbn [q_slots q_blocks q_count q_read]; fold n; try lia; auto.
    + intros i k' K. rewrite zset_zlen. exact (B _ _ K).
    + intros j Hj. destruct (Z.eq_dec j (q_count q)) as [->|Nj]; [exists k; exact Hs | apply F; lia].
    + intros x I. apply In_zset in I as [->|I]; [exact H2 | apply S; exact I].
Qed.
Lemma queue_read_ok q : queue_ok q -> exists r, queue_read q = Done r /\ forall q' d, r = Some (q', d) -> queue_ok q' /\ zlen d <= 4080.
Proof.
  intros [L R C W B F S]. unfold queue_read. destruct (q_count q =? 0) eqn:Q; [eexists; split; [reflexivity | discriminate]|].
  set (n := zlen (q_slots q)) in *. destruct (F 0 ltac:(lia)) as [k Hk]. rewrite Z.add_0_r, Z.mod_small in Hk by lia. rewrite Hk.
  destruct (znth_some (q_blocks q) k (B _ _ Hk)) as [d Hd]. rewrite Hd. eexists. split; [reflexivity|]. intros q' d' K. injection K as <- <-. split; [|apply S; eapply znth_In; exact Hd].
  cbv zeta. constructor; cbn [q_slots q_blocks q_count q_read]; fold n; try lia; auto.
  - destruct (q_read q + 1 =? n) eqn:Q2; lia.
  - intros j Hj. destruct (F (j + 1) ltac:(lia)) as [k' Hk']. exists k'. rewrite <- Hk'. f_equal. destruct (q_read q + 1 =? n) eqn:Q2.
    + replace (q_read q + (j + 1)) with (j + 1 * n) by lia. rewrite Z_mod_plus by lia. reflexivity.
    + f_equal. lia.
Qed.

(** ** The invariant *)
Definition nonvirt (s : server) (i : Z) : Prop := exists t, znth (s_db s) i = Some t /\ has (t_attr t) A_VIRTUAL = false.
Record map_ok (s : server) (i len : Z) (m : dmap) : Prop := {
  mk_src : h_index (m_src m) = i;
  mk_area : 0 <= h_byte (m_src m) /\ 0 <= h_size (m_src m) /\ h_byte (m_src m) + h_size (m_src m) <= len;
  mk_dst : nonvirt s (h_index (m_dst m));
  mk_darea : 0 <= h_byte (m_dst m) /\ h_byte (m_dst m) + h_size (m_src m) < 2147483648;
  mk_mask : match m_mask m with
            | Some x => zlen x = h_size (m_src m) /\ 0 <= h_bit (m_src m) < 8 /\ 0 <= h_bit (m_dst m) < 8 /\
                        h_bit (m_src m) + h_count (m_src m) <= 8 * h_size (m_src m) /\ h_bit (m_dst m) + h_count (m_src m) <= 8 * h_size (m_src m)
            | None => h_index (m_src m) = h_index (m_dst m) -> areas_overlap (h_byte (m_src m)) (h_size (m_src m)) (h_byte (m_dst m)) (h_size (m_src m)) = false
            end }.
Definition ovr_ok (t : tag) (len : Z) : Prop :=
  match t_odata t, t_omask t with
  | None, None => has (t_attr t) A_OVR_SET = false
  | Some od, Some om => zlen od = len /\ zlen om = len /\ t_type t <> T_BOOL
  | _, _ => False
  end.
Definition virt_ok (t : tag) : Prop := has (t_attr t) A_VIRTUAL = true /\ t_events t = [] /\ t_maps t = Some [] /\ t_odata t = None /\ t_omask t = None.
Definition tag_ok (s : server) (i : Z) (t : tag) : Prop :=
  match t_data t with
  | DNull => has (t_attr t) A_VIRTUAL = false /\ t_events t = [] /\ exists l, t_maps t = Some l
  | DBytes b => has (t_attr t) A_VIRTUAL = false /\ zlen b < 2147483648 /\ Forall (ev_ok (zlen b)) (t_events t) /\
                (exists l, t_maps t = Some l /\ forall m, In m l -> map_ok s i (zlen b) m) /\ ovr_ok t (zlen b) /\ is_queue (t_type t) = false
  | DQueue q => queue_ok q /\ virt_ok t
  | DTime | DMyName => virt_ok t
  | DBad => False
  end.
Definition owned_in (uid : Z) (t : tag) : Z := zlen (filter (fun e => e_mod e =? uid) (t_events t)).
Definition osum (uid : Z) (db : list tag) : Z := fold_right Z.add 0 (map (owned_in uid) db).
Record LI (s : server) : Prop := {
  li_inv : forall i t, znth (s_db s) i = Some t -> inv_tag (s_types s) t;
  li_size : forall i t n, znth (s_db s) i = Some t -> new_size (s_types s) (t_type t) (t_count t) = Done n -> n < 2147483648;
  li_tag : forall i t, znth (s_db s) i = Some t -> tag_ok s i t;
  li_own : forall i t, znth (s_db s) i = Some t -> owned_live (s_mods s) (t_events t);
  li_cnt : forall m, In m (s_mods s) -> osum (m_uid m) (s_db s) <= m_evcount m;
  li_fd : forall m, In m (s_mods s) -> 0 <= m_fd m;
  li_grp : forall m g, In m (s_mods s) -> In g (m_groups m) -> g_live g = true -> group_fits (g_members g) 0 = true;
  li_sys : forall i, 0 <= i < 9 -> nonvirt s i;
  li_uuid : 0 <= s_moduuid s }.

(** what writes do *)
Definition data_q (d d' : tdata) : Prop :=
  match d, d' with DBytes b, DBytes b' => zlen b' = zlen b | DQueue q, DQueue q' => queue_ok q -> queue_ok q' | _, _ => d' = d end.
Lemma data_q_refl d : data_q d d.
Proof. destruct d; cbn; auto. Qed.
Lemma data_q_trans a b c : data_q a b -> data_q b c -> data_q a c.
Proof. destruct a, b, c; cbn; try congruence; auto. Qed.
Record lq (s s' : server) : Prop := {
  lq_w : wrel s s';
  lq_t : forall i t t', znth (s_db s) i = Some t -> znth (s_db s') i = Some t' -> map ekey (t_events t') = map ekey (t_events t) /\ data_q (t_data t) (t_data t') }.
Lemma lq_refl s : lq s s.
Proof. constructor; [apply wrel_refl|]. intros i t t' H1 H2. assert (t' = t) by congruence. subst. split; [reflexivity | apply data_q_refl]. Qed.
Lemma lq_trans a b c : lq a b -> lq b c -> lq a c.
Proof.
  intros [W1 T1] [W2 T2]. constructor; [eapply wrel_trans; eassumption|]. intros i t t' H1 H2. destruct (wr_tag _ _ W1 _ _ H1) as (x & H3 & _).
  destruct (T1 _ _ _ H1 H3) as [A B]. destruct (T2 _ _ _ H3 H2) as [C D]. split; [congruence | eapply data_q_trans; eassumption].
Qed.
Lemma lq_same s s' : s_db s' = s_db s -> srest s' = srest s -> lq s s'.
Proof. intros H1 H2. constructor; [apply wrel_same; assumption|]. intros i t t' A B. rewrite H1 in B. assert (t' = t) by congruence. subst. split; [reflexivity | apply data_q_refl]. Qed.
Lemma lq_tag s s' i t : lq s s' -> znth (s_db s) i = Some t -> exists t', znth (s_db s') i = Some t' /\ wtg t t' /\ map ekey (t_events t') = map ekey (t_events t) /\ data_q (t_data t) (t_data t').
Proof. intros Q H. destruct (wr_tag _ _ (lq_w _ _ Q) _ _ H) as (t' & H' & W). exists t'. split; [exact H'|]. split; [exact W|]. exact (lq_t _ _ Q _ _ _ H H'). Qed.
Lemma lq_back s s' i t' : lq s s' -> znth (s_db s') i = Some t' -> exists t, znth (s_db s) i = Some t /\ wtg t t' /\ map ekey (t_events t') = map ekey (t_events t) /\ data_q (t_data t) (t_data t').
Proof. intros Q H. destruct (wrel_back _ _ _ _ (lq_w _ _ Q) H) as (t & H' & W). exists t. split; [exact H'|]. split; [exact W|]. exact (lq_t _ _ Q _ _ _ H' H). Qed.
Lemma srest_mods s s' : srest s' = srest s -> s_mods s' = s_mods s /\ s_types s' = s_types s /\ s_moduuid s' = s_moduuid s /\ s_dbsize s' = s_dbsize s /\ s_step s' = s_step s /\ s_index s' = s_index s.
Proof. unfold srest. intros H. injection H. intros. repeat split; assumption. Qed.
Lemma nonvirt_lq s s' i : lq s s' -> nonvirt s i -> nonvirt s' i.
Proof. intros Q (t & H & V). destruct (lq_tag _ _ _ _ Q H) as (t' & H' & W & _). exists t'. split; [exact H'|]. rewrite (wg_attr _ _ W). exact V. Qed.
Lemma map_ok_mono s s' i len len' m : len <= len' -> (nonvirt s (h_index (m_dst m)) -> nonvirt s' (h_index (m_dst m))) -> map_ok s i len m -> map_ok s' i len' m.
Proof. intros H N [A B C D F]. constructor; auto. lia. Qed.
Lemma ekey_stat l l' : map ekey l' = map ekey l -> map stat l' = map stat l.
Proof. intros H. apply (f_equal (map fst)) in H. rewrite !map_map in H. exact H. Qed.
Lemma cons_eq {A} (x y : A) a b : x :: a = y :: b -> x = y /\ a = b.
Proof. intros H. injection H as -> ->. auto. Qed.
Lemma ev_ok_list len l l' : map ekey l' = map ekey l -> Forall (ev_ok len) l -> Forall (ev_ok len) l'.
Proof. revert l'. induction l as [|e l IH]; intros [|e' l'] H F; try discriminate; [constructor|]. cbn [map] in H. apply cons_eq in H as [H1 H2]. apply Forall_cons_iff in F as [F1 F2]. constructor; [apply (ev_ok_key len e e' H1 F1) | auto]. Qed.
Lemma ekey_in l l' e' : map ekey l' = map ekey l -> In e' l' -> exists e, In e l /\ ekey e' = ekey e.
Proof. intros H I. assert (J : In (ekey e') (map ekey l)) by (rewrite <- H; apply in_map; exact I). apply in_map_iff in J as (e & E & J). eauto. Qed.
Lemma owned_key uid l l' : map ekey l' = map ekey l -> zlen (filter (fun e => e_mod e =? uid) l') = zlen (filter (fun e => e_mod e =? uid) l).
Proof.
  revert l'. induction l as [|e l IH]; intros [|e' l'] H; try discriminate; [reflexivity|]. cbn [map] in H. apply cons_eq in H as [H1 H2]. cbn [filter].
  apply ekey_fields in H1 as (x & -> & _). cbn [set_test e_mod]. destruct (e_mod e =? uid); [rewrite !zlen_cons, (IH _ H2); reflexivity | apply IH; exact H2].
Qed.
Lemma owned_wtg uid t t' : wtg t t' -> owned_in uid t' = owned_in uid t.
Proof.
  intros W. unfold owned_in. assert (H := wg_events _ _ W). revert H. generalize (t_events t) (t_events t'). induction l as [|e l IH]; intros [|e' l'] H; try discriminate; [reflexivity|].
  cbn [map] in H. apply cons_eq in H as [H1 H2]. cbn [filter]. apply stat_mod in H1. rewrite H1. destruct (_ =? _); [rewrite !zlen_cons, (IH _ H2); reflexivity | apply IH; exact H2].
Qed.
Lemma tag_ok_lq s s' i t t' : lq s s' -> wtg t t' -> map ekey (t_events t') = map ekey (t_events t) -> data_q (t_data t) (t_data t') -> tag_ok s i t -> tag_ok s' i t'.
Proof.
  intros Q W K D O. unfold tag_ok in *. assert (Ev : t_events t = [] -> t_events t' = []) by (intros E; rewrite E in K; destruct (t_events t'); [reflexivity | discriminate]).
  assert (Mp := wg_maps _ _ W). assert (Vk : virt_ok t -> virt_ok t').
  { intros (A & B & C & F & G). unfold virt_ok. rewrite (wg_attr _ _ W), (wg_odata _ _ W), (wg_omask _ _ W). repeat split; auto.
    rewrite C in Mp. cbn in Mp. destruct (t_maps t') as [l|]; [|contradiction]. inversion Mp; subst; reflexivity. }
  destruct (t_data t) as [|b|q| | |], (t_data t') as [|b'|q'| | |]; cbn in D; try discriminate; try contradiction; auto.
  - destruct O as (A & B & l & C). rewrite (wg_attr _ _ W). split; [exact A|]. split; [auto|]. rewrite C in Mp. cbn in Mp. destruct (t_maps t') as [l'|]; [eauto | contradiction].
  - destruct O as (A & B & C & (l & M & N) & V & Iq). rewrite (wg_attr _ _ W), (wg_type _ _ W), D. split; [exact A|]. split; [exact B|]. split; [eapply ev_ok_list; eassumption|]. split.
    + rewrite M in Mp. cbn in Mp. destruct (t_maps t') as [l'|]; [|contradiction]. exists l'. split; [reflexivity|]. intros m I. apply (subl_in _ _ _ Mp) in I. apply N in I.
      eapply map_ok_mono; [|intros X; eapply nonvirt_lq; eassumption | exact I]. lia.
    + split; [|exact Iq]. unfold ovr_ok in *. rewrite (wg_odata _ _ W), (wg_omask _ _ W), (wg_attr _ _ W), (wg_type _ _ W). exact V.
  - destruct O as [A B]. auto.
Qed.
Lemma inv_tag_lq ts t t' : wtg t t' -> data_q (t_data t) (t_data t') -> inv_tag ts t -> inv_tag ts t'.
Proof.
  intros W D [A B C F G H I]. constructor; rewrite ?(wg_name _ _ W), ?(wg_attr _ _ W), ?(wg_type _ _ W), ?(wg_count _ _ W); auto.
  - destruct (t_data t) eqn:X, (t_data t') eqn:Y; cbn in D; try congruence; split; intros K; try discriminate; try (apply A in K; discriminate); auto. 
  - intros K. apply B. rewrite K in D. destruct (t_data t); cbn in D; congruence.
  - intros b K. rewrite K in D. destruct (t_data t) eqn:X; cbn in D; try discriminate. rewrite D. apply C. reflexivity.
Qed.
Lemma LI_lq s s' : LI s -> lq s s' -> LI s'.
Proof.
  intros [A B C D F G H I J] Q. destruct (srest_mods _ _ (wr_rest _ _ (lq_w _ _ Q))) as (M1 & M2 & M3 & _). constructor; rewrite ?M1, ?M2, ?M3; auto.
  - intros i t' Ht. destruct (lq_back _ _ _ _ Q Ht) as (t & H0 & W & _ & Dq). eapply inv_tag_lq; eauto.
  - intros i t' n Ht. destruct (lq_back _ _ _ _ Q Ht) as (t & H0 & W & _ & Dq). rewrite (wg_type _ _ W), (wg_count _ _ W). eauto.
  - intros i t' Ht. destruct (lq_back _ _ _ _ Q Ht) as (t & H0 & W & K & Dq). eapply tag_ok_lq; eauto.
  - intros i t' Ht e' Ie. destruct (lq_back _ _ _ _ Q Ht) as (t & H0 & W & K & Dq). destruct (ekey_in _ _ _ K Ie) as (e & Ie2 & Ek). apply ekey_fields in Ek as (x & -> & _). exact (D _ _ H0 _ Ie2).
  - intros m Im. unfold osum. rewrite (wrel_map (owned_in (m_uid m)) s s'); [apply F; exact Im | apply owned_wtg | exact (lq_w _ _ Q)].
  - intros i Hi. eapply nonvirt_lq; eauto.
Qed.
