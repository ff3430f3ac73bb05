(** * QueueFrame: which requests can change the content of a queue tag *)
From Verif Require Import Base Const Types State Events Atomic Server Lib SearchProofs Shape Inv Reach Spec Frame Effects Out DataFrame.

(** As in DataFrame.v, for everything [t_data] points to and not only the bytes of a plain tag: reading
    a queue changes it. *)
Notation qk := (fk t_data).
Lemma qk_evrel i s s' : evrel s s' -> qk i s s'.
Proof.
  intros H t Ht. assert (Q := evrel_data s s' i H). unfold data_at in Q. rewrite Ht in Q. destruct (znth (s_db s') i) as [t'|]; [|discriminate].
  exists t'. split; [reflexivity|]. cbn in Q. congruence.
Qed.
Lemma tag_write_qk E fd j i off d : j <> i -> pres (qk i) (tag_write E fd j off d).
Proof. intros N s s' r H. eapply fk_others; [eapply tag_write_others; exact H | exact N]. Qed.
Lemma tag_mask_write_qk E fd j i off d m : j <> i -> pres (qk i) (tag_mask_write E fd j off d m).
Proof. intros N s s' r H. eapply fk_others; [eapply tag_mask_write_others; exact H | exact N]. Qed.
Lemma sys_write_qk E j i d : j <> i -> pres (qk i) (sys_write E j d).
Proof. intros N s s' r H. eapply fk_others; [eapply sys_write_others; exact H | exact N]. Qed.
Lemma commit_qk E j i t b off n : j <> i -> pres (qk i) (commit E j t b off n).
Proof.
  intros N s s' r H. destruct (commit_spec _ _ _ _ _ _ _ _ _ H) as (evs & o & x & _ & -> & _).
  eapply fk_others; [|exact N]. intros k Hk. cbn. apply znth_zset_ne. congruence.
Qed.
Lemma tag_read_qk E fd j i off n c : j <> i -> pres (qk i) (tag_read E fd j off n c).
Proof.
  intros N s s' a H. unfold tag_read in H. inv_all; try apply fk_refl. eapply fk_others; [apply others_set_tag | exact N].
Qed.
Lemma set_attribute_qk E j a i : pres (qk i) (set_attribute E j a).
Proof.
  intros s s' u H. destruct (set_attribute_spec _ _ _ _ _ _ H) as (t & r & f & x & Ht & _ & ->).
  intros t0 H0. cbn. rewrite znth_zset. destruct ((j =? i) && (0 <=? j) && (j <? zlen (s_db s))) eqn:B; [|eauto].
  assert (j = i) by lia. subst j. eexists. split; [reflexivity|]. assert (t = t0) by congruence. subst. reflexivity.
Qed.
Create HintDb qk.
#[export] Hint Resolve tag_write_qk tag_mask_write_qk sys_write_qk commit_qk tag_read_qk set_attribute_qk : qk.
#[export] Hint Extern 1 (_ <> _) => (unfold IX_STARTED, IX_OVI, IX_OVS, IX_TAGCOUNT, IX_ADDED, IX_DELETED, IX_LASTINDEX, IX_LASTMODULE; lia) : qk.
Ltac qk_step :=
  match goal with
  | |- qk _ ?s ?s => apply fk_refl
  | |- qk _ _ (set_tag ?Y ?j ?t') => eapply (fk_trans _ _ _ Y); [| eapply fk_set_tag; [cbn; eassumption | reflexivity]]
  | |- qk _ _ (set_tag (set_tag _ ?i _) ?i _) => rewrite set_tag_set_tag
  | |- qk _ _ (set_ovi ?Y _) => apply (fk_trans _ _ _ Y); [| apply fk_db; reflexivity]
  | |- qk _ _ (set_ovs ?Y _) => apply (fk_trans _ _ _ Y); [| apply fk_db; reflexivity]
  | |- qk _ _ (set_out ?Y _) => apply (fk_trans _ _ _ Y); [| apply fk_db; reflexivity]
  | |- qk _ _ (set_mods ?Y _) => apply (fk_trans _ _ _ Y); [| apply fk_db; reflexivity]
  | |- qk _ _ (upd_mod _ _ ?Y) => apply (fk_trans _ _ _ Y); [| apply fk_db; reflexivity]
  | |- qk _ _ (set_now ?Y _) => apply (fk_trans _ _ _ Y); [| apply fk_db; reflexivity]
  | |- qk _ _ (set_types ?Y _) => apply (fk_trans _ _ _ Y); [| apply fk_db; reflexivity]
  | H : ?m ?Y = Done (?X, _) |- qk ?i _ ?X =>
      eapply (fk_trans _ _ _ Y); [| let P := fresh in assert (P : pres (qk i) m) by (auto with qk); exact (P _ _ _ H)]
  end.
Ltac qks := repeat qk_step.
Ltac qk_tac := let s := fresh "s" in let s' := fresh "s'" in let a := fresh "a" in let H := fresh "H" in
  intros s s' a H; inv_all; qks.

Lemma override_add_qk E idx off d m i : 9 <= i -> pres (qk i) (override_add E idx off d m).
Proof. intros Hi. unfold override_add. qk_tac. Qed.
Lemma override_del_qk E idx off m i : 9 <= i -> pres (qk i) (override_del E idx off m).
Proof. intros Hi. unfold override_del. qk_tac. Qed.
Lemma override_get_qk idx off size i : pres (qk i) (override_get idx off size).
Proof. unfold override_get. qk_tac. Qed.
Lemma override_set_qk E idx flag i : 9 <= i -> pres (qk i) (override_set E idx flag).
Proof. intros Hi. unfold override_set. qk_tac. Qed.
Lemma event_add_qk E h et ud m i : pres (qk i) (event_add E h et ud m).
Proof. unfold event_add. qk_tac. Qed.
Lemma event_del_qk E idx id mo i : pres (qk i) (event_del E idx id mo).
Proof. intros s s' a H. eapply qk_evrel, event_del_evrel, H. Qed.
Lemma event_opt_qk idx id o mo i : pres (qk i) (event_opt idx id o mo).
Proof. unfold event_opt. qk_tac. Qed.
Lemma map_add_qk a b i : pres (qk i) (map_add a b).
Proof. unfold map_add. qk_tac. Qed.
Lemma map_del_qk a b i : pres (qk i) (map_del a b).
Proof. unfold map_del. qk_tac. Qed.
#[export] Hint Resolve override_add_qk override_del_qk override_get_qk override_set_qk event_add_qk event_del_qk event_opt_qk map_add_qk map_del_qk : qk.
Lemma map_fire_qk E m i : h_index (m_dst m) <> i -> pres (qk i) (map_fire E m).
Proof. intros Hi. unfold map_fire. qk_tac. Qed.
#[export] Hint Resolve map_fire_qk : qk.
Lemma map_loop_qk E l o w i : Forall (fun m => h_index (m_dst m) <> i) l -> pres (qk i) (map_loop E l o w).
Proof. induction 1; cbn [map_loop]; qk_tac. Qed.
Lemma map_check_qk E j o w i s s' u : maps_avoid s j i -> map_check E j o w s = Done (s', u) -> qk i s s'.
Proof. intros A H. unfold map_check in H. inv1 H. destruct (t_maps t) eqn:M; [|discriminate]. eapply map_loop_qk; [eapply A; eassumption | exact H]. Qed.
Lemma atomic_op_qk E h o d i : h_index h <> i -> pres (qk i) (atomic_op E h o d).
Proof. intros Hi. unfold atomic_op. qk_tac. Qed.
Lemma group_write_loop_qk E i : forall hs o b, Forall (fun h => h_index h <> i) hs -> pres (qk i) (group_write_loop E hs o b).
Proof.
  intros hs o b F. revert o; induction F; intros o; cbn [group_write_loop]; qk_tac.
Qed.
Lemma group_read_loop_qk E i : forall hs o b, Forall (fun h => h_index h <> i) hs -> pres (qk i) (group_read_loop E hs o b).
Proof. intros hs o b F. revert o b; induction F; intros o b; cbn [group_read_loop]; qk_tac. Qed.
#[export] Hint Resolve atomic_op_qk group_write_loop_qk group_read_loop_qk : qk.
Lemma group_add_qk a b c i : pres (qk i) (group_add a b c).
Proof. unfold group_add. qk_tac. Qed.
Lemma group_del_qk a b c i : pres (qk i) (group_del a b c).
Proof. unfold group_del. qk_tac. Qed.
Lemma group_read_qk E m g i : (forall gr, znth (m_groups m) g = Some gr -> Forall (fun h => h_index h <> i) (g_members gr)) -> pres (qk i) (group_read E m g).
Proof.
  intros F s s' a H. unfold group_read in H. destruct (znth (m_groups m) g) as [gr|] eqn:Q; [|inv_all; apply fk_refl]. specialize (F _ eq_refl).
  destruct (g_live gr); [|inv_all; apply fk_refl]. inv1 H. eapply group_read_loop_qk; eassumption.
Qed.
#[export] Hint Resolve group_add_qk group_del_qk group_read_qk : qk.
Lemma respond_qk a b c i : pres (qk i) (respond a b c).
Proof. unfold respond. qk_tac. Qed.
#[export] Hint Resolve respond_qk : qk.
Lemma reply_err_qk a b c i : pres (qk i) (reply_err a b c).
Proof. unfold reply_err. qk_tac. Qed.
#[export] Hint Resolve reply_err_qk : qk.
Lemma reply_int_qk a b c i : pres (qk i) (reply_int a b c).
Proof. unfold reply_int. qk_tac. Qed.
Lemma reply_status_qk a b c i : pres (qk i) (reply_status a b c).
Proof. unfold reply_status. qk_tac. Qed.
#[export] Hint Resolve reply_int_qk reply_status_qk : qk.
Lemma h_tag_get_qk E fd r i : pres (qk i) (h_tag_get E fd r).
Proof. unfold h_tag_get. qk_tac. Qed.
Lemma h_cdt_get_qk a b i : pres (qk i) (h_cdt_get a b).
Proof. unfold h_cdt_get. qk_tac. Qed.
Lemma h_cdt_create_qk E a b i : pres (qk i) (h_cdt_create E a b).
Proof. unfold h_cdt_create. qk_tac. Qed.
Lemma h_read_qk E a b c d i : b <> i -> pres (qk i) (h_read E a b c d).
Proof. intros N. unfold h_read. qk_tac. Qed.
#[export] Hint Resolve h_tag_get_qk h_cdt_get_qk h_cdt_create_qk h_read_qk : qk.

Lemma tag_add_qk E fd nm type count attr i s s' r : Inv s -> 0 <= count < 4294967296 -> 9 <= i ->
  name_at s i <> Some nm -> tag_add E fd nm type count attr s = Done (s', r) -> qk i s s'.
Proof.
  intros I Hc Hi Hn H. apply tag_add_cases in H; [|exact I | lia].
  destruct H as [s' r Hr S1 | n t s0 s' u S1 Ht Hnm Hty Hct How Hsa
    | n t s0 d size s1 s' u v S1 Ht Hnm Hty Hct How Hns Hrg Hsa Htw
    | n t s0 d S1 Ht Hnm Hty Hct Hrg Hns
    | s0 s1 s3 s4 s' ix size u v w x S1 Hno Hck Hvn Hcp Hns Hix Hw1 Hw2 Hsa Hw3];
  destruct (set_dbsize_db _ _ S1) as (Edb & _).
  - apply fk_db; exact Edb.
  - eapply fk_trans; [apply fk_db; exact Edb|]. qks.
  - assert (n <> i) by (intros ->; apply Hn; unfold name_at; rewrite Ht; exact Hnm).
    eapply fk_trans; [apply fk_db; exact Edb|]. qks. eapply fk_others; [apply others_set_tag | assumption].
  - assert (n <> i) by (intros ->; apply Hn; unfold name_at; rewrite Ht; exact Hnm).
    eapply fk_trans; [apply fk_db; exact Edb|]. eapply fk_others; [apply others_set_tag | assumption].
  - eapply fk_trans; [apply fk_db; exact Edb|]. eapply fk_trans with (b := s1); [qks|].
    eapply fk_trans with (b := set_tagcount (set_index (set_db s1 (s_db s1 ++ [new_tag E fd (zlen (s_db s)) nm type count size])) ix) (s_tagcount s1 + 1)); [|qks].
    intros t Ht. exists t. cbn. rewrite znth_app1 by (apply znth_range in Ht; lia). auto.
Qed.
Lemma tag_del_qk E j i s s' r : 9 <= i -> j <> i -> tag_del E j s = Done (s', r) -> qk i s s'.
Proof.
  intros Hi Hj H. apply tag_del_effect in H as [[_ ->]|(_ & _ & _ & _ & K & _)]; [apply fk_refl|].
  intros t Ht. exists t. rewrite K; [auto|congruence|unfold IX_DELETED; lia|unfold IX_TAGCOUNT; lia].
Qed.
Lemma kept_qk s s' i : 9 <= i -> kept s s' i -> qk i s s'.
Proof.
  intros Hi [_ K] t Ht. assert (Q : data_at s' i = data_at s i) by (apply K; unfold status_ix, IX_TAGCOUNT, IX_LASTINDEX, IX_ADDED, IX_DELETED; lia).
  unfold data_at in Q. rewrite Ht in Q. destruct (znth (s_db s') i) as [t'|]; [|discriminate]. exists t'. split; [reflexivity|].
  cbn in Q. congruence.
Qed.
Lemma module_unregister_qk E fd i s s' u : Inv s -> 9 <= i ->
  (forall m, find_mod s fd = Some m -> ~ (tag_owned s fd i = true \/ i = m_tagidx m)) ->
  module_unregister E fd s = Done (s', u) -> qk i s s' /\ name_at s' i = name_at s i.
Proof.
  intros I Hi Hn H. destruct (find_mod s fd) as [m|] eqn:F.
  - destruct (module_unregister_effect _ _ _ _ _ _ I F H) as (A & _).
    destruct (A i) as [K|[K _]]; [split; [apply kept_qk | apply kept_name]; assumption | destruct (Hn _ eq_refl K)].
  - unfold module_unregister in H. inv1 H. rewrite F in H. inv_all. split; [apply fk_refl | reflexivity].
Qed.
Lemma module_register_qk E nm fd i s s' u : Inv s -> 9 <= i ->
  (forall m, find_mod s fd = Some m -> ~ (tag_owned s fd i = true \/ i = m_tagidx m)) ->
  (forall n, name_at s i = Some n -> nthb n 0 <> 95) ->
  module_register E nm fd s = Done (s', u) -> qk i s s'.
Proof.
  intros I Hi Hm Hn H. unfold module_register in H. inv1 H. inv1 H. inv1 H. inv1 H.
  assert (G : Inv s0 /\ qk i s s0 /\ name_at s0 i = name_at s i).
  { clear H. destruct (find_mod s fd) as [m|] eqn:F; [|inv_all; split; [exact I|]; split; [apply fk_refl | reflexivity]].
    assert (Fd : m_fd m = fd) by (apply find_some in F; destruct F; lia). rewrite Fd in Hm0.
    split; [eapply module_unregister_good; eassumption|]. eapply module_unregister_qk; try eassumption. rewrite F. exact Hm. }
  destruct G as (I0 & D0 & N0). clear Hm0. eapply fk_trans; [exact D0|]. rewrite <- N0 in Hn. clear D0 N0 Hm I.
  set (s1 := set_nextuid _ _) in H.
  destruct (existsb (fun x => name_eqb x nm) (en_excl E)); [inv_all; apply fk_db; reflexivity|].
  inv1 H. inv1 H. destruct v0 as [tn uuid]. inv1 H. inv1 H. inv1 H.
  destruct (module_tagname_shape _ _ _ _ Hr) as [rest ->].
  assert (I2 : Inv (set_moduuid s1 uuid)) by (destruct I0; constructor; assumption).
  assert (Ne : name_at (set_moduuid s1 uuid) i <> Some (95 :: 109 :: rest)).
  { intros Q. apply (Hn (95 :: 109 :: rest)); [exact Q | reflexivity]. }
  assert (D1 := tag_add_qk E (-1) _ _ 1 0 i _ _ _ I2 ltac:(lia) Hi Ne Hm).
  assert (Ef := tag_add_effect E (-1) _ _ 1 0 _ _ _ I2 ltac:(lia) Hm).
  destruct (v0 <? 0) eqn:Neg; [discriminate|].
  destruct (znth (s_db s0) i) as [t0|] eqn:Z0; [|intros t Ht; congruence].
  assert (Hv : v0 <> i).
  { intros ->. destruct Ef as [(Q & _)|[(_ & (t1 & [Q1 Q2] & _) & _)|(Q & _)]]; [lia | | apply znth_range in Z0; cbn in Q; lia].
    apply Ne. unfold name_at. rewrite Q1. exact Q2. }
  eapply fk_trans with (b := s2); [exact D1|].
  inv1 H. inv1 H. inv1 H. inv1 H. inv1 H. inv1 H. inv_all. clear D1. qks.
Qed.
(** the request does not read tag [i] either *)
Definition unread (s : server) (o : op) (i : Z) : Prop :=
  match o with
  | OpRead _ j _ _ => j <> i
  | OpGrpRead fd g => forall m gr, find_mod s fd = Some m -> znth (m_groups m) g = Some gr -> Forall (fun h => h_index h <> i) (g_members gr)
  | _ => True
  end.
Lemma queue_frame E s o s' i : Inv s -> 9 <= i -> spares s o i -> unread s o i -> step E s o = Done s' -> qk i s s'.
Proof.
  intros I Hi N U H. unfold step in H. destruct (handle_op E o s) as [[s1 u]|] eqn:Q; [|discriminate]. injection H as <-.
  eapply fk_trans with (b := s1); [|apply fk_db; reflexivity].
  destruct o; cbn [handle_op spares unread] in *; try solve [clear N; inv_all; qks].
  - inv1 Q. inv1 Q. inv1 Q. destruct N as [N1 N2].
    eapply fk_trans with (b := s0); [eapply module_register_qk; eassumption|]. inv_all; qks.
  - apply (module_unregister_qk E fd i s s1 u I Hi N Q).
  - inv1 Q. eapply fk_trans with (b := s0); [|qks]. destruct (nthb nm 0 =? 95); [inv_all; apply fk_refl|].
    eapply tag_add_qk; [exact I | | exact Hi | exact N | exact Hm]. unfold u32. apply Z.mod_pos_bound; lia.
  - unfold h_tag_del in Q. inv1 Q. inv1 Q. inv1 Q. eapply fk_trans with (b := s0); [|inv1 Q; qks].
    destruct v as [[[[[a b] c] d] nm]|e]; [|inv_all; apply fk_refl]. destruct (nthb nm 0 =? 95); [inv_all; apply fk_refl|].
    eapply tag_del_qk; try eassumption.
  - unfold h_write in Q. inv1 Q. inv1 Q. inv1 Q. destruct N as [Hj A].
    destruct (has v A_READONLY && negb (tag_owned s fd idx)).
    + inv1 Hm. cbn [negb Z.eqb E_READONLY] in Q. qks.
    + destruct (negb (v0 =? 0)).
      * qks.
      * inv1 Q. eapply fk_trans with (b := s0); [qks|]. eapply fk_trans with (b := s2); [|qks].
        eapply map_check_qk; [|exact Hm0].
        eapply maps_avoid_fk; [eapply tag_write_maps; exact Hm | apply (sh_len _ _ (tag_write_shape _ _ _ _ _ _ _ _ Hm)) | exact A].
  - unfold h_mask in Q. inv1 Q. inv1 Q. inv1 Q. destruct N as [Hj A].
    destruct (has v A_READONLY).
    + inv1 Hm. cbn [negb Z.eqb E_READONLY] in Q. qks.
    + destruct (negb (v0 =? 0)).
      * qks.
      * inv1 Q. eapply fk_trans with (b := s0); [qks|]. eapply fk_trans with (b := s2); [|qks].
        eapply map_check_qk; [|exact Hm0].
        eapply maps_avoid_fk; [eapply tag_mask_write_maps; exact Hm | apply (sh_len _ _ (tag_mask_write_shape _ _ _ _ _ _ _ _ _ Hm)) | exact A].
  - unfold with_mod in Q. inv1 Q. inv1 Q; [inv1 Q; inv_all; qks | discriminate].
  - unfold with_mod in Q. inv1 Q. inv1 Q; [inv1 Q; inv_all; qks | discriminate].
  - unfold with_mod in Q. inv1 Q. destruct (find_mod s fd) as [m|] eqn:F; [|discriminate]. inv1 Q.
    eapply fk_trans with (b := s0); [eapply group_read_qk; [|exact Hm]; intros gr G; eapply U; [reflexivity | exact G] | clear Hm; inv_all; qks].
  - unfold with_mod in Q. inv1 Q. destruct (find_mod s fd) as [m|] eqn:F; [|discriminate]. inv1 Q. eapply fk_trans with (b := s0); [|qks]. clear Q. unfold group_write in Hm.
    destruct (znth (m_groups m) i0) as [gr|] eqn:Z; [|discriminate]. destruct (g_live gr); [|inv_all; apply fk_refl]. inv1 Hm.
    eapply group_write_loop_qk; [eapply N; eauto | exact Hm].
  - unfold h_atomic in Q. inv1 Q. inv1 Q. inv1 Q. destruct N as [Hj A].
    destruct (has v A_READONLY && negb (tag_owned s fd (h_index h))).
    + inv1 Hm. cbn [Z.ltb Z.compare E_READONLY] in Q. qks.
    + destruct (v0 <? 0).
      * qks.
      * inv1 Q. eapply fk_trans with (b := s0); [qks|]. eapply fk_trans with (b := s2); [|qks].
        eapply map_check_qk; [|exact Hm0].
        eapply maps_avoid_fk; [eapply atomic_op_maps; exact Hm | apply (sh_len _ _ (atomic_op_shape _ _ _ _ _ _ _ Hm)) | exact A].
Qed.
