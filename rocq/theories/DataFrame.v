(** * DataFrame: which requests can change the bytes of a tag *)
From Verif Require Import Base Const Types State Events Atomic Server Lib SearchProofs Shape Inv Reach Spec Frame Effects Out.

(** [fk f i]: the part [f] of tag [i] is the same *)
Definition fk {X} (f : tag -> X) (i : Z) (s s' : server) : Prop :=
  forall t, znth (s_db s) i = Some t -> exists t', znth (s_db s') i = Some t' /\ f t' = f t.
Lemma fk_refl {X} (f : tag -> X) i s : fk f i s s.
Proof. intros t H; eauto. Qed.
Lemma fk_trans {X} (f : tag -> X) i a b c : fk f i a b -> fk f i b c -> fk f i a c.
Proof. intros H1 H2 t H. destruct (H1 _ H) as (t1 & A & B). destruct (H2 _ A) as (t2 & C & D). exists t2. split; congruence. Qed.
Lemma fk_db {X} (f : tag -> X) i s s' : s_db s' = s_db s -> fk f i s s'.
Proof. intros H t Ht. exists t. rewrite H. auto. Qed.
Lemma fk_others {X} (f : tag -> X) i j s s' : others j s s' -> j <> i -> fk f i s s'.
Proof. intros H Hne t Ht. exists t. rewrite H by congruence. auto. Qed.
Lemma fk_set_tag {X} (f : tag -> X) i s j t t' : znth (s_db s) j = Some t -> f t' = f t -> fk f i s (set_tag s j t').
Proof.
  intros H1 H2 u Hu. cbn. rewrite znth_zset. destruct ((j =? i) && (0 <=? j) && (j <? zlen (s_db s))) eqn:B; [|eauto].
  assert (j = i) by lia. subst j. exists t'. split; [reflexivity|]. congruence.
Qed.
Lemma fk_shape {X} (f : tag -> X) i s s' : (forall t t', tag_shape t t' -> f t' = f t) -> shape s s' -> fk f i s s'.
Proof. intros F S t Ht. destruct (shape_tag _ _ _ _ S Ht) as (t' & A & B). exists t'. auto. Qed.

(** the bytes of a tag *)
Definition dbytes (t : tag) : option (list Z) := data_block (t_data t).
Notation dk := (fk dbytes).
Lemma dk_evrel i s s' : evrel s s' -> dk i s s'.
Proof.
  intros H t Ht. assert (Q := evrel_data s s' i H). unfold data_at in Q. rewrite Ht in Q. destruct (znth (s_db s') i) as [t'|]; [|discriminate].
  exists t'. split; [reflexivity|]. unfold dbytes. cbn in Q. congruence.
Qed.
Lemma tag_write_dk E fd j i off d : j <> i -> pres (dk i) (tag_write E fd j off d).
Proof. intros N s s' r H. eapply fk_others; [eapply tag_write_others; exact H | exact N]. Qed.
Lemma tag_mask_write_dk E fd j i off d m : j <> i -> pres (dk i) (tag_mask_write E fd j off d m).
Proof. intros N s s' r H. eapply fk_others; [eapply tag_mask_write_others; exact H | exact N]. Qed.
Lemma sys_write_dk E j i d : j <> i -> pres (dk i) (sys_write E j d).
Proof. intros N s s' r H. eapply fk_others; [eapply sys_write_others; exact H | exact N]. Qed.
Lemma commit_dk E j i t b off n : j <> i -> pres (dk i) (commit E j t b off n).
Proof.
  intros N s s' r H. destruct (commit_spec _ _ _ _ _ _ _ _ _ H) as (evs & o & x & _ & -> & _).
  eapply fk_others; [|exact N]. intros k Hk. cbn. apply znth_zset_ne. congruence.
Qed.
Lemma tag_read_dk E fd j i off n c : pres (dk i) (tag_read E fd j off n c).
Proof.
  intros s s' a H. unfold tag_read in H. inv_all; try apply fk_refl. eapply fk_set_tag; [eassumption|]. unfold dbytes. cbn. rewrite Heqt0. reflexivity.
Qed.
Lemma set_attribute_dk E j a i : pres (dk i) (set_attribute E j a).
Proof.
  intros s s' u H. destruct (set_attribute_spec _ _ _ _ _ _ H) as (t & r & f & x & Ht & _ & ->).
  intros t0 H0. cbn. rewrite znth_zset. destruct ((j =? i) && (0 <=? j) && (j <? zlen (s_db s))) eqn:B; [|eauto].
  assert (j = i) by lia. subst j. eexists. split; [reflexivity|]. assert (t = t0) by congruence. subst. reflexivity.
Qed.
Create HintDb dk.
#[export] Hint Resolve tag_write_dk tag_mask_write_dk sys_write_dk commit_dk tag_read_dk set_attribute_dk : dk.
#[export] Hint Extern 1 (_ <> _) => (unfold IX_OVI, IX_OVS, IX_TAGCOUNT, IX_ADDED, IX_DELETED, IX_LASTINDEX, IX_LASTMODULE; lia) : dk.
Ltac dk_step :=
  match goal with
  | |- dk _ ?s ?s => apply fk_refl
  | |- dk _ _ (set_tag ?Y ?j ?t') => eapply (fk_trans _ _ _ Y); [| eapply fk_set_tag; [cbn; eassumption | reflexivity]]
  | |- dk _ _ (set_tag (set_tag _ ?i _) ?i _) => rewrite set_tag_set_tag
  | |- dk _ _ (set_ovi ?Y _) => apply (fk_trans _ _ _ Y); [| apply fk_db; reflexivity]
  | |- dk _ _ (set_ovs ?Y _) => apply (fk_trans _ _ _ Y); [| apply fk_db; reflexivity]
  | |- dk _ _ (set_out ?Y _) => apply (fk_trans _ _ _ Y); [| apply fk_db; reflexivity]
  | |- dk _ _ (set_mods ?Y _) => apply (fk_trans _ _ _ Y); [| apply fk_db; reflexivity]
  | |- dk _ _ (upd_mod _ _ ?Y) => apply (fk_trans _ _ _ Y); [| apply fk_db; reflexivity]
  | |- dk _ _ (set_now ?Y _) => apply (fk_trans _ _ _ Y); [| apply fk_db; reflexivity]
  | |- dk _ _ (set_types ?Y _) => apply (fk_trans _ _ _ Y); [| apply fk_db; reflexivity]
  | H : ?m ?Y = Done (?X, _) |- dk ?i _ ?X =>
      eapply (fk_trans _ _ _ Y); [| let P := fresh in assert (P : pres (dk i) m) by (auto with dk); exact (P _ _ _ H)]
  end.
Ltac dks := repeat dk_step.
Ltac dk_tac := let s := fresh "s" in let s' := fresh "s'" in let a := fresh "a" in let H := fresh "H" in
  intros s s' a H; inv_all; dks.

Lemma override_add_dk E idx off d m i : 9 <= i -> pres (dk i) (override_add E idx off d m).
Proof. intros Hi. unfold override_add. dk_tac. Qed.
Lemma override_del_dk E idx off m i : 9 <= i -> pres (dk i) (override_del E idx off m).
Proof. intros Hi. unfold override_del. dk_tac. Qed.
Lemma override_get_dk idx off size i : pres (dk i) (override_get idx off size).
Proof. unfold override_get. dk_tac. Qed.
Lemma override_set_dk E idx flag i : 9 <= i -> pres (dk i) (override_set E idx flag).
Proof. intros Hi. unfold override_set. dk_tac. Qed.
Lemma event_add_dk E h et ud m i : pres (dk i) (event_add E h et ud m).
Proof. unfold event_add. dk_tac. Qed.
Lemma event_del_dk E idx id mo i : pres (dk i) (event_del E idx id mo).
Proof. intros s s' a H. eapply dk_evrel, event_del_evrel, H. Qed.
Lemma event_opt_dk idx id o mo i : pres (dk i) (event_opt idx id o mo).
Proof. unfold event_opt. dk_tac. Qed.
Lemma map_add_dk a b i : pres (dk i) (map_add a b).
Proof. unfold map_add. dk_tac. Qed.
Lemma map_del_dk a b i : pres (dk i) (map_del a b).
Proof. unfold map_del. dk_tac. Qed.
#[export] Hint Resolve override_add_dk override_del_dk override_get_dk override_set_dk event_add_dk event_del_dk event_opt_dk map_add_dk map_del_dk : dk.
Lemma map_fire_dk E m i : h_index (m_dst m) <> i -> pres (dk i) (map_fire E m).
Proof. intros Hi. unfold map_fire. dk_tac. Qed.
#[export] Hint Resolve map_fire_dk : dk.
Lemma map_loop_dk E l o w i : Forall (fun m => h_index (m_dst m) <> i) l -> pres (dk i) (map_loop E l o w).
Proof. induction 1; cbn [map_loop]; dk_tac. Qed.
Definition maps_avoid (s : server) (j i : Z) : Prop :=
  forall t l, znth (s_db s) j = Some t -> t_maps t = Some l -> Forall (fun m => h_index (m_dst m) <> i) l.
Lemma map_check_dk E j o w i s s' u : maps_avoid s j i -> map_check E j o w s = Done (s', u) -> dk i s s'.
Proof. intros A H. unfold map_check in H. inv1 H. destruct (t_maps t) eqn:M; [|discriminate]. eapply map_loop_dk; [eapply A; eassumption | exact H]. Qed.
Lemma atomic_op_dk E h o d i : h_index h <> i -> pres (dk i) (atomic_op E h o d).
Proof. intros Hi. unfold atomic_op. dk_tac. Qed.
Lemma group_write_loop_dk E i : forall hs o b, Forall (fun h => h_index h <> i) hs -> pres (dk i) (group_write_loop E hs o b).
Proof.
  intros hs o b F. revert o; induction F; intros o; cbn [group_write_loop]; dk_tac.
Qed.
Lemma group_read_loop_dk E i : forall hs o b, pres (dk i) (group_read_loop E hs o b).
Proof. induction hs; intros o b; cbn [group_read_loop]; dk_tac. Qed.
#[export] Hint Resolve atomic_op_dk group_write_loop_dk group_read_loop_dk : dk.
Lemma group_add_dk a b c i : pres (dk i) (group_add a b c).
Proof. unfold group_add. dk_tac. Qed.
Lemma group_del_dk a b c i : pres (dk i) (group_del a b c).
Proof. unfold group_del. dk_tac. Qed.
Lemma group_read_dk E m g i : pres (dk i) (group_read E m g).
Proof. unfold group_read. dk_tac. Qed.
#[export] Hint Resolve group_add_dk group_del_dk group_read_dk : dk.
Lemma respond_dk a b c i : pres (dk i) (respond a b c).
Proof. unfold respond. dk_tac. Qed.
#[export] Hint Resolve respond_dk : dk.
Lemma reply_err_dk a b c i : pres (dk i) (reply_err a b c).
Proof. unfold reply_err. dk_tac. Qed.
#[export] Hint Resolve reply_err_dk : dk.
Lemma reply_int_dk a b c i : pres (dk i) (reply_int a b c).
Proof. unfold reply_int. dk_tac. Qed.
Lemma reply_status_dk a b c i : pres (dk i) (reply_status a b c).
Proof. unfold reply_status. dk_tac. Qed.
#[export] Hint Resolve reply_int_dk reply_status_dk : dk.
Lemma h_tag_get_dk E fd r i : pres (dk i) (h_tag_get E fd r).
Proof. unfold h_tag_get. dk_tac. Qed.
Lemma h_cdt_get_dk a b i : pres (dk i) (h_cdt_get a b).
Proof. unfold h_cdt_get. dk_tac. Qed.
Lemma h_cdt_create_dk E a b i : pres (dk i) (h_cdt_create E a b).
Proof. unfold h_cdt_create. dk_tac. Qed.
Lemma h_read_dk E a b c d i : pres (dk i) (h_read E a b c d).
Proof. unfold h_read. dk_tac. Qed.
#[export] Hint Resolve h_tag_get_dk h_cdt_get_dk h_cdt_create_dk h_read_dk : dk.

(** mappings of a tag survive a write to it *)
Lemma tag_write_maps E fd j off d s s' r k : tag_write E fd j off d s = Done (s', r) -> fk t_maps k s s'.
Proof.
  intros H. apply tag_write_cases in H. destruct H; [apply fk_refl|..]; intros t0 Ht0;
    (cbn; rewrite znth_zset; match goal with |- context [if ?c then _ else _] => destruct c eqn:B end; [|eauto];
     assert (j = k) by lia; subst j; eexists; split; [reflexivity|]; assert (t = t0) by congruence; subst; reflexivity).
Qed.
Lemma tag_mask_write_maps E fd j off d m s s' r k : tag_mask_write E fd j off d m s = Done (s', r) -> fk t_maps k s s'.
Proof.
  intros H. apply tag_mask_write_cases in H. destruct H; [apply fk_refl|]; intros t0 Ht0;
    (cbn; rewrite znth_zset; match goal with |- context [if ?c then _ else _] => destruct c eqn:B end; [|eauto];
     assert (j = k) by lia; subst j; eexists; split; [reflexivity|]; assert (t = t0) by congruence; subst; reflexivity).
Qed.
Lemma atomic_op_maps E h o d s s' r k : atomic_op E h o d s = Done (s', r) -> fk t_maps k s s'.
Proof.
  unfold atomic_op. intros H. inv_all; try apply fk_refl. destruct (commit_spec _ _ _ _ _ _ _ _ _ Hm) as (evs & o0 & x & _ & -> & _).
  intros t0 H0. cbn. rewrite znth_zset; match goal with |- context [if ?c then _ else _] => destruct c eqn:B end; [|eauto].
  assert (h_index h = k) by lia; subst k; eexists; split; [reflexivity|]; assert (t = t0) by congruence; subst; reflexivity.
Qed.
Lemma maps_avoid_fk s s' j i : fk t_maps j s s' -> zlen (s_db s') = zlen (s_db s) -> maps_avoid s j i -> maps_avoid s' j i.
Proof.
  intros K L A t l Ht Hl. destruct (znth_some (s_db s) j) as [t0 H0]; [apply znth_range in Ht; lia|].
  destruct (K _ H0) as (t1 & H1 & H2). assert (t1 = t) by congruence. subst. eapply A; [exact H0 | congruence].
Qed.

(** ** the requests that leave tag [i] alone, a tag of a client (the server's own tags have
    the indices below 9): they do not write to it, to a tag mapped to it or to a group with it,
    do not re-add or delete it, and do not end a connection that owns it *)
Definition spares (s : server) (o : op) (i : Z) : Prop :=
  match o with
  | OpWrite _ j _ _ | OpMask _ j _ _ _ => j <> i /\ maps_avoid s j i
  | OpAtomic _ h _ _ => h_index h <> i /\ maps_avoid s (h_index h) i
  | OpGrpWrite fd g _ => forall m gr, find_mod s fd = Some m -> znth (m_groups m) g = Some gr -> Forall (fun h => h_index h <> i) (g_members gr)
  | OpTagAdd _ nm _ _ _ => name_at s i <> Some nm
  | OpTagDel _ j => j <> i
  | OpDisconnect fd => forall m, find_mod s fd = Some m -> ~ (tag_owned s fd i = true \/ i = m_tagidx m)
  | OpRegister fd _ => (forall m, find_mod s fd = Some m -> ~ (tag_owned s fd i = true \/ i = m_tagidx m)) /\
                       (forall n, name_at s i = Some n -> nthb n 0 <> 95)
  | _ => True
  end.
Lemma tag_add_dk E fd nm type count attr i s s' r : Inv s -> 0 <= count < 4294967296 -> 9 <= i ->
  name_at s i <> Some nm -> tag_add E fd nm type count attr s = Done (s', r) -> dk i s s'.
Proof.
  intros I Hc Hi Hn H. apply tag_add_cases in H; [|exact I | lia].
  destruct H as [s' r Hr S1 | n t s0 s' u S1 Ht Hnm Hty Hct How Hsa
    | n t s0 d size s1 s' u v S1 Ht Hnm Hty Hct How Hns Hrg Hsa Htw
    | n t s0 d S1 Ht Hnm Hty Hct Hrg Hns
    | s0 s1 s3 s4 s' ix size u v w x S1 Hno Hck Hvn Hcp Hns Hix Hw1 Hw2 Hsa Hw3];
  destruct (set_dbsize_db _ _ S1) as (Edb & _).
  - apply fk_db; exact Edb.
  - eapply fk_trans; [apply fk_db; exact Edb|]. dks.
  - assert (n <> i) by (intros ->; apply Hn; unfold name_at; rewrite Ht; exact Hnm).
    eapply fk_trans; [apply fk_db; exact Edb|]. dks. eapply fk_others; [apply others_set_tag | assumption].
  - assert (n <> i) by (intros ->; apply Hn; unfold name_at; rewrite Ht; exact Hnm).
    eapply fk_trans; [apply fk_db; exact Edb|]. eapply fk_others; [apply others_set_tag | assumption].
  - eapply fk_trans; [apply fk_db; exact Edb|]. eapply fk_trans with (b := s1); [dks|].
    eapply fk_trans with (b := set_tagcount (set_index (set_db s1 (s_db s1 ++ [new_tag E fd (zlen (s_db s)) nm type count size])) ix) (s_tagcount s1 + 1)); [|dks].
    intros t Ht. exists t. cbn. rewrite znth_app1 by (apply znth_range in Ht; lia). auto.
Qed.
Lemma tag_del_dk E j i s s' r : 9 <= i -> j <> i -> tag_del E j s = Done (s', r) -> dk i s s'.
Proof.
  intros Hi Hj H. apply tag_del_effect in H as [[_ ->]|(_ & _ & _ & _ & K & _)]; [apply fk_refl|].
  intros t Ht. exists t. rewrite K; [auto|congruence|unfold IX_DELETED; lia|unfold IX_TAGCOUNT; lia].
Qed.
Lemma kept_dk s s' i : 9 <= i -> kept s s' i -> dk i s s'.
Proof.
  intros Hi [_ K] t Ht. assert (Q : data_at s' i = data_at s i) by (apply K; unfold status_ix, IX_TAGCOUNT, IX_LASTINDEX, IX_ADDED, IX_DELETED; lia).
  unfold data_at in Q. rewrite Ht in Q. destruct (znth (s_db s') i) as [t'|]; [|discriminate]. exists t'. split; [reflexivity|].
  unfold dbytes. cbn in Q. congruence.
Qed.
Lemma module_unregister_dk E fd i s s' u : Inv s -> 9 <= i ->
  (forall m, find_mod s fd = Some m -> ~ (tag_owned s fd i = true \/ i = m_tagidx m)) ->
  module_unregister E fd s = Done (s', u) -> dk i s s' /\ name_at s' i = name_at s i.
Proof.
  intros I Hi Hn H. destruct (find_mod s fd) as [m|] eqn:F.
  - destruct (module_unregister_effect _ _ _ _ _ _ I F H) as (A & _).
    destruct (A i) as [K|[K _]]; [split; [apply kept_dk | apply kept_name]; assumption | destruct (Hn _ eq_refl K)].
  - unfold module_unregister in H. inv1 H. rewrite F in H. inv_all. split; [apply fk_refl | reflexivity].
Qed.
Lemma module_register_dk E nm fd i s s' u : Inv s -> 9 <= i ->
  (forall m, find_mod s fd = Some m -> ~ (tag_owned s fd i = true \/ i = m_tagidx m)) ->
  (forall n, name_at s i = Some n -> nthb n 0 <> 95) ->
  module_register E nm fd s = Done (s', u) -> dk i s s'.
Proof.
  intros I Hi Hm Hn H. unfold module_register in H. inv1 H. inv1 H. inv1 H. inv1 H.
  assert (G : Inv s0 /\ dk i s s0 /\ name_at s0 i = name_at s i).
  { clear H. destruct (find_mod s fd) as [m|] eqn:F; [|inv_all; split; [exact I|]; split; [apply fk_refl | reflexivity]].
    assert (Fd : m_fd m = fd) by (apply find_some in F; destruct F; lia). rewrite Fd in Hm0.
    split; [eapply module_unregister_good; eassumption|]. eapply module_unregister_dk; try eassumption. rewrite F. exact Hm. }
  destruct G as (I0 & D0 & N0). clear Hm0. eapply fk_trans; [exact D0|]. rewrite <- N0 in Hn. clear D0 N0 Hm I.
  set (s1 := set_nextuid _ _) in H.
  destruct (existsb (fun x => name_eqb x nm) (en_excl E)); [inv_all; apply fk_db; reflexivity|].
  inv1 H. inv1 H. destruct v0 as [tn uuid]. inv1 H. inv1 H. inv1 H.
  destruct (module_tagname_shape _ _ _ _ Hr) as [rest ->].
  assert (I2 : Inv (set_moduuid s1 uuid)) by (destruct I0; constructor; assumption).
  assert (Ne : name_at (set_moduuid s1 uuid) i <> Some (95 :: 109 :: rest)).
  { intros Q. apply (Hn (95 :: 109 :: rest)); [exact Q | reflexivity]. }
  assert (D1 := tag_add_dk E (-1) _ _ 1 0 i _ _ _ I2 ltac:(lia) Hi Ne Hm).
  assert (Ef := tag_add_effect E (-1) _ _ 1 0 _ _ _ I2 ltac:(lia) Hm).
  destruct (v0 <? 0) eqn:Neg; [discriminate|].
  destruct (znth (s_db s0) i) as [t0|] eqn:Z0; [|intros t Ht; congruence].
  assert (Hv : v0 <> i).
  { intros ->. destruct Ef as [(Q & _)|[(_ & (t1 & [Q1 Q2] & _) & _)|(Q & _)]]; [lia | | apply znth_range in Z0; cbn in Q; lia].
    apply Ne. unfold name_at. rewrite Q1. exact Q2. }
  eapply fk_trans with (b := s2); [exact D1|].
  inv1 H. inv1 H. inv1 H. inv1 H. inv1 H. inv1 H. inv_all. clear D1. dks.
Qed.
Lemma bytes_frame E s o s' i : Inv s -> 9 <= i -> spares s o i -> step E s o = Done s' -> dk i s s'.
Proof.
  intros I Hi N H. unfold step in H. destruct (handle_op E o s) as [[s1 u]|] eqn:Q; [|discriminate]. injection H as <-.
  eapply fk_trans with (b := s1); [|apply fk_db; reflexivity].
  destruct o; cbn [handle_op spares] in *; try solve [clear N; inv_all; dks].
  - inv1 Q. inv1 Q. inv1 Q. destruct N as [N1 N2].
    eapply fk_trans with (b := s0); [eapply module_register_dk; eassumption|]. inv_all; dks.
  - apply (module_unregister_dk E fd i s s1 u I Hi N Q).
  - inv1 Q. eapply fk_trans with (b := s0); [|dks]. destruct (nthb nm 0 =? 95); [inv_all; apply fk_refl|].
    eapply tag_add_dk; [exact I | | exact Hi | exact N | exact Hm]. unfold u32. apply Z.mod_pos_bound; lia.
  - unfold h_tag_del in Q. inv1 Q. inv1 Q. inv1 Q. eapply fk_trans with (b := s0); [|inv1 Q; dks].
    destruct v as [[[[[a b] c] d] nm]|e]; [|inv_all; apply fk_refl]. destruct (nthb nm 0 =? 95); [inv_all; apply fk_refl|].
    eapply tag_del_dk; try eassumption.
  - unfold h_write in Q. inv1 Q. inv1 Q. inv1 Q. destruct N as [Hj A].
    destruct (has v A_READONLY && negb (tag_owned s fd idx)).
    + inv1 Hm. cbn [negb Z.eqb E_READONLY] in Q. dks.
    + destruct (negb (v0 =? 0)).
      * dks.
      * inv1 Q. eapply fk_trans with (b := s0); [dks|]. eapply fk_trans with (b := s2); [|dks].
        eapply map_check_dk; [|exact Hm0].
        eapply maps_avoid_fk; [eapply tag_write_maps; exact Hm | apply (sh_len _ _ (tag_write_shape _ _ _ _ _ _ _ _ Hm)) | exact A].
  - unfold h_mask in Q. inv1 Q. inv1 Q. inv1 Q. destruct N as [Hj A].
    destruct (has v A_READONLY).
    + inv1 Hm. cbn [negb Z.eqb E_READONLY] in Q. dks.
    + destruct (negb (v0 =? 0)).
      * dks.
      * inv1 Q. eapply fk_trans with (b := s0); [dks|]. eapply fk_trans with (b := s2); [|dks].
        eapply map_check_dk; [|exact Hm0].
        eapply maps_avoid_fk; [eapply tag_mask_write_maps; exact Hm | apply (sh_len _ _ (tag_mask_write_shape _ _ _ _ _ _ _ _ _ Hm)) | exact A].
  - unfold with_mod in Q. inv1 Q. inv1 Q; [inv1 Q; inv_all; dks | discriminate].
  - unfold with_mod in Q. inv1 Q. inv1 Q; [inv1 Q; inv_all; dks | discriminate].
  - unfold with_mod in Q. inv1 Q. inv1 Q; [inv1 Q; inv_all; dks | discriminate].
  - unfold with_mod in Q. inv1 Q. destruct (find_mod s fd) as [m|] eqn:F; [|discriminate]. inv1 Q. eapply fk_trans with (b := s0); [|dks]. clear Q. unfold group_write in Hm.
    destruct (znth (m_groups m) i0) as [gr|] eqn:Z; [|discriminate]. destruct (g_live gr); [|inv_all; apply fk_refl]. inv1 Hm.
    eapply group_write_loop_dk; [eapply N; eauto | exact Hm].
  - unfold h_atomic in Q. inv1 Q. inv1 Q. inv1 Q. destruct N as [Hj A].
    destruct (has v A_READONLY && negb (tag_owned s fd (h_index h))).
    + inv1 Hm. cbn [Z.ltb Z.compare E_READONLY] in Q. dks.
    + destruct (v0 <? 0).
      * dks.
      * inv1 Q. eapply fk_trans with (b := s0); [dks|]. eapply fk_trans with (b := s2); [|dks].
        eapply map_check_dk; [|exact Hm0].
        eapply maps_avoid_fk; [eapply atomic_op_maps; exact Hm | apply (sh_len _ _ (atomic_op_shape _ _ _ _ _ _ _ Hm)) | exact A].
Qed.
(** ** the same for the identity of the tag *)
Notation ck := (fk tcore).
Lemma fk_core_at s s' i : core_at s' i = core_at s i -> ck i s s'.
Proof.
  intros H t Ht. unfold core_at in H. rewrite Ht in H. destruct (znth (s_db s') i) as [t'|]; [|discriminate]. exists t'. cbn in H. split; [reflexivity | congruence].
Qed.
Lemma tag_add_ck E fd nm type count attr i s s' r : Inv s -> 0 <= count < 4294967296 -> 9 <= i ->
  name_at s i <> Some nm -> tag_add E fd nm type count attr s = Done (s', r) -> ck i s s' /\ (r = i -> znth (s_db s) i = None).
Proof.
  intros I Hc Hi Hn H. apply tag_add_effect in H; [|exact I | exact Hc].
  assert (St : ~ status_ix i) by (unfold status_ix, IX_TAGCOUNT, IX_LASTINDEX, IX_ADDED, IX_DELETED; lia).
  destruct H as [(L & H & _)|[(_ & (t & [N1 N2] & _) & _ & _ & H)|(-> & _ & _ & _ & _ & H)]].
  - split; [apply fk_core_at, H|]. intros ->. lia.
  - assert (i <> r) by (intros ->; apply Hn; unfold name_at; rewrite N1; exact N2).
    split; [intros t0 Z9; exists t0; rewrite H by assumption; auto | congruence].
  - split.
    + intros t0 H0. exists t0. assert (R := znth_range _ _ _ H0). rewrite H by (try assumption; lia). auto.
    + intros <-. apply znth_none. lia.
Qed.
Lemma module_register_ck E nm fd i s s' u : Inv s -> 9 <= i ->
  (forall m, find_mod s fd = Some m -> ~ (tag_owned s fd i = true \/ i = m_tagidx m)) ->
  (forall n, name_at s i = Some n -> nthb n 0 <> 95) ->
  module_register E nm fd s = Done (s', u) -> ck i s s'.
Proof.
  intros I Hi Hm Hn H. unfold module_register in H. inv1 H. inv1 H. inv1 H. inv1 H.
  assert (G : Inv s0 /\ ck i s s0).
  { clear H. destruct (find_mod s fd) as [m|] eqn:F; [|inv_all; split; [exact I|apply fk_refl]].
    assert (Fd : m_fd m = fd) by (apply find_some in F; destruct F; lia). rewrite Fd in Hm0.
    split; [eapply module_unregister_good; eassumption|].
    destruct (module_unregister_effect _ _ _ _ _ _ I F Hm0) as (A & _).
    destruct (A i) as [[K _]|[K _]]; [apply fk_core_at, K | destruct (Hm _ eq_refl K)]. }
  destruct G as (I0 & D0). clear Hm0.
  destruct (znth (s_db s) i) as [t0|] eqn:Z0; [|intros t Ht; congruence]. destruct (D0 _ Z0) as (t1 & Z1 & Q1).
  assert (N0 : forall n, name_at s0 i = Some n -> nthb n 0 <> 95).
  { intros n Hn0. apply Hn. unfold name_at in *. rewrite Z0. rewrite Z1 in Hn0. rewrite <- Hn0. unfold tcore in Q1. congruence. }
  eapply fk_trans; [exact D0|]. clear D0 Hm Hn I Q1 Z0.
  set (s1 := set_nextuid _ _) in H.
  destruct (existsb (fun x => name_eqb x nm) (en_excl E)); [inv_all; apply fk_db; reflexivity|].
  inv1 H. inv1 H. destruct v0 as [tn uuid]. inv1 H. inv1 H. inv1 H.
  destruct (module_tagname_shape _ _ _ _ Hr) as [rest ->].
  assert (I2 : Inv (set_moduuid s1 uuid)) by (destruct I0; constructor; assumption).
  assert (Ne : name_at (set_moduuid s1 uuid) i <> Some (95 :: 109 :: rest)).
  { intros Q. apply (N0 (95 :: 109 :: rest)); [exact Q | reflexivity]. }
  destruct (tag_add_ck E (-1) _ _ 1 0 i _ _ _ I2 ltac:(lia) Hi Ne Hm) as [D1 D2].
  destruct (v0 <? 0) eqn:Neg; [discriminate|].
  assert (Hv : v0 <> i) by (intros ->; specialize (D2 eq_refl); cbn in D2; congruence).
  eapply fk_trans with (b := s2); [exact D1|].
  inv1 H. inv1 H. inv1 H. inv1 H. inv1 H. inv1 H. inv_all. clear D1 D2.
  assert (Sh1 := tag_write_shape _ _ _ _ _ _ _ _ Hm0). assert (Sh2 := tag_write_shape _ _ _ _ _ _ _ _ Hm1). assert (Sh3 := tag_write_shape _ _ _ _ _ _ _ _ Hm2).
  eapply fk_trans; [|apply (fk_shape tcore _ _ _ tag_shape_core Sh3)].
  eapply fk_trans; [|eapply fk_others; [apply others_set_tag | exact Hv]].
  eapply fk_trans; [|apply (fk_shape tcore _ _ _ tag_shape_core Sh2)].
  eapply fk_trans; [|apply (fk_shape tcore _ _ _ tag_shape_core Sh1)]. apply fk_db; reflexivity.
Qed.
Lemma core_frame E s o s' i : Inv s -> 9 <= i -> spares s o i -> step E s o = Done s' -> ck i s s'.
Proof.
  intros I Hi N H. unfold step in H. destruct (handle_op E o s) as [[s1 u]|] eqn:Q; [|discriminate]. injection H as <-.
  eapply fk_trans with (b := s1); [|apply fk_db; reflexivity].
  destruct (shape_op o) eqn:S; [apply fk_shape; [apply tag_shape_core | eapply handle_op_shape; eassumption]|].
  destruct o; try discriminate; cbn [handle_op spares] in *.
  - inv1 Q. inv1 Q. inv1 Q. destruct N as [N1 N2].
    eapply fk_trans with (b := s0); [eapply module_register_ck; eassumption|].
    apply fk_shape; [apply tag_shape_core|]. eapply shape_trans; [eapply tag_read_shape; eassumption | eapply respond_shape; exact Q].
  - destruct (find_mod s fd) as [m|] eqn:F.
    + destruct (module_unregister_effect _ _ _ _ _ _ I F Q) as (A & _).
      destruct (A i) as [[K _]|[K _]]; [apply fk_core_at, K | destruct (N _ eq_refl K)].
    + unfold module_unregister in Q. inv1 Q. rewrite F in Q. inv_all. apply fk_refl.
  - inv1 Q. eapply fk_trans with (b := s0); [|apply fk_shape; [apply tag_shape_core | eapply reply_int_shape; exact Q]].
    destruct (nthb nm 0 =? 95); [inv_all; apply fk_refl|].
    eapply tag_add_ck; [exact I | | exact Hi | exact N | exact Hm]. unfold u32. apply Z.mod_pos_bound; lia.
  - unfold h_tag_del in Q. inv1 Q. inv1 Q. inv1 Q. eapply fk_trans with (b := s0).
    + destruct v as [[[[[a b] c] d] nm]|e]; [|inv_all; apply fk_refl]. destruct (nthb nm 0 =? 95); [inv_all; apply fk_refl|].
      destruct (tag_del_kept _ _ _ _ _ Hm) as [K _]. apply fk_core_at, K. congruence.
    + apply fk_shape; [apply tag_shape_core|]. destruct (v0 =? 0); [eapply respond_shape | eapply reply_err_shape]; exact Q.
  - unfold h_cdt_create in Q. inv1 Q. inv1 Q. destruct v as [[ts ty] err]. inv1 Q. cbv zeta in Q.
    eapply fk_trans with (b := set_types s ts); [apply fk_db; reflexivity|].
    apply fk_shape; [apply tag_shape_core|]. destruct (_ <? 0); [eapply reply_err_shape | eapply respond_shape]; exact Q.
  - inv_all. apply fk_db; reflexivity.
Qed.
