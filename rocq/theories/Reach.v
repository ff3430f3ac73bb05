(** * Reach: every reachable state satisfies the invariant; what never changes *)
From Verif Require Import Base Const Types State Events Atomic Server Lib SearchProofs Shape Inv.

Lemma wshape_trans a b c : wshape a b -> wshape b c -> wshape a c.
Proof.
  intros H1 H2. destruct H1, H2. constructor; try congruence.
  - destruct w_types as [x E1], w_types0 as [y E2]. exists (x ++ y). rewrite E2, E1, app_assoc. reflexivity.
  - intros i t H. destruct (w_tags _ _ H) as [t1 [K1 T1]]. destruct (w_tags0 _ _ K1) as [t2 [K2 T2]].
    exists t2. split; [assumption|]. destruct T1 as [A1 A2 A3 A4 A5], T2 as [B1 B2 B3 B4 B5]. constructor; try congruence.
    + eapply data_shape_trans; eassumption.
    + intros D A. apply B5; [|auto]. rewrite D in A4. destruct (t_data t1); cbn in A4; tauto.
Qed.

Lemma tag_del_Inv E idx s s' r : Inv s -> tag_del E idx s = Done (s', r) -> Inv s'.
Proof.
  intros I H. apply tag_del_cases in H.
  destruct H as [r Hr | t nm o ix s1 s3 s' t1 v u Ht Hn Hd Ho Hix Hs1 Hw Ht1 Hw2]; [exact I|].
  assert (Sh := tag_write_shape _ _ _ _ _ _ _ _ Hw).
  (* s3 with the old index is shape-related to s *)
  assert (W : wshape s (set_index s3 (s_index s))).
  { assert (W1 : wshape s (set_tag (set_out s (s_out s ++ o)) idx (set_maps (set_events t []) (Some [])))).
    { eapply wshape_trans; [|eapply wshape_set_tag; [cbn; exact Ht |]].
      - apply wshape_same; try reflexivity. exists []; rewrite app_nil_r; reflexivity.
      - constructor; cbn; auto using data_shape_refl. }
    eapply wshape_trans; [exact W1|]. apply shape_wshape in Sh. subst s1. destruct Sh. constructor; cbn in *; auto. }
  assert (I3 := Inv_wshape _ _ I W).
  destruct (w_tags _ _ W _ _ Ht) as [t1' [Ht1' T1]]. cbn in Ht1'. assert (t1' = t1) by congruence. subst t1'.
  eapply Inv_shape; [|eapply sys_write_shape; exact Hw2].
  assert (Q := Inv_drop (set_index s3 (s_index s)) idx t1 nm ix (dead_tag t1) I3 Ht1).
  replace (set_tagcount (set_tag s3 idx (dead_tag t1)) (s_tagcount s3 - 1)) with
    (set_tagcount (set_index (set_tag (set_index s3 (s_index s)) idx (dead_tag t1)) ix)
       (s_tagcount (set_index s3 (s_index s)) - 1)).
  - apply Q; try exact Hix; [rewrite (wt_name _ _ T1); exact Hn| |reflexivity].
    assert (T := iv_tags _ I3 _ _ Ht1). destruct T. unfold dead_tag. constructor; cbn; try assumption; try discriminate.
    + tauto.
    + intros _. repeat split.
  - assert (Ei : s_index s3 = ix) by (rewrite (sh_index _ _ Sh), Hs1; reflexivity).
    destruct s3; cbn in *. subst. reflexivity.
Qed.

(** ** What only grows *)
Definition mtag (t t' : tag) : Prop :=
  t_type t' = t_type t /\ (t_name t' = t_name t \/ t_name t' = None).
Record mono (s s' : server) : Prop := mk_mono {
  mo_types : exists x, s_types s' = s_types s ++ x;
  mo_out : exists o, s_out s' = s_out s ++ o;
  mo_len : zlen (s_db s) <= zlen (s_db s');
  mo_tags : forall i t, znth (s_db s) i = Some t -> exists t', znth (s_db s') i = Some t' /\ mtag t t' }.
Lemma mtag_refl t : mtag t t.
Proof. unfold mtag; auto. Qed.
Lemma nil_refl {A} (l : list A) : exists x, l = l ++ x.
Proof. exists []. rewrite app_nil_r. reflexivity. Qed.
Lemma mono_refl s : mono s s.
Proof. constructor; try apply nil_refl; [lia|]. intros i t H; exists t; split; [assumption | apply mtag_refl]. Qed.
Lemma mono_trans a b c : mono a b -> mono b c -> mono a c.
Proof.
  intros H1 H2. destruct H1, H2. constructor; [| |lia|].
  - destruct mo_types0 as [x E1], mo_types1 as [y E2]. exists (x ++ y). rewrite E2, E1, app_assoc. reflexivity.
  - destruct mo_out0 as [x E1], mo_out1 as [y E2]. exists (x ++ y). rewrite E2, E1, app_assoc. reflexivity.
  - intros i t H. destruct (mo_tags0 _ _ H) as [t1 [K1 T1]]. destruct (mo_tags1 _ _ K1) as [t2 [K2 T2]].
    exists t2. split; [assumption|]. unfold mtag in *. intuition congruence.
Qed.
Lemma shape_mono s s' : shape s s' -> mono s s'.
Proof.
  intros []. constructor; [rewrite sh_types; apply nil_refl | assumption | lia |].
  intros i t H. destruct (sh_tags _ _ H) as [t' [H1 []]]. exists t'. unfold mtag. auto.
Qed.
Lemma mono_same s s' : s_db s' = s_db s -> s_types s' = s_types s -> s_out s' = s_out s -> mono s s'.
Proof.
  intros H1 H2 H3. constructor; rewrite ?H1, ?H2, ?H3; try apply nil_refl; [lia|].
  intros i t H; exists t; split; [assumption | apply mtag_refl].
Qed.
Lemma mono_set_tag s i t t' : znth (s_db s) i = Some t -> mtag t t' -> mono s (set_tag s i t').
Proof.
  intros H HT. constructor; cbn; try apply nil_refl.
  - rewrite zset_zlen; lia.
  - intros j u Hj. rewrite znth_zset. destruct ((i =? j) && (0 <=? i) && (i <? zlen (s_db s))) eqn:E.
    + assert (j = i) by lia. subst j. rewrite H in Hj. injection Hj as <-. eauto.
    + exists u. split; [assumption | apply mtag_refl].
Qed.
Lemma mono_push s t : mono s (set_db s (s_db s ++ [t])).
Proof.
  constructor; cbn; try apply nil_refl; [apply zlen_app_le|].
  intros i u H. exists u. rewrite znth_app1 by (apply znth_range in H; lia). split; [assumption | apply mtag_refl].
Qed.
Lemma mono_types_app s x : mono s (set_types s (s_types s ++ x)).
Proof.
  constructor; cbn; try apply nil_refl; [eexists; reflexivity | lia |].
  intros i t H; exists t; split; [assumption | apply mtag_refl].
Qed.
Lemma mono_db s0 s : (s0 = s \/ exists z, s0 = set_dbsize s z) -> mono s s0.
Proof. intros S1. destruct (set_dbsize_db _ _ S1) as (Edb & Eix & Ety & Est & Etc & Eo & _). apply mono_same; auto. Qed.
Lemma set_attribute_mono E idx attr : pres mono (set_attribute E idx attr).
Proof.
  intros s s' a H. destruct (set_attribute_spec _ _ _ _ _ _ H) as (t & r & f & x & H1 & H2 & ->).
  eapply mono_trans; [eapply mono_set_tag; [exact H1|] | apply mono_same; reflexivity].
  unfold mtag; cbn; auto.
Qed.
Lemma tag_add_mono E fd nm type count attr s s' r : Inv s -> 0 <= count ->
  tag_add E fd nm type count attr s = Done (s', r) -> mono s s'.
Proof.
  intros I Hc H. apply tag_add_cases in H; [|exact I | lia].
  destruct H as [s' r Hr S1 | n t s0 s' u S1 Ht Hn Hty Hct How Hsa
    | n t s0 d size s1 s' u v S1 Ht Hn Hty Hct How Hns Hrg Hsa Htw
    | n t s0 d S1 Ht Hn Hty Hct Hrg Hns
    | s0 s1 s3 s4 s' ix size u v w x S1 Hno Hck Hvn Hcp Hns Hix Hw1 Hw2 Hsa Hw3].
  - apply mono_db; assumption.
  - eapply mono_trans; [apply mono_db; exact S1 | eapply set_attribute_mono; exact Hsa].
  - destruct (set_dbsize_db _ _ S1) as (Edb & _). rewrite <- Edb in Ht.
    eapply mono_trans; [apply mono_db; exact S1|].
    eapply mono_trans; [eapply mono_set_tag; [exact Ht | shelve]|].
    eapply mono_trans; [eapply set_attribute_mono; exact Hsa|].
    apply shape_mono. eapply tag_write_shape; exact Htw.
    Unshelve. unfold mtag; cbn; auto.
  - destruct (set_dbsize_db _ _ S1) as (Edb & _). rewrite <- Edb in Ht.
    eapply mono_trans; [apply mono_db; exact S1|].
    eapply mono_set_tag; [exact Ht|]. unfold mtag; cbn; auto.
  - eapply mono_trans; [apply mono_db; exact S1|].
    eapply mono_trans; [apply shape_mono; eapply sys_write_shape; exact Hw1|].
    eapply mono_trans; [apply mono_push|].
    eapply mono_trans; [|eapply mono_trans; [apply shape_mono; eapply sys_write_shape; exact Hw2|]].
    + apply mono_same; reflexivity.
    + eapply mono_trans; [eapply set_attribute_mono; exact Hsa|]. apply shape_mono; eapply tag_write_shape; exact Hw3.
Qed.
Lemma tag_del_mono E idx : pres mono (tag_del E idx).
Proof.
  intros s s' r H. apply tag_del_cases in H.
  destruct H as [r Hr | t nm o ix s1 s3 s' t1 v u Ht Hn Hd Ho Hix Hs1 Hw Ht1 Hw2]; [apply mono_refl|].
  assert (M1 : mono s s1).
  { eapply mono_trans; [apply shape_mono; apply (shape_out s o)|].
    eapply mono_trans; [eapply mono_set_tag; [cbn; exact Ht|]| subst s1; apply mono_same; reflexivity].
    unfold mtag; cbn; auto. }
  eapply mono_trans; [exact M1|].
  eapply mono_trans; [apply shape_mono; eapply tag_write_shape; exact Hw|].
  eapply mono_trans; [eapply mono_set_tag; [exact Ht1|]|].
  - instantiate (1 := dead_tag t1). unfold mtag; cbn; auto.
  - eapply mono_trans; [|apply shape_mono; eapply sys_write_shape; exact Hw2]. apply mono_same; reflexivity.
Qed.

(** ** Both together *)
Definition good (s s' : server) : Prop := Inv s -> Inv s' /\ mono s s'.
Lemma good_refl s : good s s.
Proof. intros I; split; [exact I | apply mono_refl]. Qed.
Lemma good_trans a b c : good a b -> good b c -> good a c.
Proof. unfold good. intros H1 H2 I. destruct (H1 I) as [I1 M1]. destruct (H2 I1) as [I2 M2]. split; [exact I2 | eapply mono_trans; eassumption]. Qed.
Lemma shape_good s s' : shape s s' -> good s s'.
Proof. intros S I. split; [eapply Inv_shape; eassumption | apply shape_mono; assumption]. Qed.
Lemma tag_add_good E fd nm type count attr : 0 <= count < 4294967296 -> pres good (tag_add E fd nm type count attr).
Proof. intros Hc s s' r H I. split; [eapply tag_add_Inv; eassumption | eapply tag_add_mono; try eassumption; lia]. Qed.
Lemma tag_del_good E idx : pres good (tag_del E idx).
Proof. intros s s' r H I. split; [eapply tag_del_Inv; eassumption | eapply tag_del_mono; eassumption]. Qed.
Lemma good_same s s' : s_db s' = s_db s -> s_index s' = s_index s -> s_tagcount s' = s_tagcount s ->
  s_types s' = s_types s -> s_out s' = s_out s -> good s s'.
Proof.
  intros H1 H2 H3 H4 H5 I. split; [|apply mono_same; assumption].
  eapply Inv_wshape; [exact I|]. apply wshape_same; auto. rewrite H4. apply nil_refl.
Qed.
Lemma pres_shape_good {A} (m : SM A) : pres shape m -> pres good m.
Proof. intros H s s' a E. apply shape_good. eapply H; exact E. Qed.
Lemma del_owned_loop_good E fd k n : pres good (del_owned_loop E fd k n).
Proof.
  revert n; induction k as [|k IH]; intros n s s' a H; cbn [del_owned_loop] in H; inv_all; [apply good_refl|].
  eapply good_trans; [|eapply IH; eassumption]. unfold del_owned in Hm. inv_all; [|apply good_refl].
  eapply tag_del_good; eassumption.
Qed.
Lemma module_unregister_good E fd : pres good (module_unregister E fd).
Proof.
  intros s s' a H. unfold module_unregister in H. inv_all; [|apply good_refl].
  eapply good_trans; [apply shape_good; eapply cleanup_loop_shape; eassumption|].
  eapply good_trans; [eapply del_owned_loop_good; eassumption|].
  eapply good_trans; [eapply tag_del_good; eassumption|]. apply good_same; reflexivity.
Qed.

(** a non-negative result of tag_add is the index of the live tag of that name *)
Lemma tag_add_post E fd nm type count attr s s' r : Inv s -> 0 <= count < 4294967296 ->
  tag_add E fd nm type count attr s = Done (s', r) -> 0 <= r ->
  exists t, znth (s_db s') r = Some t /\ t_name t = Some nm /\ t_type t = type /\ count <= t_count t.
Proof.
  intros I Hc H Hr. apply tag_add_cases in H; [|exact I | lia].
  destruct H as [s' r Hr' S1 | n t s0 s' u S1 Ht Hn Hty Hct How Hsa
    | n t s0 d size s1 s' u v S1 Ht Hn Hty Hct How Hns Hrg Hsa Htw
    | n t s0 d S1 Ht Hn Hty Hct Hrg Hns
    | s0 s1 s3 s4 s' ix size u v w x S1 Hno Hck Hvn Hcp Hns Hix Hw1 Hw2 Hsa Hw3].
  - lia.
  - destruct (set_dbsize_db _ _ S1) as (Edb & _). rewrite <- Edb in Ht.
    destruct (set_attribute_spec _ _ _ _ _ _ Hsa) as (t0 & r & f & x & H1 & H2 & ->).
    assert (t0 = t) by congruence. subst t0. cbn. rewrite znth_zset_eq by (eapply znth_range; exact Ht).
    eexists; split; [reflexivity|]. cbn. auto.
  - destruct (set_dbsize_db _ _ S1) as (Edb & _). rewrite <- Edb in Ht.
    destruct (set_attribute_spec _ _ _ _ _ _ Hsa) as (t0 & r & f & x & H1 & H2 & ->).
    cbn in H1. rewrite znth_zset_eq in H1 by (eapply znth_range; exact Ht). injection H1 as <-.
    assert (Sh := tag_write_shape _ _ _ _ _ _ _ _ Htw).
    assert (R := znth_range _ _ _ Ht).
    match type of Htw with tag_write _ _ _ _ _ ?st = _ => assert (Z2 : exists t2, znth (s_db st) n = Some t2 /\
      t_name t2 = Some nm /\ t_type t2 = type /\ count <= t_count t2) end.
    { cbn. rewrite znth_zset_eq by (rewrite zset_zlen; lia). eexists; split; [reflexivity|]. cbn. split; [assumption|]. split; [assumption|lia]. }
    destruct Z2 as [t2 (Z2 & N2 & Y2 & C2)]. destruct (shape_tag _ _ _ _ Sh Z2) as [t3 [Z3 []]].
    exists t3. split; [exact Z3|]. repeat split; congruence || lia.
  - exfalso. unfold E_ALLOC in Hr. lia.
  - destruct (set_dbsize_db _ _ S1) as (Edb & Eix & Ety & Est & Etc & _).
    assert (Sh1 := sys_write_shape _ _ _ _ _ _ Hw1).
    assert (Sh2 := sys_write_shape _ _ _ _ _ _ Hw2).
    assert (Sh3 := tag_write_shape _ _ _ _ _ _ _ _ Hw3).
    set (s2 := set_tagcount _ _) in *.
    assert (Z2 : znth (s_db s2) (zlen (s_db s)) = Some (new_tag E fd (zlen (s_db s)) nm type count size)).
    { unfold s2. cbn. rewrite <- Edb. rewrite <- (sh_len _ _ Sh1). apply znth_last. }
    destruct (shape_tag _ _ _ _ Sh2 Z2) as [t3 [Z3 T3]].
    destruct (set_attribute_spec _ _ _ _ _ _ Hsa) as (t0 & r & f & y & H1 & H2 & ->).
    assert (t0 = t3) by congruence. subst t0.
    assert (R := znth_range _ _ _ Z3).
    match type of Hw3 with tag_write _ _ _ _ _ ?st = _ => assert (Z4 : exists t2, znth (s_db st) (zlen (s_db s)) = Some t2 /\
      t_name t2 = Some nm /\ t_type t2 = type /\ count <= t_count t2) end.
    { cbn. rewrite znth_zset_eq by lia. eexists; split; [reflexivity|]. cbn. destruct T3. cbn in *.
      repeat split; congruence || lia. }
    destruct Z4 as [t4 (Z4 & N4 & Y4 & C4)]. destruct (shape_tag _ _ _ _ Sh3 Z4) as [t5 [Z5 []]].
    exists t5. split; [exact Z5|]. repeat split; congruence || lia.
Qed.

Lemma live_set_attr_good s r t n a : znth (s_db s) r = Some t -> t_name t = Some n -> good s (set_tag s r (set_attr t a)).
Proof.
  intros Ht Hn I. split.
  - eapply Inv_wshape; [exact I|]. eapply wshape_set_tag; [exact Ht|]. constructor; cbn; auto using data_shape_refl.
    intros D. exfalso. eapply dead_not_named; [eapply iv_tags; eassumption | exact Hn | exact D].
  - eapply mono_set_tag; [exact Ht|]. unfold mtag; cbn; auto.
Qed.
Lemma cdt_good E fd def : pres good (h_cdt_create E fd def).
Proof.
  intros s s' a H. unfold h_cdt_create in H. inv1 H. inv1 H. destruct v as [[ts ty] err].
  inv1 H. apply cdt_create_grows in Hr as [x ->].
  eapply good_trans.
  - intros I. split; [|apply mono_types_app]. eapply Inv_wshape; [exact I|]. apply wshape_same; try reflexivity.
    cbn. eexists; reflexivity.
  - apply shape_good. inv_all; [eapply reply_err_shape | eapply respond_shape]; eassumption.
Qed.
Lemma make_type_good def : pres good (make_type def).
Proof.
  intros s s' a H. unfold make_type in H. inv1 H. inv1 H. destruct v as [[ts ty] err].
  apply cdt_create_grows in Hr as [x ->]. inv_all.
  intros I. split; [|apply mono_types_app]. eapply Inv_wshape; [exact I|]. apply wshape_same; try reflexivity.
  cbn. eexists; reflexivity.
Qed.

Lemma module_register_good E nm fd : pres good (module_register E nm fd).
Proof.
  intros s s' a H. unfold module_register in H. inv1 H. inv1 H. inv1 H. inv1 H.
  assert (G1 : good s s0).
  { destruct (find_mod s fd); [|inv_all; apply good_refl]. eapply module_unregister_good; exact Hm. }
  eapply good_trans; [exact G1|]. clear G1 Hm.
  set (s1 := set_nextuid _ _) in H.
  eapply good_trans with (b := s1); [apply good_same; reflexivity|].
  destruct (existsb (fun x => name_eqb x nm) (en_excl E)); [inv_all; apply good_refl|].
  inv1 H. inv1 H. destruct v0 as [tn uuid]. inv1 H. inv1 H. inv1 H.
  eapply good_trans with (b := set_moduuid s1 uuid); [apply good_same; reflexivity|].
  intros I2. assert (G3 := tag_add_good E (-1) tn _ 1 0 ltac:(lia) _ _ _ Hm I2). destruct G3 as [I3 M3].
  destruct (v0 <? 0) eqn:Neg; [discriminate|].
  assert (Hv0 : 0 <= v0) by lia.
  destruct (tag_add_post E (-1) tn _ 1 0 _ _ _ I2 ltac:(lia) Hm Hv0) as (t3 & Z3 & N3 & _ & _).
  enough (good s2 s') as G by (destruct (G I3) as [I4 M4]; split; [exact I4 | eapply mono_trans; eassumption]).
  inv1 H. inv1 H. inv1 H. inv1 H. inv1 H. inv1 H.
  eapply good_trans with (b := upd_mod (s_nextuid s0) (fun m => set_tagidx m v0) s2); [apply good_same; reflexivity|].
  assert (Sh1 := tag_write_shape _ _ _ _ _ _ _ _ Hm0). assert (Sh2 := tag_write_shape _ _ _ _ _ _ _ _ Hm1).
  eapply good_trans; [apply shape_good; exact Sh1|]. eapply good_trans; [apply shape_good; exact Sh2|].
  assert (Z3' : znth (s_db (upd_mod (s_nextuid s0) (fun m => set_tagidx m v0) s2)) v0 = Some t3) by exact Z3.
  destruct (shape_tag _ _ _ _ Sh1 Z3') as [t4 [Z4 T4]]. destruct (shape_tag _ _ _ _ Sh2 Z4) as [t5 [Z5 T5]].
  assert (t5 = t) by congruence. subst t5.
  eapply good_trans; [eapply live_set_attr_good; [exact Z5|]|].
  - rewrite (ts_name _ _ T5), (ts_name _ _ T4). exact N3.
  - inv_all. apply shape_good. eapply tag_write_shape; eassumption.
Qed.

Lemma handle_op_good E o : pres good (handle_op E o).
Proof.
  destruct (shape_op o) eqn:S; [apply pres_shape_good, handle_op_shape, S|].
  destruct o; try discriminate S; clear S; cbn [handle_op]; intros s s' a H.
  - inv1 H. inv1 H. inv1 H. eapply good_trans; [eapply module_register_good; exact Hm|].
    eapply good_trans; [apply shape_good; eapply tag_read_shape; exact Hm0|].
    apply shape_good. eapply respond_shape. exact H.
  - eapply module_unregister_good; exact H.
  - inv1 H. eapply good_trans; [|apply shape_good; eapply reply_int_shape; exact H].
    destruct (nthb nm 0 =? 95); [inv_all; apply good_refl|]. eapply tag_add_good; [|exact Hm].
    unfold u32. apply Z.mod_pos_bound. lia.
  - unfold h_tag_del in H. inv1 H. inv1 H. inv1 H.
    eapply good_trans with (b := s0).
    + destruct v as [[[[[? ?] ?] ?] nm]|]; [|inv_all; apply good_refl].
      destruct (nthb nm 0 =? 95); [inv_all; apply good_refl|]. eapply tag_del_good; exact Hm.
    + apply shape_good. inv1 H; [eapply respond_shape | eapply reply_err_shape]; exact H.
  - eapply cdt_good; exact H.
  - inv_all. apply good_same; reflexivity.
Qed.
Lemma step_good E s o s' : step E s o = Done s' -> good s s'.
Proof.
  unfold step. destruct (handle_op E o s) as [[s1 u]|] eqn:H; [|discriminate].
  intros K; injection K as <-. eapply good_trans; [eapply handle_op_good; exact H | apply good_same; reflexivity].
Qed.
Lemma exec_good E s os s' : exec E s os = Done s' -> good s s'.
Proof.
  revert s; induction os as [|o os IH]; intros s H; cbn in H; [injection H as <-; apply good_refl|].
  apply rbind_done in H as [s1 [H1 H2]]. eapply good_trans; [eapply step_good; exact H1 | apply IH; exact H2].
Qed.

(** ** start-up *)
Lemma Inv_empty now r : Inv (empty_server now r).
Proof.
  constructor; cbn.
  - intros i j a b _ H. apply znth_range in H. unfold zlen in H; cbn in H; lia.
  - intros n i. split; [tauto|]. intros [t [H _]]. apply znth_range in H. unfold zlen in H; cbn in H; lia.
  - reflexivity.
  - intros i t H. apply znth_range in H. unfold zlen in H; cbn in H; lia.
Qed.
Lemma add_sys_good E nm ty c : 0 < c < 4294967296 -> pres good (add_sys E nm ty c).
Proof.
  intros Hc s s' a H I. unfold add_sys in H. inv1 H. inv1 H. inv_all.
  assert (Hc' : 0 <= c < 4294967296) by lia. destruct (tag_add_good _ _ _ _ _ _ Hc' _ _ _ Hm I) as [I1 M1].
  assert (0 <= v) by (apply znth_range in Ht; lia).
  destruct (tag_add_post _ _ _ _ _ _ _ _ _ I Hc' Hm H) as (t1 & Z1 & N1 & _).
  assert (t1 = t) by congruence. subst t1.
  destruct (live_set_attr_good _ _ _ _ A_READONLY Ht N1 I1) as [I2 M2]. split; [exact I2 | eapply mono_trans; eassumption].
Qed.
Lemma add_virtual_good E nm ty c d : 0 < c < 4294967296 -> d = DTime \/ d = DMyName -> pres good (add_virtual E nm ty c d).
Proof.
  intros Hc Hd s s' a H I. unfold add_virtual in H. inv1 H. inv1 H. inv_all.
  assert (Hc' : 0 <= c < 4294967296) by lia. destruct (tag_add_good _ _ _ _ _ _ Hc' _ _ _ Hm I) as [I1 M1].
  assert (0 <= v) by (apply znth_range in Ht; lia).
  destruct (tag_add_post _ _ _ _ _ _ _ _ _ I Hc' Hm H) as (t1 & Z1 & N1 & _).
  assert (t1 = t) by congruence. subst t1.
  split.
  - eapply Inv_replace; [exact I1 | exact Ht | reflexivity |]. destruct (iv_tags _ I1 _ _ Ht).
    constructor; cbn; try assumption; try (destruct Hd; subst d; discriminate).
    rewrite N1. split; [discriminate|]. destruct Hd; subst d; discriminate.
  - eapply mono_trans; [exact M1|]. eapply mono_set_tag; [exact Ht|]. unfold mtag; cbn; auto.
Qed.
Ltac good_step :=
  match goal with
  | H : bind _ _ _ = Done _ |- _ => inv1 H
  end.
Lemma init_tagbase_good E : pres good (init_tagbase E).
Proof.
  intros s s' a H. unfold init_tagbase in H. repeat inv1 H.
  repeat match goal with
  | Hm : make_type _ ?x = Done (?y, _) |- good ?x _ => eapply good_trans; [eapply make_type_good; exact Hm|]
  | Hm : add_sys _ _ _ _ ?x = Done (?y, _) |- good ?x _ => eapply good_trans; [eapply add_sys_good; [|exact Hm]; lia|]
  | Hm : add_virtual _ _ _ _ _ ?x = Done (?y, _) |- good ?x _ => eapply good_trans; [eapply add_virtual_good; [| |exact Hm]; [lia | tauto]|]
  | Hm : tag_write _ _ _ _ _ ?x = Done (?y, _) |- good ?x _ => eapply good_trans; [apply shape_good; eapply tag_write_shape; exact Hm|]
  end. apply good_refl.
Qed.
Lemma restore_types_good l : pres good (restore_types l).
Proof.
  induction l as [|d l IH]; intros s s' a H; cbn [restore_types] in H; [inv_all; apply good_refl|].
  inv1 H. eapply good_trans; [eapply make_type_good; exact Hm | eapply IH; exact H].
Qed.
Lemma restore_tag_good E row : pres good (restore_tag E row).
Proof.
  intros s s' a H. unfold restore_tag in H. inv1 H. inv1 H.
  assert (Hc : 0 <= u32 (rr_count row) < 4294967296) by (unfold u32; apply Z.mod_pos_bound; lia).
  eapply good_trans; [eapply tag_add_good; [|exact Hm]; exact Hc|].
  inv_all; try apply good_refl.
  apply shape_good. eapply shape_set_tag; [eassumption|]. tshape.
  match goal with HH : t_data _ = DBytes _ |- _ => rewrite HH end. cbn.
  rewrite app_length, skipn_length, !firstn_length. unfold zlen in *. lia.
Qed.
Lemma restore_tags_good E l : pres good (restore_tags E l).
Proof.
  induction l as [|d l IH]; intros s s' a H; cbn [restore_tags] in H; [inv_all; apply good_refl|].
  inv1 H. eapply good_trans; [eapply restore_tag_good; exact Hm | eapply IH; exact H].
Qed.
Lemma boot_good E now r s : boot E now r = Done s -> good (empty_server now (mk_rdb false [] 1 [])) s.
Proof.
  unfold boot. match goal with |- match ?m ?x with _ => _ end = _ -> _ => destruct (m x) as [[s1 u]|] eqn:H end; [|discriminate].
  intros K; injection K as <-. inv1 H. eapply good_trans; [eapply init_tagbase_good; exact Hm|].
  destruct (r_open r); [|inv_all; apply good_refl].
  inv1 H. inv1 H. unfold modify in H; injection H as <-. eapply good_trans; [eapply restore_types_good; eassumption|].
  eapply good_trans; [eapply restore_tags_good; eassumption|]. apply good_same; reflexivity.
Qed.

(** a state the server can be in: started with any retention file, then any requests *)
Definition reachable (E : env) (s : server) : Prop :=
  exists now r s0 os, boot E now r = Done s0 /\ exec E s0 os = Done s.
Theorem reachable_Inv E s : reachable E s -> Inv s.
Proof.
  intros (now & r & s0 & os & H1 & H2). apply boot_good in H1. apply exec_good in H2.
  apply H2. apply H1. apply Inv_empty.
Qed.
Lemma reachable_step E s o s' : reachable E s -> step E s o = Done s' -> reachable E s'.
Proof.
  intros (now & r & s0 & os & H1 & H2) H. exists now, r, s0, (os ++ [o]). split; [exact H1|].
  revert s0 H1 H2. induction os as [|x os IH]; intros s0 H1 H2; cbn in *.
  - injection H2 as ->. rewrite H. reflexivity.
  - apply rbind_done in H2 as [s1 [E1 E2]]. rewrite E1. cbn.
    clear H1. revert s1 E1 E2 IH. intros s1 E1 E2 IH. clear IH E1.
    revert s1 E2. induction os as [|y os IH]; intros s1 E2; cbn in *.
    + injection E2 as ->. rewrite H. reflexivity.
    + apply rbind_done in E2 as [s2 [F1 F2]]. rewrite F1. cbn. apply IH; exact F2.
Qed.
