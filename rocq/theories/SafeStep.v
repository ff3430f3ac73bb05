(** * SafeStep: one request, and the state after start-up *)
From Verif Require Import Base Const Types State Events Atomic Server Lib SearchProofs Shape Inv Reach Spec Frame WRel Effects Out DataFrame ModInv IdInv TypesProofs Safe SafeLoops SafeInv SafeWrite SafeOps SafeTags SafeConn Prop_Tags.

Lemma tag_get_index_ok s i : LI s -> exists x, tag_get_index s i = Done x.
Proof.
  intros L. unfold tag_get_index. destruct ((i <? 0) || (zlen (s_db s) <=? i)) eqn:Q; [eauto|].
  destruct (znth_some (s_db s) i) as [t Ht]; [lia|]. eapply info_at_ok; eassumption.
Qed.
Lemma tag_get_name_ok s n : Inv s -> LI s -> exists x, tag_get_name s n = Done x.
Proof.
  intros I L. unfold tag_get_name. destruct (name_lookup s n I) as (i & -> & C). cbn [rbind].
  destruct C as [[-> _]|(t & Ht & _)]; [eexists; reflexivity|]. destruct (i <? 0); [eauto|]. eapply info_at_ok; eassumption.
Qed.
Lemma info_found s i t : LI s -> znth (s_db s) i = Some t -> t_data t <> DNull -> exists x, info_at s i = Done (inl x).
Proof.
  intros L H D. destruct (info_at_ok s i t L H) as [x X]. rewrite X. revert X. unfold info_at. rewrite H.
  destruct (t_data t); [congruence|..]; (destruct (t_name t); [|discriminate]); intros X; injection X as <-; eauto.
Qed.
Lemma tag_get_index_found s i t : LI s -> znth (s_db s) i = Some t -> t_data t <> DNull -> exists x, tag_get_index s i = Done (inl x).
Proof. intros L H D. unfold tag_get_index. assert (R := znth_range _ _ _ H). replace (_ || _) with false by lia. eapply info_found; eassumption. Qed.
Lemma tag_get_name_found s n i t : Inv s -> LI s -> znth (s_db s) i = Some t -> t_name t = Some n -> exists x, tag_get_name s n = Done (inl x).
Proof.
  intros I L H Hn. unfold tag_get_name. destruct (name_lookup s n I) as (j & -> & C). cbn [rbind].
  destruct C as [[-> C]|(u & Hu & Un)]; [exfalso; eapply C; eassumption|]. assert (R := znth_range _ _ _ Hu). replace (j <? 0) with false by lia.
  eapply info_found; [exact L | exact Hu|]. eapply dead_not_named; [exact (li_inv _ L _ _ Hu) | exact Un].
Qed.
Lemma find_mod_In s fd m : find_mod s fd = Some m -> In m (s_mods s).
Proof. intros H. unfold find_mod in H. apply find_some in H. tauto. Qed.
Lemma respond_NI fd c p s s' u : respond fd c p s = Done (s', u) -> NI s -> NI s'.
Proof. intros H. apply NI_shape. eapply respond_shape; exact H. Qed.
Lemma h_tag_del_fine E fd i s : Inv s -> LI s -> fine s (h_tag_del E fd i).
Proof.
  intros I L. unfold h_tag_del. eapply fine_bind; [reflexivity|]. destruct (tag_get_index_ok s i L) as [x X].
  eapply fine_bind; [unfold lift; rewrite X; reflexivity|]. apply fine_then.
  - destruct x as [[[[[a b] c] d] nm]|]; [|apply fine_ret; exact L]. destruct (_ =? _); [apply fine_ret; exact L|].
    destruct (tag_del_ok E i s I L) as (s' & r & A & B & _). exists s', r. auto.
  - intros s1 r L1. destruct (r =? 0); [apply respond_fine | apply reply_err_fine]; exact L1.
Qed.
Lemma h_tag_del_NI E fd i s s' u : Inv s -> h_tag_del E fd i s = Done (s', u) -> NI s -> NI s'.
Proof.
  intros I H N. unfold h_tag_del in H. inv1 H. inv1 H. inv1 H.
  assert (K : shape s0 s') by (destruct (_ =? 0) in H; [eapply respond_shape; exact H | eapply reply_err_shape; exact H]).
  apply (NI_shape _ _ K). destruct v as [[[[[a b] c] d] nm]|]; [destruct (_ =? _) in Hm|]; try (injection Hm as <- _; exact N). eapply tag_del_NI; eassumption.
Qed.

Lemma register_fine E fd nm s : Inv s -> SysInv E s -> IdInv s -> LI s -> NI s -> wf (s_types s) -> sane E s (OpRegister fd nm) ->
  exists s', handle_op E (OpRegister fd nm) s = Done (s', tt) /\ LI s' /\ NI s'.
Proof.
  intros I S U L N W (B & St & F1 & F2 & F3 & F4). cbn [calm] in St. destruct (module_register_ok E nm fd s St I S U L N W B F1 F2 F3 F4) as (s1 & H1 & L1 & N1).
  cbn [handle_op]. erewrite run_bind by exact H1. rewrite (run_bind get _ s1 s1 s1 eq_refl). cbv beta.
  destruct (tag_read_ok E (-1) IX_STARTED 0 4 8 s1 L1) as (s2 & r & H2 & M2); try lia.
  { intros t Ht V. destruct (li_sys _ L1 IX_STARTED) as (t0 & T0 & V0); [unfold IX_STARTED; lia|]. congruence. }
  erewrite run_bind by exact H2. cbv beta zeta.
  set (p := (match r with inl d => d | inr _ => _ end ++ _)). clearbody p.
  destruct (respond_fine s2 fd MSG_MOD_REG p (moved_LI _ _ M2 L1)) as (s3 & [] & H3 & L3). exists s3. split; [exact H3|]. split; [exact L3|].
  eapply respond_NI; [exact H3|]. eapply NI_shape; [eapply tag_read_shape; exact H2 | exact N1].
Qed.

Lemma group_of_get s fd i P (k : module -> SM unit) : group_of s fd i P ->
  (forall m g, find_mod s fd = Some m -> In m (s_mods s) -> znth (m_groups m) i = Some g -> (g_live g = true -> P g) -> fine s (k m)) -> fine s (with_mod fd k).
Proof. intros (m & g & A & B & C) K. unfold with_mod. eapply fine_bind; [reflexivity|]. cbv beta. rewrite A. eapply K; eauto. eapply find_mod_In; exact A. Qed.

(** everything but connecting *)
Lemma handle_fine E s o : Inv s -> IdInv s -> LI s -> wf (s_types s) -> sane E s o -> (forall fd nm, o <> OpRegister fd nm) -> fine s (handle_op E o).
Proof.
  intros I U L W (B & St & F) Nr. destruct o; cbn [handle_op calm] in *.
  - exfalso. eapply Nr. reflexivity.
  - apply respond_fine; exact L.
  - apply reply_err_fine; exact L.
  - destruct (module_unregister_ok E fd s St I L U) as (s' & A & A'). exists s', tt. auto.
  - apply fine_then; [|intros; apply reply_int_fine; assumption]. destruct (nthb _ 0 =? 95) eqn:Q; [apply fine_ret; exact L|]. destruct F as [F|F]; [lia|].
    apply tag_add_fine; try assumption. unfold u32. apply Z.mod_pos_bound. lia.
  - apply h_tag_del_fine; assumption.
  - eapply fine_bind; [reflexivity|]. apply h_tag_get_fine; [|exact L | apply tag_get_name_ok; assumption]. intros Q. destruct (St Q) as (i & t & Ht & Hn). eapply tag_get_name_found; eassumption.
  - eapply fine_bind; [reflexivity|]. apply h_tag_get_fine; [|exact L | apply tag_get_index_ok; assumption]. intros Q. destruct (St Q) as (t & Ht & Hd). eapply tag_get_index_found; eassumption.
  - apply fine_ret; exact L.
  - destruct F as (F1 & F2 & F3 & F4). apply h_read_fine; assumption.
  - destruct F as (F1 & F2). apply h_write_fine; assumption.
  - destruct F as (F1 & F2). apply h_mask_fine; assumption.
  - eapply fine_bind; [reflexivity|]. cbv beta. apply fine_then; [|intros; apply reply_int_fine; assumption].
    destruct (find_mod s fd) as [m|] eqn:Fm; [|apply fine_ret; exact L]. apply event_add_fine; [exact L | eapply find_mod_In; exact Fm | exact F].
  - eapply fine_bind; [reflexivity|]. cbv beta. apply fine_then; [apply event_del_fine; [|assumption..]; intros Q m t e r Q1 Q2 Q3 Q4; exact (St Q m t e r Q1 Q2 Q3 Q4)|]. intros s1 r L1. destruct (0 <=? _); [apply respond_fine | apply reply_err_fine]; exact L1.
  - apply fine_ret; exact L.
  - eapply fine_bind; [reflexivity|]. cbv beta. apply fine_then; [apply event_opt_fine; assumption|]. intros s1 r L1. destruct (0 <=? _); [apply respond_fine | apply reply_err_fine]; exact L1.
  - destruct F as (nm & rest & F1 & F2). eapply h_cdt_create_fine; eassumption.
  - eapply fine_bind; [reflexivity|]. apply h_cdt_get_fine; assumption.
  - apply h_cdt_get_fine; assumption.
  - apply fine_then; [apply map_add_fine; assumption | intros; apply reply_int_fine; assumption].
  - apply fine_then; [apply map_del_fine; assumption | intros; apply reply_int_fine; assumption].
  - eapply fine_bind; [reflexivity|]. cbv beta. destruct (map_get_ok s idx id L) as [x X]. eapply fine_bind; [unfold lift; rewrite X; reflexivity|].
    destruct x as [[a b]|e]; [apply respond_fine | apply reply_err_fine]; exact L.
  - unfold with_mod. eapply fine_bind; [reflexivity|]. cbv beta. cbn in F. destruct (find_mod s fd) as [m|] eqn:Fm; [|congruence].
    apply fine_then; [apply group_add_fine; [exact L | eapply find_mod_In; exact Fm] | intros; apply reply_int_fine; assumption].
  - eapply group_of_get; [exact F|]. intros m g _ Im Hg _. apply fine_then; [eapply group_del_fine; eassumption | intros; apply reply_int_fine; assumption].
  - eapply group_of_get; [exact F|]. intros m g _ Im Hg Hl. cbv beta in Hl. apply fine_then.
    + unfold group_read. rewrite Hg. destruct (g_live g) eqn:G; [|apply fine_ret; exact L]. eapply fine_bind; [reflexivity|]. cbv beta.
      apply group_read_fine; [exact L | apply Hl; reflexivity | eapply (li_grp _ L m g Im); [eapply znth_In; exact Hg | exact G] | unfold MSG_GROUP_SIZE; lia].
    + intros s1 [d|e] L1; [apply respond_fine | apply reply_err_fine]; exact L1.
  - eapply group_of_get; [exact F|]. intros m g _ Im Hg Hl. cbv beta in Hl. apply fine_then; [|intros; apply reply_status_fine; assumption].
    unfold group_write. rewrite Hg. destruct (g_live g) eqn:G; [|apply fine_ret; exact L]. eapply fine_bind; [reflexivity|]. cbv beta.
    apply group_write_fine; [exact L | apply Hl; reflexivity].
  - apply reply_err_fine; exact L.
  - destruct F as (F1 & F2). apply h_atomic_fine; assumption.
  - apply fine_then; [apply override_add_fine; assumption | intros; apply reply_status_fine; assumption].
  - apply fine_then; [apply override_del_fine; assumption | intros; apply reply_status_fine; assumption].
  - apply fine_then; [apply override_get_fine; assumption|]. intros s1 [[d m]|e] L1; [apply respond_fine | apply reply_err_fine]; exact L1.
  - apply fine_then; [apply override_set_fine; assumption | intros; apply reply_status_fine; assumption].
  - do 2 eexists. split; [reflexivity|]. eapply LI_same; [exact L|..]; reflexivity.
Qed.
Lemma handle_NI E s o s' u : Inv s -> (forall fd nm, o <> OpRegister fd nm) -> handle_op E o s = Done (s', u) -> NI s -> NI s'.
Proof.
  intros I Nr H N. destruct (shape_op o) eqn:So; [eapply NI_shape; [eapply handle_op_shape; eassumption | exact N]|].
  destruct o; try discriminate So; clear So; cbn [handle_op] in H.
  all: try (exfalso; eapply Nr; reflexivity).
  all: try (eapply unregister_NI; eassumption).
  all: try (eapply h_tag_del_NI; eassumption).
  all: try (unfold modify in H; injection H as <- _; eapply NI_db; [|exact N]; reflexivity).
  - inv1 H. assert (K : shape s0 s') by (unfold reply_int in H; destruct (_ <? _) in H; [eapply reply_err_shape | eapply respond_shape]; exact H). apply (NI_shape _ _ K).
    destruct (_ =? 95) eqn:Q in Hm; [injection Hm as <- _; exact N|]. eapply tag_add_NI; [exact I | | | exact Hm | exact N]; [unfold u32; apply Z.mod_pos_bound; lia | lia].
  - unfold h_cdt_create in H. inv1 H. inv1 H. destruct v as [[ts ty] err]. inv1 H. cbv zeta in H.
    assert (Sh : shape (set_types s ts) s') by (inv1 H; [eapply reply_err_shape | eapply respond_shape]; exact H).
    eapply NI_shape; [exact Sh|]. eapply NI_db; [|exact N]. reflexivity.
Qed.
Lemma handle_safe E s o : Inv s -> SysInv E s -> IdInv s -> wf (s_types s) -> LI s -> NI s -> sane E s o -> exists s1, handle_op E o s = Done (s1, tt) /\ LI s1 /\ NI s1.
Proof.
  intros I S U W L N F.
  assert (D : (exists fd nm, o = OpRegister fd nm) \/ forall fd nm, o <> OpRegister fd nm) by (destruct o; try (right; congruence); left; eauto).
  destruct D as [(fd & nm & ->)|D]; [apply register_fine; assumption|].
  destruct (handle_fine E s o I U L W F D) as (s1 & [] & A & B). exists s1. split; [exact A|]. split; [exact B|]. eapply handle_NI; eassumption.
Qed.

Theorem step_safe E s o : reachable E s -> LI s -> NI s -> sane E s o -> exists s', step E s o = Done s' /\ LI s' /\ NI s'.
Proof.
  intros R L N F. destruct (handle_safe E s o (reachable_Inv _ _ R) (reachable_sys _ _ R) (reachable_ids _ _ R) (reachable_wf _ _ R) L N F) as (s1 & A & B & C).
  unfold step. rewrite A. eexists. split; [reflexivity|]. split; [eapply LI_same; [exact B|..]; reflexivity | eapply NI_db; [|exact C]; reflexivity].
Qed.

(** ** The state after start-up *)
Definition fresh_tag (t : tag) : bool :=
  match t_events t, t_maps t, t_odata t, t_omask t with
  | [], Some [], None, None =>
      match t_data t with
      | DBytes b => negb (has (t_attr t) A_VIRTUAL) && (zlen b <? 2147483648) && negb (has (t_attr t) A_OVR_SET) && negb (is_queue (t_type t))
      | DTime | DMyName => has (t_attr t) A_VIRTUAL
      | _ => false
      end
  | _, _, _, _ => false
  end.
Definition fresh_size (ts : list cdt) (t : tag) : bool :=
  match new_size ts (t_type t) (t_count t) with Done n => n <? 2147483648 | Undef _ => false end.
Definition fresh (s : server) : bool :=
  forallb fresh_tag (s_db s) && forallb (fresh_size (s_types s)) (s_db s) && (length (s_db s) =? 11)%nat &&
  forallb (fun t => negb (has (t_attr t) A_VIRTUAL)) (firstn 9 (s_db s)) && (s_moduuid s =? 0) && match s_mods s with [] => true | _ => false end.
Lemma init_fresh E now r : exists s, init_tagbase E (empty_server now r) = Done (s, tt) /\ fresh s = true.
Proof.
  assert (H : (match init_tagbase E (empty_server now r) with Done (s, _) => fresh s | Undef _ => false end) = true) by (vm_compute; reflexivity).
  destruct (init_tagbase E (empty_server now r)) as [[s []]|]; [|discriminate]. eauto.
Qed.
Lemma fresh_LI s : Inv s -> fresh s = true -> LI s /\ NI s.
Proof.
  intros I F. unfold fresh in F. apply andb_prop in F as [F F6]. apply andb_prop in F as [F F5]. apply andb_prop in F as [F F4]. apply andb_prop in F as [F F3]. apply andb_prop in F as [F1 F2].
  apply Nat.eqb_eq in F3. destruct (s_mods s) eqn:M; [|discriminate]. rewrite forallb_forall in F1, F2, F4.
  assert (T : forall i t, znth (s_db s) i = Some t -> t_events t = [] /\ t_maps t = Some [] /\ t_odata t = None /\ t_omask t = None /\
    match t_data t with DBytes b => has (t_attr t) A_VIRTUAL = false /\ zlen b < 2147483648 /\ has (t_attr t) A_OVR_SET = false /\ is_queue (t_type t) = false
    | DTime | DMyName => has (t_attr t) A_VIRTUAL = true | _ => False end).
  { intros i t H. specialize (F1 t (znth_In _ _ _ H)). unfold fresh_tag in F1. destruct (t_events t); [|discriminate]. destruct (t_maps t) as [[|]|]; try discriminate.
    destruct (t_odata t); [discriminate|]. destruct (t_omask t); [discriminate|]. do 4 (split; [reflexivity|]). destruct (t_data t); try discriminate; auto.
    apply andb_prop in F1 as [F1 A4]. apply andb_prop in F1 as [F1 A3]. apply andb_prop in F1 as [A1 A2]. apply negb_true_iff in A1, A3, A4. repeat split; auto. lia. }
  split; [constructor|].
  - intros i t H. apply (iv_tags _ I _ _ H).
  - intros i t n H K. specialize (F2 t (znth_In _ _ _ H)). unfold fresh_size in F2. rewrite K in F2. lia.
  - intros i t H. destruct (T _ _ H) as (A & B & C & D & G). unfold tag_ok, virt_ok. destruct (t_data t); try contradiction; auto.
    destruct G as (G1 & G2 & G3 & G4). split; [exact G1|]. split; [exact G2|]. rewrite A. split; [constructor|]. split; [exists []; split; [exact B | intros m []]|]. split; [|exact G4].
    unfold ovr_ok. rewrite C, D. exact G3.
  - intros i t H. destruct (T _ _ H) as (A & _). rewrite A. intros e [].
  - rewrite M. intros m [].
  - rewrite M. intros m [].
  - rewrite M. intros m g [].
  - intros i Hi. destruct (znth_some (s_db s) i) as [t Ht]; [unfold zlen; lia|]. exists t. split; [exact Ht|].
    apply negb_true_iff. apply F4. unfold znth in Ht. destruct (_ && _) in Ht; [|discriminate].
    assert (Hl : (Z.to_nat i < length (firstn 9 (s_db s)))%nat) by (rewrite firstn_length; lia).
    apply (nth_error_In _ (Z.to_nat i)). rewrite <- (firstn_skipn 9 (s_db s)) in Ht. rewrite nth_error_app1 in Ht by exact Hl. exact Ht.
  - lia.
  - intros i t x Hi H. apply znth_range in H. unfold zlen in H. lia.
Qed.
Local Transparent boot.
Theorem init_safe E now : exists s, init E now = Done s /\ LI s /\ NI s.
Proof.
  destruct (init_fresh E now (mk_rdb false [] 1 [])) as (s & H & F).
  assert (I : Inv s) by (eapply init_tagbase_good; [exact H | apply Inv_empty]).
  destruct (fresh_LI s I F) as [L N]. unfold init, boot. erewrite run_bind by exact H. eexists. split; [reflexivity|].
  split; [eapply LI_same; [exact L|..]; reflexivity | eapply NI_db; [|exact N]; reflexivity].
Qed.
Local Opaque boot.
Lemma init_reachable E now s : init E now = Done s -> reachable E s.
Proof. intros H. exists now, empty_ret, s, []. split; [exact H | reflexivity]. Qed.
Lemma exec_safe E os : forall s, reachable E s -> LI s -> NI s -> all_sane E s os -> exists s', exec E s os = Done s' /\ LI s' /\ NI s'.
Proof.
  induction os as [|o os IH]; intros s R L N A; [exists s; auto|]. destruct A as [A1 A2].
  destruct (step_safe E s o R L N A1) as (s1 & H1 & L1 & N1). cbn [exec]. rewrite H1. cbn [rbind]. apply IH; auto. eapply reachable_step; eassumption.
Qed.
