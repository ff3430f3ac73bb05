(** * C96: every request is answered exactly once *)
From Verif Require Import Base Const Types State Events Atomic Server Buffer Wire Lib SearchProofs Shape Inv Reach Spec Frame Effects Out DataFrame WRel ModInv IdInv Demo Prop_Tags Prop_Data Prop_Groups.
From Coq Require Import Lia.

(** the connection that waits for an answer to the request, and the command the answer must name *)
Definition asks (o : op) : option (Z * Z) :=
  match o with
  | OpRegister fd _ | OpUnregMsg fd | OpBadReg fd => Some (fd, 1)
  | OpTagAdd fd _ _ _ _ => Some (fd, 2)
  | OpTagDel fd _ => Some (fd, 3)
  | OpTagGetName fd _ | OpTagGetIdx fd _ => Some (fd, 4)
  | OpTagList fd => Some (fd, 5)
  | OpRead fd _ _ _ => Some (fd, 6)
  | OpWrite fd _ _ _ => Some (fd, 7)
  | OpMask fd _ _ _ _ => Some (fd, 8)
  | OpEvAdd fd _ _ _ => Some (fd, 9)
  | OpEvDel fd _ _ => Some (fd, 10)
  | OpEvGet fd => Some (fd, 11)
  | OpEvOpt fd _ _ _ => Some (fd, 12)
  | OpCdtCreate fd _ => Some (fd, 13)
  | OpCdtGetName fd _ | OpCdtGetType fd _ => Some (fd, 14)
  | OpMapAdd fd _ _ => Some (fd, 15)
  | OpMapDel fd _ _ => Some (fd, 16)
  | OpMapGet fd _ _ => Some (fd, 17)
  | OpGrpAdd fd _ => Some (fd, 18)
  | OpGrpDel fd _ => Some (fd, 19)
  | OpGrpRead fd _ => Some (fd, 20)
  | OpGrpWrite fd _ _ => Some (fd, 21)
  | OpGrpMwrite fd => Some (fd, 22)
  | OpAtomic fd _ _ _ => Some (fd, 23)
  | OpOvAdd fd _ _ _ _ => Some (fd, 24)
  | OpOvDel fd _ _ _ => Some (fd, 25)
  | OpOvGet fd _ _ _ => Some (fd, 26)
  | OpOvSet fd _ _ => Some (fd, 27)
  | OpDisconnect _ | OpTick _ => None
  end.
(** the connection a message goes to and the command it answers; a notification of an event answers nothing *)
Definition answers (x : out) : option (Z * Z) :=
  match x with OResp fd cmd _ | OErr fd cmd _ => Some (fd, cmd) | OEvent _ _ _ _ _ => None end.
(** a successful answer fits into a message, an error has a code that the client takes for an error *)
Definition sound (x : out) : Prop :=
  match x with OResp _ _ p => zlen p <= 4088 | OErr _ _ code => code < 0 | OEvent _ _ _ _ _ => True end.
(** the exceptions: two commands that exist only as numbers, and a read of a size that fits into no message *)
Definition supported (o : op) : Prop :=
  match o with OpTagList _ | OpEvGet _ => False | OpRead _ _ _ n => 0 <= n <= 4088 | _ => True end.
(** sizes are unsigned numbers on the wire *)
Definition unsigned (o : op) : Prop := match o with OpGrpAdd _ hs => Forall (fun h => 0 <= h_size h) hs | _ => True end.
Definition unsigned_groups (s : server) : Prop :=
  forall m g, In m (s_mods s) -> In g (m_groups m) -> Forall (fun h => 0 <= h_size h) (g_members g).

(** ** Sizes of the answers *)
Lemma respond_done fd cmd p s s' u : zlen p <= 4088 -> respond fd cmd p s = Done (s', u) -> s' = set_out s (s_out s ++ [OResp fd cmd p]).
Proof.
  intros L H. unfold respond in H. replace (MSG_DATA_SIZE <? zlen p) with false in H by (unfold MSG_DATA_SIZE; lia).
  unfold emit, modify in H. injection H as <- _. reflexivity.
Qed.
Lemma tag_read_fits E fd i off n c s s' d : tag_read E fd i off n c s = Done (s', inl d) -> zlen d <= c.
Proof.
  intros H. unfold tag_read in H. destruct (znth (s_db s) i) as [t|]; [|discriminate].
  destruct (has (t_attr t) A_VIRTUAL).
  - destruct (t_data t); try discriminate.
    + apply rbind_done in H as ([[q' d']|] & _ & H); [|discriminate]. destruct (c <? zlen d') eqn:Q; [discriminate|]. injection H as _ <-. lia.
    + destruct (_ && _) eqn:Q; [|discriminate]. assert (d = slice 0 n (le_bytes 8 (s_now s))) as -> by congruence. apply andb_true_iff in Q as [Q1 Q2].
      assert (L := zlen_slice 0 n (le_bytes 8 (s_now s)) Q1). lia.
    + destruct (find_mod s fd); [|discriminate]. destruct (_ =? 0); [discriminate|]. destruct (znth _ _) as [mt|]; [|discriminate].
      destruct (t_data mt), (t_name mt) as [nm|]; try discriminate;
      (destruct (c <? Z.max 32 (zlen nm + 1)) eqn:Q; [discriminate|]; injection H as _ <-;
       unfold splice; cbn [Z.to_nat firstn app]; unfold zlen in *; rewrite ?app_length, ?skipn_length, ?app_length; change (length (zeros 32)) with 32%nat; cbn [length]; lia).
  - destruct (negb _); [discriminate|]. apply rbind_done in H as (sz & _ & H). destruct (_ <? _); [discriminate|].
    destruct (t_data t) as [|b| | | |]; try discriminate. destruct (negb (in_bounds _ _ _) || (c <? n)) eqn:Q; [discriminate|].
    apply orb_false_iff in Q as [Q1 Q2]. apply negb_false_iff in Q1. assert (L := zlen_slice _ _ _ Q1). assert (B := proj1 (in_bounds_iff _ _ _) Q1).
    destruct (has (t_attr t) A_OVR_SET); [|injection H as _ <-; lia]. destruct (t_odata t), (t_omask t);
    try (destruct (n =? 0); [injection H as _ <-; rewrite zlen_nil; lia | discriminate]).
    apply rbind_done in H as (x & H1 & H). apply rbind_done in H as (y & H2 & H). injection H as _ <-.
    assert (M : forall a b c, zlen (mix a b c) <= zlen a).
    { induction a as [|u a IH]; intros [|v e] [|w f]; cbn [mix]; rewrite ?zlen_cons, ?zlen_nil; try lia; try (assert (G := zlen_nonneg a); lia). specialize (IH e f). lia. }
    specialize (M (slice off n b) x y). lia.
Qed.
Lemma override_get_fits i o n s s' d m : override_get i o n s = Done (s', inl (d, m)) -> zlen (d ++ m) <= 4088.
Proof.
  intros H. unfold override_get in H. inv1 H. destruct (znth (s_db s) i) as [t|]; [|discriminate].
  assert (K : forall x y (l k : list Z), negb ((n <? 0) || (MSG_DATA_SIZE <? 2 * n)) = true -> rd l 0 n = Done x -> rd k 0 n = Done y -> zlen (x ++ y) <= 4088).
  { intros x y l k Q A B. unfold rd in A, B. destruct (in_bounds 0 n (zlen l)) eqn:A1; [|discriminate]. destruct (in_bounds 0 n (zlen k)) eqn:B1; [|discriminate].
    injection A as <-. injection B as <-. rewrite zlen_app, !zlen_slice by assumption. unfold MSG_DATA_SIZE in Q. lia. }
  destruct (t_data t); try discriminate; inv1 H; (destruct (negb (fits32 _)); [discriminate|]); (destruct (_ <? _); [discriminate|]);
  (destruct (n =? 0); [apply ret_done in H as [_ H]; injection H as -> ->; cbn; lia|]); destruct ((n <? 0) || (MSG_DATA_SIZE <? 2 * n)) eqn:Q; try discriminate.
  destruct (t_omask t); [|discriminate]. inv1 H. inv1 H. apply ret_done in H as [_ H]. injection H as -> ->. eapply K; [reflexivity | eassumption | eassumption].
Qed.
Lemma group_read_loop_fits E hs : forall off buf s s' d, Forall (fun h => 0 <= h_size h) hs -> 0 <= off -> zlen buf <= 4088 ->
  group_read_loop E hs off buf s = Done (s', inl d) -> zlen d <= 4088.
Proof.
  induction hs as [|h hs IH]; intros off buf s s' d F Ho Hb H; cbn [group_read_loop] in H.
  - apply ret_done in H as [-> H]. injection H as ->. rewrite zlen_firstn. lia.
  - apply Forall_cons_iff in F as [F1 F2]. apply bind_done in H as (s1 & [x|e] & H1 & H); [|apply ret_done in H as [_ H]; discriminate].
    apply tag_read_fits in H1. apply (IH _ _ _ _ _ F2) in H; [exact H | lia|]. unfold MSG_GROUP_SIZE in H1.
    assert (G := zlen_nonneg x). unfold splice, zlen in *. rewrite !app_length, firstn_length, skipn_length. lia.
Qed.

(** ** Errors are negative *)
Lemma tag_read_neg E fd i off n c s s' e : tag_read E fd i off n c s = Done (s', inr e) -> e < 0.
Proof. intros H. unfold tag_read in H. inv_all; reflexivity. Qed.
Lemma tag_write_neg E fd i off d s s' r : tag_write E fd i off d s = Done (s', r) -> r <= 0.
Proof. intros H. apply tag_write_cases in H. destruct H; lia. Qed.
Lemma tag_mask_write_neg E fd i off d m s s' r : tag_mask_write E fd i off d m s = Done (s', r) -> r <= 0.
Proof. intros H. apply tag_mask_write_cases in H. destruct H; lia. Qed.
Lemma tag_del_neg E i s s' r : tag_del E i s = Done (s', r) -> r <= 0.
Proof. intros H. unfold tag_del in H. inv_all; unfold E_ARG, E_DELETED; lia. Qed.
Lemma override_add_neg E i o d m s s' r : override_add E i o d m s = Done (s', r) -> r <= 0.
Proof. intros H. unfold override_add in H. inv_all; try discriminate; lia. Qed.
Lemma override_del_neg E i o m s s' r : override_del E i o m s = Done (s', r) -> r <= 0.
Proof. intros H. unfold override_del in H. inv_all; try discriminate; lia. Qed.
Lemma override_set_neg E i o s s' r : override_set E i o s = Done (s', r) -> r <= 0.
Proof. intros H. unfold override_set in H. inv_all; try discriminate; lia. Qed.
Lemma override_get_neg i o n s s' e : override_get i o n s = Done (s', inr e) -> e < 0.
Proof. intros H. unfold override_get in H. inv_all; try discriminate; first [reflexivity | match goal with Q : inr _ = inr _ |- _ => injection Q as -> end; reflexivity]. Qed.
Lemma group_read_loop_neg E hs : forall off buf s s' e, group_read_loop E hs off buf s = Done (s', inr e) -> e < 0.
Proof.
  induction hs as [|h hs IH]; intros off buf s s' e H; cbn [group_read_loop] in H; [apply ret_done in H as [_ H]; discriminate|].
  apply bind_done in H as (s1 & [x|e'] & H1 & H); [exact (IH _ _ _ _ _ H)|]. apply ret_done in H as [_ H]. injection H as ->. exact (tag_read_neg _ _ _ _ _ _ _ _ _ H1).
Qed.
Lemma group_write_loop_neg E hs : forall off buf s s' r, group_write_loop E hs off buf s = Done (s', r) -> r <= 0.
Proof.
  induction hs as [|h hs IH]; intros off buf s s' r H; cbn [group_write_loop] in H; [apply ret_done in H as [_ ->]; lia|].
  apply bind_done in H as (s1 & x & H1 & H). apply tag_write_neg in H1. destruct (negb (x =? 0)); [apply ret_done in H as [_ ->]; exact H1 | exact (IH _ _ _ _ _ H)].
Qed.

(** ** Notifications only, before the answer *)
Lemma group_read_loop_evout E hs : forall o b, pres evout (group_read_loop E hs o b).
Proof. induction hs; intros o b; cbn [group_read_loop]; evo_tac. Qed.
Lemma cleanup_tag_evout E n u l : pres evout (cleanup_tag E n u l).
Proof. induction l; cbn [cleanup_tag]; evo_tac. Qed.
#[export] Hint Resolve group_read_loop_evout cleanup_tag_evout : evo.
Lemma cleanup_loop_evout E u : forall k, pres evout (cleanup_loop E k u).
Proof. induction k; cbn [cleanup_loop]; evo_tac. Qed.
Lemma del_owned_evout E fd n : pres evout (del_owned E fd n).
Proof. unfold del_owned. evo_tac. Qed.
#[export] Hint Resolve cleanup_loop_evout del_owned_evout : evo.
Lemma del_owned_loop_evout E fd : forall k n, pres evout (del_owned_loop E fd k n).
Proof. induction k; intros n; cbn [del_owned_loop]; evo_tac. Qed.
#[export] Hint Resolve del_owned_loop_evout : evo.
Lemma module_unregister_evout E fd : pres evout (module_unregister E fd).
Proof. unfold module_unregister. evo_tac. Qed.
#[export] Hint Resolve module_unregister_evout : evo.
Lemma module_register_evout E nm fd : pres evout (module_register E nm fd).
Proof.
  intros s s' u H. unfold module_register in H. inv1 H. apply bind_done in H as (s1 & u1 & H1 & H).
  assert (A : evout s s1) by (destruct (find_mod s fd); [exact (module_unregister_evout _ _ _ _ _ H1) | apply ret_done in H1 as [-> _]; apply evout_refl]).
  inv1 H. inv1 H. set (s2 := set_nextuid _ _) in H. assert (B : evout s s2) by (eapply evout_trans; [exact A | apply evout_same; reflexivity]). clearbody s2.
  eapply evout_trans; [exact B|]. clear A B H1. destruct (existsb _ _); [apply ret_done in H as [-> _]; apply evout_refl|].
  inv1 H. inv1 H. destruct v as [tn uuid]. inv1 H. inv1 H. apply bind_done in H as (s3 & r & H1 & H). destruct (r <? 0); [discriminate|].
  inv_all. evo. apply evout_same. reflexivity.
Qed.

(** ** One request *)
Definition served (s s' : server) (fd cmd : Z) : Prop := exists a, answered s s' a /\ answers a = Some (fd, cmd) /\ sound a.
Lemma fin_err s s1 s' fd cmd e u : evout s s1 -> e < 0 -> reply_err fd cmd e s1 = Done (s', u) -> served s s' fd cmd.
Proof. intros A B H. unfold reply_err, emit, modify in H. injection H as <- _. exists (OErr fd cmd e). split; [apply answered_err; exact A|]. split; [reflexivity | exact B]. Qed.
Lemma fin_resp s s1 s' fd cmd p u : evout s s1 -> zlen p <= 4088 -> respond fd cmd p s1 = Done (s', u) -> served s s' fd cmd.
Proof. intros A B H. apply respond_done in H; [|exact B]. subst s'. exists (OResp fd cmd p). split; [apply answered_resp; exact A|]. split; [reflexivity | exact B]. Qed.
Lemma fin_int s s1 s' fd cmd r u : evout s s1 -> reply_int fd cmd r s1 = Done (s', u) -> served s s' fd cmd.
Proof. intros A H. unfold reply_int in H. destruct (Z.ltb_spec r 0); [eapply fin_err; eassumption|]. eapply fin_resp; [exact A | | exact H]. rewrite zlen_le_bytes. lia. Qed.
Lemma fin_status s s1 s' fd cmd r u : evout s s1 -> r <= 0 -> reply_status fd cmd r s1 = Done (s', u) -> served s s' fd cmd.
Proof. intros A B H. unfold reply_status in H. destruct (Z.eqb_spec r 0); cbn [negb] in H; [eapply fin_resp; [exact A | | exact H]; rewrite zlen_nil; lia|]. eapply fin_err; [exact A | | exact H]. lia. Qed.
Lemma znth_below {A} (l : list A) i : i < 0 -> znth l i = None.
Proof. intros H. apply znth_none. lia. Qed.
Lemma info_named s i x : Inv s -> info_at s i = Done (inl x) -> zlen (info_bytes x) <= 4088.
Proof.
  intros I H. unfold info_at in H. destruct (znth (s_db s) i) as [t|] eqn:Ht; [|discriminate].
  assert (L : forall nm, t_name t = Some nm -> zlen nm <= 32) by (intros nm Q; apply (it_name _ _ (iv_tags _ I _ _ Ht)), validate_len in Q; lia).
  destruct (t_data t), (t_name t) as [nm|]; try discriminate; injection H as <-; specialize (L _ eq_refl); unfold info_bytes; rewrite !zlen_app, !zlen_le_bytes, zlen_cons, zlen_nil; lia.
Qed.
Lemma info_neg s i e : info_at s i = Done (inr e) -> e < 0.
Proof. unfold info_at. destruct (znth (s_db s) i) as [t|]; [|discriminate]. destruct (t_data t), (t_name t); intros H; try discriminate; injection H as <-; reflexivity. Qed.
Lemma tag_get_index_ok s i x : Inv s -> tag_get_index s i = Done x -> match x with inl y => zlen (info_bytes y) <= 4088 | inr e => e < 0 end.
Proof. intros I H. unfold tag_get_index in H. destruct (_ || _); [injection H as <-; reflexivity|]. destruct x; [eapply info_named | eapply info_neg]; eassumption. Qed.
Lemma tag_get_name_ok s n x : Inv s -> tag_get_name s n = Done x -> match x with inl y => zlen (info_bytes y) <= 4088 | inr e => e < 0 end.
Proof. intros I H. unfold tag_get_name in H. apply rbind_done in H as (i & _ & H). destruct (_ <? _); [injection H as <-; reflexivity|]. destruct x; [eapply info_named | eapply info_neg]; eassumption. Qed.
Lemma served_step E s o s' fd cmd : reachable E s -> unsigned_groups s -> asks o = Some (fd, cmd) -> supported o -> step E s o = Done s' -> served s s' fd cmd.
Proof.
  intros R U A S H. assert (I := reachable_Inv _ _ R). apply step_inv in H as (s1 & u & H & ->).
  enough (Q : served s s1 fd cmd) by (destruct Q as (a & Q1 & Q2); exists a; split; [apply answered_step; exact Q1 | exact Q2]).
  destruct o; cbn [asks supported] in A, S; try discriminate A; try contradiction; injection A as <- <-; cbn [handle_op] in H.
  - (* register *) apply bind_done in H as (s2 & v & H1 & H). inv1 H. apply bind_done in H as (s3 & r & H2 & H).
    assert (Ev : evout s s3) by (eapply evout_trans; [exact (module_register_evout _ _ _ _ _ _ H1) | exact (tag_read_evout _ _ _ _ _ _ _ _ _ H2)]).
    eapply fin_resp; [exact Ev | | exact H]. rewrite !zlen_app, !zlen_le_bytes, !zlen_jbytes.
    destruct r as [d|e]; [apply tag_read_fits in H2; lia | rewrite zlen_jbytes; lia].
  - eapply fin_resp; [apply evout_refl | | exact H]. rewrite zlen_nil. lia.
  - eapply fin_err; [apply evout_refl | | exact H]. reflexivity.
  - (* tag add *) apply bind_done in H as (s2 & r & H1 & H). eapply fin_int; [|exact H].
    destruct (nthb nm 0 =? 95); [apply ret_done in H1 as [-> _]; apply evout_refl | exact (tag_add_evout _ _ _ _ _ _ _ _ _ H1)].
  - (* tag del *) unfold h_tag_del in H. inv1 H. inv1 H. apply bind_done in H as (s2 & r & H1 & H).
    assert (Ev : evout s s2 /\ r <= 0).
    { destruct v as [[[[[a b] c] d] nm]|e]; [|apply ret_done in H1 as [-> ->]; split; [apply evout_refl | discriminate]].
      destruct (nthb nm 0 =? 95); [apply ret_done in H1 as [-> ->]; split; [apply evout_refl | discriminate]|].
      split; [exact (tag_del_evout _ _ _ _ _ H1) | exact (tag_del_neg _ _ _ _ _ H1)]. }
    destruct Ev as [Ev N]. destruct (Z.eqb_spec r 0); [eapply fin_resp; [exact Ev | | exact H]; rewrite zlen_le_bytes; lia | eapply fin_err; [exact Ev | | exact H]; lia].
  - inv1 H. unfold h_tag_get in H. inv1 H. apply tag_get_name_ok in Hr; [|exact I]. destruct v; [eapply fin_resp; [apply evout_refl | exact Hr | exact H]|].
    destruct (en_strict E); [discriminate|]. eapply fin_err; [apply evout_refl | exact Hr | exact H].
  - inv1 H. unfold h_tag_get in H. inv1 H. apply tag_get_index_ok in Hr; [|exact I]. destruct v; [eapply fin_resp; [apply evout_refl | exact Hr | exact H]|].
    destruct (en_strict E); [discriminate|]. eapply fin_err; [apply evout_refl | exact Hr | exact H].
  - (* read *) unfold h_read in H. inv1 H. apply bind_done in H as (s2 & r & H1 & H). assert (Ev := tag_read_evout _ _ _ _ _ _ _ _ _ H1).
    destruct r as [d|e]; [|eapply fin_err; [exact Ev | exact (tag_read_neg _ _ _ _ _ _ _ _ _ H1) | exact H]].
    replace ((size <? 0) || (MSG_DATA_SIZE <? size)) with false in H by (unfold MSG_DATA_SIZE; lia). eapply fin_resp; [exact Ev | | exact H]. rewrite zlen_firstn. lia.
  - (* write *) unfold h_write in H. inv1 H. inv1 H. apply bind_done in H as (s2 & r & H1 & H).
    assert (Ev : evout s s2 /\ r <= 0).
    { destruct (_ && _); [apply ret_done in H1 as [-> ->]; split; [apply evout_refl | discriminate]|]. split; [exact (tag_write_evout _ _ _ _ _ _ _ _ H1) | exact (tag_write_neg _ _ _ _ _ _ _ _ H1)]. }
    destruct Ev as [Ev N]. destruct (Z.eqb_spec r 0); cbn [negb] in H; [|eapply fin_err; [exact Ev | | exact H]; lia].
    apply bind_done in H as (s3 & w & H2 & H). eapply fin_resp; [eapply evout_trans; [exact Ev | exact (map_check_evout _ _ _ _ _ _ _ H2)] | | exact H]. rewrite zlen_nil; lia.
  - (* mask *) unfold h_mask in H. inv1 H. inv1 H. apply bind_done in H as (s2 & r & H1 & H).
    assert (Ev : evout s s2 /\ r <= 0).
    { destruct (has _ _); [apply ret_done in H1 as [-> ->]; split; [apply evout_refl | discriminate]|]. split; [exact (tag_mask_write_evout _ _ _ _ _ _ _ _ _ H1) | exact (tag_mask_write_neg _ _ _ _ _ _ _ _ _ H1)]. }
    destruct Ev as [Ev N]. destruct (Z.eqb_spec r 0); cbn [negb] in H; [|eapply fin_err; [exact Ev | | exact H]; lia].
    apply bind_done in H as (s3 & w & H2 & H). eapply fin_resp; [eapply evout_trans; [exact Ev | exact (map_check_evout _ _ _ _ _ _ _ H2)] | | exact H]. rewrite zlen_nil; lia.
  - (* event add *) inv1 H. apply bind_done in H as (s2 & r & H1 & H). eapply fin_int; [|exact H].
    destruct (find_mod s fd0); [exact (event_add_evout _ _ _ _ _ _ _ _ H1) | apply ret_done in H1 as [-> _]; apply evout_refl].
  - (* event del *) inv1 H. apply bind_done in H as (s2 & r & H1 & H). assert (Ev := event_del_evout _ _ _ _ _ _ _ H1).
    destruct (Z.leb_spec 0 idx); [eapply fin_resp; [exact Ev | | exact H]; rewrite zlen_app, zlen_le_bytes, zlen_jbytes; lia|]. eapply fin_err; [exact Ev | | exact H].
    unfold event_del in H1. inv1 H1. rewrite znth_below in H1 by lia. apply ret_done in H1 as [_ ->]. reflexivity.
  - (* event opt *) inv1 H. apply bind_done in H as (s2 & r & H1 & H). assert (Ev := event_opt_evout _ _ _ _ _ _ _ H1).
    destruct (Z.leb_spec 0 idx); [eapply fin_resp; [exact Ev | | exact H]; rewrite zlen_app, zlen_le_bytes, zlen_jbytes; lia|]. eapply fin_err; [exact Ev | | exact H].
    unfold event_opt in H1. inv1 H1. rewrite znth_below in H1 by lia. apply ret_done in H1 as [_ ->]. reflexivity.
  - (* cdt create *) unfold h_cdt_create in H. inv1 H. inv1 H. destruct v as [[ts ty] err]. inv1 H. cbv zeta in H.
    match goal with Q : _ ?X = Done (s1, u) |- _ => assert (Ev : evout s X) by (apply evout_same; reflexivity) end.
    destruct (Z.ltb_spec (match err with Some e => e | None => s32 (en_int E (s_step s)) end) 0); [eapply fin_err; [exact Ev | | exact H]; assumption|].
    eapply fin_resp; [exact Ev | | exact H]. rewrite zlen_le_bytes. lia.
  - inv1 H. unfold h_cdt_get in H. inv1 H. inv1 H. destruct v as [d|e].
    + destruct (MSG_DATA_SIZE - 4 <? zlen d + 1) eqn:Q; [eapply fin_err; [apply evout_refl | | exact H]; reflexivity|].
      eapply fin_resp; [apply evout_refl | | exact H]. unfold MSG_DATA_SIZE in Q. rewrite !zlen_app, zlen_le_bytes, zlen_cons, zlen_nil. lia.
    + eapply fin_err; [apply evout_refl | | exact H]. unfold serialize_datatype in Hr. inv_all; try discriminate; first [reflexivity | match goal with Q : inr _ = inr _ |- _ => injection Q as -> end; reflexivity].
  - unfold h_cdt_get in H. inv1 H. inv1 H. destruct v as [d|e].
    + destruct (MSG_DATA_SIZE - 4 <? zlen d + 1) eqn:Q; [eapply fin_err; [apply evout_refl | | exact H]; reflexivity|].
      eapply fin_resp; [apply evout_refl | | exact H]. unfold MSG_DATA_SIZE in Q. rewrite !zlen_app, zlen_le_bytes, zlen_cons, zlen_nil. lia.
    + eapply fin_err; [apply evout_refl | | exact H]. unfold serialize_datatype in Hr. inv_all; try discriminate; first [reflexivity | match goal with Q : inr _ = inr _ |- _ => injection Q as -> end; reflexivity].
  - apply bind_done in H as (s2 & r & H1 & H). eapply fin_int; [exact (map_add_evout _ _ _ _ _ H1) | exact H].
  - apply bind_done in H as (s2 & r & H1 & H). eapply fin_int; [exact (map_del_evout _ _ _ _ _ H1) | exact H].
  - (* map get *) inv1 H. inv1 H. destruct v as [[a b]|e].
    + eapply fin_resp; [apply evout_refl | | exact H]. unfold handle_bytes. rewrite !zlen_app, !zlen_le_bytes, !zlen_cons, !zlen_nil, zlen_jbytes. lia.
    + eapply fin_err; [apply evout_refl | | exact H]. unfold map_get in Hr. inv_all; try discriminate; first [reflexivity | match goal with Q : inr _ = inr _ |- _ => injection Q as -> end; reflexivity].
  - unfold with_mod in H. inv1 H. destruct (find_mod s fd0) as [m|]; [|discriminate]. apply bind_done in H as (s2 & r & H1 & H). eapply fin_int; [|exact H].
    apply group_add_other in H1 as [->|(g & z & ->)]; [apply evout_refl | apply evout_same; reflexivity].
  - unfold with_mod in H. inv1 H. destruct (find_mod s fd0) as [m|]; [|discriminate]. apply bind_done in H as (s2 & r & H1 & H). eapply fin_int; [|exact H].
    unfold group_del in H1. inv_all; try apply evout_refl; apply evout_same; reflexivity.
  - (* group read *) unfold with_mod in H. inv1 H. destruct (find_mod s fd0) as [m|] eqn:F; [|discriminate]. apply bind_done in H as (s2 & r & H1 & H).
    unfold group_read in H1. destruct (znth (m_groups m) i) as [g|] eqn:G; [|discriminate]. destruct (g_live g).
    + inv1 H1. assert (Ev := group_read_loop_evout _ _ _ _ _ _ _ H1). destruct r as [d|e].
      * eapply fin_resp; [exact Ev | | exact H]. eapply group_read_loop_fits; [| | | exact H1]; [|lia | rewrite zlen_jbytes; unfold MSG_GROUP_SIZE; lia].
        apply find_some in F as [F _]. eapply U; [exact F | eapply znth_In; exact G].
      * eapply fin_err; [exact Ev | | exact H]. exact (group_read_loop_neg _ _ _ _ _ _ _ H1).
    + apply ret_done in H1 as [-> ->]. eapply fin_err; [apply evout_refl | | exact H]. reflexivity.
  - (* group write *) unfold with_mod in H. inv1 H. destruct (find_mod s fd0) as [m|] eqn:F; [|discriminate]. apply bind_done in H as (s2 & r & H1 & H).
    unfold group_write in H1. destruct (znth (m_groups m) i) as [g|] eqn:G; [|discriminate]. destruct (g_live g).
    + inv1 H1. eapply fin_status; [exact (group_write_loop_evout _ _ _ _ _ _ _ H1) | exact (group_write_loop_neg _ _ _ _ _ _ _ H1) | exact H].
    + apply ret_done in H1 as [-> ->]. eapply fin_status; [apply evout_refl | | exact H]. discriminate.
  - eapply fin_err; [apply evout_refl | | exact H]. reflexivity.
  - (* atomic *) unfold h_atomic in H. inv1 H. inv1 H. apply bind_done in H as (s2 & r & H1 & H).
    assert (Ev : evout s s2) by (destruct (_ && _); [apply ret_done in H1 as [-> ->]; apply evout_refl | exact (atomic_op_evout _ _ _ _ _ _ _ H1)]).
    destruct (Z.ltb_spec r 0); [eapply fin_err; [exact Ev | | exact H]; assumption|].
    apply bind_done in H as (s3 & w & H2 & H). eapply fin_resp; [eapply evout_trans; [exact Ev | exact (map_check_evout _ _ _ _ _ _ _ H2)] | | exact H]. rewrite zlen_nil; lia.
  - apply bind_done in H as (s2 & r & H1 & H). eapply fin_status; [exact (override_add_evout _ _ _ _ _ _ _ _ H1) | exact (override_add_neg _ _ _ _ _ _ _ _ H1) | exact H].
  - apply bind_done in H as (s2 & r & H1 & H). eapply fin_status; [exact (override_del_evout _ _ _ _ _ _ _ H1) | exact (override_del_neg _ _ _ _ _ _ _ H1) | exact H].
  - (* override get *) apply bind_done in H as (s2 & r & H1 & H). assert (Ev := override_get_evout _ _ _ _ _ _ H1). destruct r as [[d m]|e].
    + eapply fin_resp; [exact Ev | | exact H]. exact (override_get_fits _ _ _ _ _ _ _ H1).
    + eapply fin_err; [exact Ev | exact (override_get_neg _ _ _ _ _ _ H1) | exact H].
  - apply bind_done in H as (s2 & r & H1 & H). eapply fin_status; [exact (override_set_evout _ _ _ _ _ _ H1) | exact (override_set_neg _ _ _ _ _ _ H1) | exact H].
Qed.

(** ** Any number of requests *)
(** the results of [f] in order, where there is one *)
Fixpoint pick {A B} (f : A -> option B) (l : list A) : list B :=
  match l with [] => [] | x :: r => match f x with Some y => y :: pick f r | None => pick f r end end.
Lemma pick_app {A B} (f : A -> option B) a b : pick f (a ++ b) = pick f a ++ pick f b.
Proof. induction a as [|x a IH]; [reflexivity|]. cbn [app pick]. destruct (f x); [cbn [app]; f_equal|]; exact IH. Qed.
Lemma pick_events l : Forall is_event l -> pick answers l = [].
Proof. induction 1 as [|x l H F IH]; [reflexivity|]. destruct x; try destruct H. exact IH. Qed.
Lemma silent_step E s o s' : asks o = None -> step E s o = Done s' -> evout s s'.
Proof.
  intros A H. apply step_inv in H as (s1 & u & H & ->). enough (Q : evout s s1) by (destruct Q as (ev & Q); exists ev; exact Q).
  destruct o; try discriminate A; cbn [handle_op] in H; [exact (module_unregister_evout _ _ _ _ _ H)|]. unfold modify in H. injection H as <- _. apply evout_same. reflexivity.
Qed.

Lemma unsigned_gk s s' : gk s s' -> unsigned_groups s -> unsigned_groups s'.
Proof.
  intros K U m g Hm Hg. unfold gk in K. apply (in_map gview) in Hm. rewrite K in Hm. apply in_map_iff in Hm as (m0 & A & B).
  apply (gview_rel (fun _ => True)) in A as (_ & _ & A & _). rewrite <- A in Hg. exact (U _ _ B Hg).
Qed.
Lemma in_zset {A} (l : list A) i x y : In y (zset l i x) -> y = x \/ In y l.
Proof.
  intros H. apply In_nth_error in H as (k & H). assert (Q : znth (zset l i x) (Z.of_nat k) = Some y) by (unfold znth; rewrite Nat2Z.id, H; assert (k < length (zset l i x))%nat by (apply nth_error_Some; congruence); replace (_ && _) with true by (unfold zlen; lia); reflexivity).
  rewrite znth_zset in Q. destruct (_ && _); [left; congruence | right; eapply znth_In; exact Q].
Qed.
Lemma in_repeat {A} (x y : A) n : In y (repeat x n) -> y = x.
Proof. intros H. apply repeat_spec in H. exact H. Qed.
Lemma in_firstn {A} (l : list A) n y : In y (firstn n l) -> In y l.
Proof. intros H. rewrite <- (firstn_skipn n l). apply in_or_app. left. exact H. Qed.
Lemma slot_in2 g size g' size' i x :
  match first_empty g (Z.to_nat size) 0 with
  | Some i => (g, size, i)
  | None => if 4096 <? u32 (size * 2) then (g, size, E_2BIG)
            else (firstn (Z.to_nat size) (resize_groups g (u32 (size * 2))) ++ repeat empty_group (Z.to_nat (u32 (size * 2) - size)), u32 (size * 2), size)
  end = (g', size', i) -> In x g' -> x = empty_group \/ In x g.
Proof.
  intros H I. destruct (first_empty _ _ 0); [injection H as <- _ _; right; exact I|]. destruct (4096 <? _); injection H as <- _ _; [right; exact I|].
  apply in_app_or in I as [I|I]; [apply in_firstn in I | left; eapply in_repeat; exact I]. unfold resize_groups in I.
  apply in_app_or in I as [I|I]; [apply in_firstn in I; right; exact I | left; eapply in_repeat; exact I].
Qed.
Lemma group_slot_in g size g' size' i x : group_slot g size = (g', size', i) -> In x g' -> x = empty_group \/ In x g.
Proof.
  unfold group_slot. intros H I. destruct (size =? 0); apply (slot_in2 _ _ _ _ _ x) in H; try exact I; [|exact H].
  destruct H as [H|H]; [left; exact H | left; apply in_repeat in H; exact H].
Qed.
Lemma unsigned_upd s u g z : unsigned_groups s -> (forall x, In x g -> Forall (fun h => 0 <= h_size h) (g_members x)) ->
  unsigned_groups (upd_mod u (fun m => set_groups m g z) s).
Proof.
  intros U G m x Hm Hx. cbn in Hm. apply in_map_iff in Hm as (m0 & A & B). destruct (m_uid m0 =? u); subst m; [exact (G _ Hx) | exact (U _ _ B Hx)].
Qed.
Lemma unregister_unsigned E fd s s' u : module_unregister E fd s = Done (s', u) -> unsigned_groups s -> unsigned_groups s'.
Proof.
  intros H U. unfold module_unregister in H. inv1 H. destruct (find_mod s fd) as [m0|] eqn:F; [|apply ret_done in H as [-> _]; exact U].
  apply bind_done in H as (s1 & u1 & H1 & H). inv1 H. apply bind_done in H as (s2 & u2 & H2 & H). apply bind_done in H as (s3 & u3 & H3 & H).
  assert (K : gk s s3) by (eapply gk_trans; [eapply gk_trans; [eapply cleanup_loop_gk; exact H1 | eapply del_owned_loop_gk; exact H2] | eapply tag_del_gk; exact H3]).
  apply (unsigned_gk _ _ K) in U. unfold modify in H. injection H as <- _. intros m g Hm Hg. cbn in Hm. apply filter_In in Hm as [Hm _]. exact (U _ _ Hm Hg).
Qed.
Lemma register_unsigned E nm fd s s' u : module_register E nm fd s = Done (s', u) -> unsigned_groups s -> unsigned_groups s'.
Proof.
  intros H U. unfold module_register in H. inv1 H. apply bind_done in H as (s1 & u1 & H1 & H).
  assert (U1 : unsigned_groups s1) by (destruct (find_mod s fd); [exact (unregister_unsigned _ _ _ _ _ H1 U) | apply ret_done in H1 as [-> _]; exact U]).
  inv1 H. inv1 H. set (s2 := set_nextuid _ _) in H.
  assert (U2 : unsigned_groups s2) by (intros m g [<-|Hm] Hg; [destruct Hg | exact (U1 _ _ Hm Hg)]).
  assert (K : gk s2 s').
  { clear -H. destruct (existsb _ _); [apply ret_done in H as [-> _]; apply gk_refl|]. inv1 H. inv1 H. destruct v as [tn uuid]. inv1 H. inv1 H.
    apply bind_done in H as (s3 & r & H1 & H). destruct (r <? 0); [discriminate|]. clearbody s2. inv_all. gks. apply gk_same. reflexivity. }
  exact (unsigned_gk _ _ K U2).
Qed.
Lemma unsigned_step E s o s' : unsigned_groups s -> unsigned o -> step E s o = Done s' -> unsigned_groups s'.
Proof.
  intros U W H. apply step_inv in H as (s1 & u & H & ->). enough (Q : unsigned_groups s1) by exact Q.
  destruct (group_op o) eqn:G; [|exact (unsigned_gk _ _ (handle_op_gk _ _ G _ _ _ H) U)].
  destruct o; try discriminate G; cbn [handle_op unsigned] in H, W.
  - apply bind_done in H as (s2 & v & H1 & H). inv1 H. assert (K : gk s2 s1) by (clear - H; inv_all; gks). exact (unsigned_gk _ _ K (register_unsigned _ _ _ _ _ _ H1 U)).
  - exact (unregister_unsigned _ _ _ _ _ H U).
  - unfold with_mod in H. inv1 H. destruct (find_mod s fd) as [m0|] eqn:F; [|discriminate]. apply find_some in F as [F _].
    apply bind_done in H as (s2 & r & H1 & H). apply (unsigned_gk _ _ (reply_int_gk _ _ _ _ _ _ H)).
    unfold group_add in H1. destruct (150 <? zlen hs); [apply ret_done in H1 as [-> _]; exact U|]. destruct (group_slot _ _) as [[g z] i] eqn:Sl.
    assert (D : forall x, In x g -> Forall (fun h => 0 <= h_size h) (g_members x)) by (intros x Hx; destruct (group_slot_in _ _ _ _ _ _ Sl Hx) as [->|Q]; [constructor | exact (U _ _ F Q)]).
    destruct (i <? 0); [|destruct (group_fits hs 0)]; inv1 H1; apply ret_done in H1 as [-> _]; apply unsigned_upd; try exact U; try exact D.
    intros x Hx. apply in_zset in Hx as [->|Hx]; [exact W | exact (D _ Hx)].
  - unfold with_mod in H. inv1 H. destruct (find_mod s fd) as [m0|] eqn:F; [|discriminate].
    apply bind_done in H as (s2 & r & H1 & H). apply (unsigned_gk _ _ (reply_int_gk _ _ _ _ _ _ H)).
    unfold group_del in H1. destruct (znth (m_groups m0) i) as [g|]; [|discriminate]. destruct (g_live g); [|apply ret_done in H1 as [-> _]; exact U].
    inv1 H1. apply ret_done in H1 as [-> _]. intros m x Hm Hx. cbn in Hm. apply in_map_iff in Hm as (m1 & A & B). destruct (m_uid m1 =? m_uid m0); subst m; [|exact (U _ _ B Hx)].
    cbn in Hx. apply in_zset in Hx as [->|Hx]; [constructor | exact (U _ _ B Hx)].
Qed.
Lemma make_type_gk d : pres gk (make_type d).
Proof. unfold make_type. gk_tac. Qed.
Lemma add_sys_gk E n ty c : pres gk (add_sys E n ty c).
Proof. unfold add_sys. gk_tac. Qed.
Lemma add_virtual_gk E n ty c d : pres gk (add_virtual E n ty c d).
Proof. unfold add_virtual. gk_tac. Qed.
#[export] Hint Resolve make_type_gk add_sys_gk add_virtual_gk : gk.
Lemma init_tagbase_gk E : pres gk (init_tagbase E).
Proof. unfold init_tagbase. gk_tac. Qed.
Lemma restore_types_gk l : pres gk (restore_types l).
Proof. induction l; cbn [restore_types]; gk_tac. Qed.
Lemma restore_tag_gk E x : pres gk (restore_tag E x).
Proof. unfold restore_tag. gk_tac. Qed.
#[export] Hint Resolve restore_tag_gk : gk.
Lemma restore_tags_gk E l : pres gk (restore_tags E l).
Proof. induction l; cbn [restore_tags]; gk_tac. Qed.
#[export] Hint Resolve init_tagbase_gk restore_types_gk restore_tags_gk : gk.
Lemma boot_unsigned E now r s : boot E now r = Done s -> unsigned_groups s.
Proof.
  intros H. apply boot_runs in H as (u & H). rename s into s1.
  set (s0 := empty_server now (mk_rdb false [] 1 [])) in *. assert (K : gk s0 s1) by (clearbody s0; inv_all; gks). apply (unsigned_gk _ _ K). intros m g [].
Qed.
Lemma make_type_evout d : pres evout (make_type d).
Proof. intros s s' a H. unfold make_type in H. inv_all. apply evout_same. reflexivity. Qed.
Lemma add_sys_evout E n ty c : pres evout (add_sys E n ty c).
Proof. unfold add_sys. evo_tac. Qed.
Lemma add_virtual_evout E n ty c d : pres evout (add_virtual E n ty c d).
Proof. unfold add_virtual. evo_tac. Qed.
#[export] Hint Resolve make_type_evout add_sys_evout add_virtual_evout : evo.
Lemma init_tagbase_evout E : pres evout (init_tagbase E).
Proof. unfold init_tagbase. evo_tac. Qed.
Lemma restore_types_evout l : pres evout (restore_types l).
Proof. induction l; cbn [restore_types]; evo_tac. Qed.
Lemma restore_tag_evout E x : pres evout (restore_tag E x).
Proof. unfold restore_tag. evo_tac. Qed.
#[export] Hint Resolve restore_tag_evout : evo.
Lemma restore_tags_evout E l : pres evout (restore_tags E l).
Proof. induction l; cbn [restore_tags]; evo_tac. Qed.
#[export] Hint Resolve init_tagbase_evout restore_types_evout restore_tags_evout : evo.
Lemma boot_evout E now r s : boot E now r = Done s -> Forall fit_event (s_out s).
Proof.
  intros H. apply boot_runs in H as (u & H). rename s into s1.
  set (s0 := empty_server now (mk_rdb false [] 1 [])) in *. assert (Z : s_out s0 = []) by reflexivity.
  assert (K : evout s0 s1).
  { clearbody s0. apply bind_done in H as (s2 & v & H1 & H). eapply evout_trans; [exact (init_tagbase_evout _ _ _ _ H1)|]. destruct (r_open r); [|apply ret_done in H as [-> _]; apply evout_refl].
    inv_all. apply (evout_trans _ s3); [evo | apply evout_same; reflexivity]. }
  destruct K as (ev & K1 & K2). rewrite K1, Z. exact K2.
Qed.

(** FULL STATEMENT (false, see the refutations): without [supported].
    Whatever the request and whatever the state, the requesting connection gets exactly one answer, about the command it asked for, that
    fits into a message and, if it is an error, carries a negative code; before it only notifications of events are sent *)
Theorem C96_answer_partial : forall E s o s' fd cmd, reachable E s -> unsigned_groups s -> asks o = Some (fd, cmd) -> supported o -> step E s o = Done s' ->
  exists a, answered s s' a /\ answers a = Some (fd, cmd) /\ sound a.
Proof. exact served_step. Qed.
(** nobody asked, nobody is answered *)
Theorem C96_silent : forall E s o s', asks o = None -> step E s o = Done s' -> exists ev, s_out s' = s_out s ++ ev /\ Forall is_event ev.
Proof. intros E s o s' A H. destruct (silent_step _ _ _ _ A H) as (ev & P & Q). exists ev. split; [exact P | apply fit_is_event; exact Q]. Qed.
(** FULL STATEMENT (false): without [supported].
    From the start of the server, for any requests of any clients in any order: the answers sent are those to the requests made, one each, in that order *)
Theorem C96_history_partial : forall E now r s0 os s, boot E now r = Done s0 -> Forall unsigned os -> Forall supported os -> exec E s0 os = Done s ->
  pick answers (s_out s) = pick asks os.
Proof.
  intros E now r s0 os s B W S H.
  assert (G : forall os x y, reachable E x -> unsigned_groups x -> Forall unsigned os -> Forall supported os -> exec E x os = Done y ->
    pick answers (s_out y) = pick answers (s_out x) ++ pick asks os).
  { clear. induction os as [|o os IH]; intros x y R U W S H; cbn [exec] in H; [injection H as <-; cbn [pick]; rewrite app_nil_r; reflexivity|].
    apply Forall_cons_iff in W as [W1 W2]. apply Forall_cons_iff in S as [S1 S2]. apply rbind_done in H as (z & H1 & H).
    rewrite (IH z y (reachable_step _ _ _ _ R H1) (unsigned_step _ _ _ _ U W1 H1) W2 S2 H). cbn [pick].
    destruct (asks o) as [[fd cmd]|] eqn:A.
    - destruct (served_step _ _ _ _ _ _ R U A S1 H1) as (a & (ev & P1 & P2) & Q & _). rewrite P1, !pick_app, (pick_events _ P2). cbn [pick]. rewrite Q, <- app_assoc. reflexivity.
    - destruct (silent_step _ _ _ _ A H1) as (ev & P1 & P2). apply fit_is_event in P2. rewrite P1, pick_app, (pick_events _ P2), app_nil_r. reflexivity. }
  rewrite (G os s0 s); try assumption.
  - rewrite (pick_events _ (fit_is_event _ (boot_evout _ _ _ _ B))). reflexivity.
  - exists now, r, s0, []. split; [exact B | reflexivity].
  - exact (boot_unsigned _ _ _ _ B).
Qed.

(** the answers one client gets, in the order of its own requests *)
Theorem C96_client_partial : forall E now r s0 os s fd, boot E now r = Done s0 -> Forall unsigned os -> Forall supported os -> exec E s0 os = Done s ->
  filter (fun x => fst x =? fd) (pick answers (s_out s)) = filter (fun x => fst x =? fd) (pick asks os).
Proof. intros E now r s0 os s fd B W S H. f_equal. eapply C96_history_partial; eassumption. Qed.

(** a message that is understood asks for an answer to its sender about the command in its header, and its sizes are unsigned *)
Lemma u32_at_nonneg d k x : bytes_ok d -> u32_at d k = Done x -> 0 <= x.
Proof.
  intros B H. unfold u32_at in H. destruct (in_bounds k 4 (zlen d)); [|discriminate]. injection H as <-.
  apply le_val_range. apply bytes_ok_slice. exact B.
Qed.
Lemma handle_at_size d k h : bytes_ok d -> handle_at d k = Done h -> 0 <= h_size h.
Proof.
  intros B H. unfold handle_at in H. apply rbind_done in H as (a1 & _ & H). apply rbind_done in H as (a2 & _ & H). apply rbind_done in H as (a3 & _ & H).
  apply rbind_done in H as (a4 & _ & H). apply rbind_done in H as (a5 & Q & H). apply rbind_done in H as (a6 & _ & H). injection H as <-. cbn. eapply u32_at_nonneg; eassumption.
Qed.
Lemma handles_at_size d : bytes_ok d -> forall n k hs, handles_at n d k = Done hs -> Forall (fun h => 0 <= h_size h) hs.
Proof.
  intros B. induction n as [|n IH]; intros k hs H; cbn in H; [injection H as <-; constructor|].
  apply rbind_done in H as (h & Q & H). apply rbind_done in H as (r & Q2 & H). injection H as <-. constructor; [eapply handle_at_size; eassumption | eapply IH; eassumption].
Qed.
Theorem C96_decoded : forall fd cmd d o, bytes_ok d -> decode fd cmd d = Done o -> asks o = Some (fd, cmd) /\ unsigned o.
Proof.
  intros fd cmd d o B H. unfold decode in H.
  destruct cmd as [|p|p]; try discriminate H.
  do 5 (try destruct p as [p|p|]); try discriminate H;
  repeat match type of H with
  | rbind _ _ = Done _ => let x := fresh "x" in let Q := fresh "Q" in apply rbind_done in H as (x & Q & H)
  | (if ?b then _ else _) = Done _ => destruct b
  | (let n := _ in _) = Done _ => cbv zeta in H
  end; try discriminate H; injection H as <-; try (split; [reflexivity | exact I]).
  all: split; [reflexivity|]; cbn [unsigned].
  - apply Forall_forall. intros h Hh. apply in_repeat in Hh. subst h. cbn. lia.
  - eapply handles_at_size; eassumption.
Qed.

(** ** The exceptions *)
(** 1. Two commands have a number and an (empty) handler, but no answer; the client would wait until its timeout *)
Theorem C96_unsupported_refuted : forall E s fd cmd d, cmd = 5 \/ cmd = 11 ->
  exists o s', decode fd cmd d = Done o /\ asks o = Some (fd, cmd) /\ serve_frame E s (Frame fd cmd d) = Done s' /\ s_out s' = s_out s.
Proof.
  intros E s fd cmd d [-> | ->]; eexists; eexists; (split; [reflexivity|]); (split; [reflexivity|]); (split; [reflexivity|]); reflexivity.
Qed.
(** 2. A read of a queue with a size that fits into no message takes the item out of the queue, and nothing is sent *)
Definition ask_ops : list op := [OpTagAdd 5 (str "q") (T_BYTE + T_QUEUE) 1 0; OpWrite 5 11 0 [7]; OpWrite 5 11 0 [8]].
Theorem C96_queue_refuted : exists E s s1 s2, reachable E s /\ step E s (OpRead 5 11 0 5000) = Done s1 /\ asks (OpRead 5 11 0 5000) = Some (5, 6) /\ s_out s1 = s_out s /\
  step E s1 (OpRead 5 11 0 1) = Done s2 /\ s_out s2 = s_out s ++ [OResp 5 6 [8]] /\
  exists s3, step E s (OpRead 5 11 0 1) = Done s3 /\ s_out s3 = s_out s ++ [OResp 5 6 [7]].
Proof.
  exists env0, (after_ops env0 ask_ops). eexists. eexists. split; [apply after_reachable; vm_compute; reflexivity|].
  split; [vm_compute; reflexivity|]. split; [reflexivity|]. split; [vm_compute; reflexivity|]. split; [vm_compute; reflexivity|]. split; [vm_compute; reflexivity|].
  eexists. split; [vm_compute; reflexivity|]. vm_compute. reflexivity.
Qed.

(** two clients; a tag is added, read, refused a second time with another type, written, and an event is registered and fires *)
Definition talk : list op :=
  [OpRegister 5 (str "a"); OpRegister 6 (str "b"); OpTagAdd 5 (str "t") T_INT 2 0; OpRead 6 13 0 4; OpTagAdd 6 (str "t") T_DINT 2 0;
   OpEvAdd 6 (mk_h 13 0 0 2 4 T_INT) EV_CHANGE []; OpWrite 5 13 0 [1; 2; 3; 4]; OpTick 1000; OpTagGetName 6 (str "u")].
Example C96_ex : exists s0 s, boot env0 1000 empty_ret = Done s0 /\ exec env0 s0 talk = Done s /\ Forall unsigned talk /\ Forall supported talk /\
  pick answers (s_out s) = [(5, 1); (6, 1); (5, 2); (6, 6); (6, 2); (6, 9); (5, 7); (6, 4)].
Proof.
  assert (P : plays env0 talk = true) by (vm_compute; reflexivity). assert (Q := play_after _ _ P). unfold play in Q. apply rbind_done in Q as (s0 & B & H).
  exists s0, (after_ops env0 talk). split; [exact B|]. split; [exact H|]. split; [|split].
  - repeat constructor.
  - repeat constructor; cbn; lia.
  - vm_compute. reflexivity.
Qed.
