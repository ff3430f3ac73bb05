(** * Properties of the tag directory: C01, C02, C03, C10, C11, C19 *)
From Verif Require Import Base Const Types State Events Atomic Server Lib SearchProofs Shape Inv Reach Spec Frame Effects Out Demo.

(** ** Looking up *)
Lemma bind_lift_done {S A B} (r : run A) (k : A -> M S B) s a : r = Done a -> bind (lift r) k s = k a s.
Proof. intros ->. reflexivity. Qed.
Lemma validate_len n : validate_name n = 0 -> 0 < zlen n <= 32.
Proof.
  unfold validate_name, TAGNAME_SIZE. destruct (32 <? zlen n) eqn:L; [discriminate|].
  destruct n; [discriminate|]. rewrite zlen_cons in *. assert (Q := zlen_nonneg n). intros _. lia.
Qed.
Lemma info_len i ty c a n : zlen (info_bytes (i, ty, c, a, n)) = 15 + zlen n.
Proof. unfold info_bytes. rewrite !zlen_app, !zlen_le_bytes. rewrite zlen_cons, zlen_nil. lia. Qed.

(** C01: a live tag is found under its name, with its index, type, count and attributes *)
Theorem C01_lookup_live : forall E s fd i n t,
  reachable E s -> named s i n t ->
  step E s (OpTagGetName fd n) =
    Done (after s [OResp fd MSG_TAG_GET (info_bytes (i, t_type t, t_count t, t_attr t, n))]).
Proof.
  intros E s fd i n t R [H1 H2]. assert (I := reachable_Inv _ _ R).
  assert (T := iv_tags _ I _ _ H1). assert (L := validate_len _ (it_name _ _ T _ H2)).
  assert (D := dead_not_named _ _ _ T H2).
  assert (G : get_by_name (s_index s) n = Done i).
  { apply get_by_name_in; [apply I|]. apply (iv_index _ I). eauto. }
  assert (Rg := znth_range _ _ _ H1).
  assert (Q : tag_get_name s n = Done (inl (i, t_type t, t_count t, t_attr t, n))).
  { unfold tag_get_name. rewrite G. cbn. replace (i <? 0) with false by lia.
    unfold info_at. rewrite H1. destruct (t_data t); try congruence; rewrite H2; reflexivity. }
  unfold step. cbn [handle_op]. rewrite bind_get. unfold h_tag_get. unfold bind, lift. rewrite Q.
  unfold respond. rewrite info_len. replace (MSG_DATA_SIZE <? 15 + zlen n) with false by (unfold MSG_DATA_SIZE; lia).
  reflexivity.
Qed.
(** ... and a name that no live tag carries is not found.  (In the C code the failing lookup
    first runs strlen over an uninitialised array: undefined behaviour, harmless in practice.) *)
Theorem C01_lookup_absent : forall E s fd n,
  reachable E s -> ~ exists_tag s n ->
  step E s (OpTagGetName fd n) =
    if en_strict E then Undef UUninit else Done (after s [OErr fd MSG_TAG_GET E_NOTFOUND]).
Proof.
  intros E s fd n R H. assert (I := reachable_Inv _ _ R).
  assert (G : get_by_name (s_index s) n = Done E_NOTFOUND).
  { apply get_by_name_notin; [apply I|]. intros i Hi. apply (iv_index _ I) in Hi as [t [H1 H2]]. apply H. exists i, t. split; assumption. }
  unfold step. cbn [handle_op]. rewrite bind_get. unfold h_tag_get. unfold bind, lift, tag_get_name. rewrite G. cbn.
  destruct (en_strict E); reflexivity.
Qed.
(** no two live tags have the same name *)
Theorem C01_unique_names : forall E s i j n t u,
  reachable E s -> named s i n t -> named s j n u -> i = j.
Proof.
  intros E s i j n t u R [H1 H2] [H3 H4]. assert (I := reachable_Inv _ _ R).
  assert (A : In (n, i) (s_index s)) by (apply (iv_index _ I); eauto).
  assert (B : In (n, j) (s_index s)) by (apply (iv_index _ I); eauto).
  apply get_by_name_in in A; [|apply I]. apply get_by_name_in in B; [|apply I]. congruence.
Qed.
Example C01_lookup_live_ex : exists t, named demo 13 (str "foo") t.
Proof. eexists; split; vm_compute; reflexivity. Qed.
Example C01_lookup_absent_ex : ~ exists_tag demo_del (str "foo").
Proof. apply (absent_check _ _ _ demo_del_reachable). vm_compute. reflexivity. Qed.

(** ** How the set of live tags evolves *)
(** the requests that add or remove tags *)
Definition directory_op (o : op) : bool :=
  match o with OpRegister _ _ | OpDisconnect _ | OpTagAdd _ _ _ _ _ | OpTagDel _ _ => true | _ => false end.
Lemma step_inv E s o s' : step E s o = Done s' -> exists s1 u, handle_op E o s = Done (s1, u) /\ s' = set_step s1 (s_step s1 + 1).
Proof.
  unfold step. destruct (handle_op E o s) as [[s1 u]|] eqn:H; [|discriminate]. intros K; injection K as <-. eauto.
Qed.
Lemma quiet_names E s o s' i : Inv s -> step E s o = Done s' -> directory_op o = false -> name_at s' i = name_at s i.
Proof.
  intros I H D. apply step_inv in H as (s1 & u & H & ->). change (name_at (set_step s1 (s_step s1 + 1)) i) with (name_at s1 i).
  destruct (shape_op o) eqn:S; [apply shape_name; eapply handle_op_shape; eassumption|].
  destruct o; try discriminate; cbn [handle_op] in H.
  - unfold h_cdt_create in H. inv1 H. inv1 H. destruct v as [[ts ty] err]. inv1 H. cbv zeta in H.
    assert (Sh : shape (set_types s ts) s1) by (inv1 H; [eapply reply_err_shape | eapply respond_shape]; exact H).
    rewrite (shape_name _ _ i Sh). reflexivity.
  - inv_all. reflexivity.
Qed.
Lemma h_tag_del_effect E fd idx s s' u : Inv s -> h_tag_del E fd idx s = Done (s', u) ->
  (exists code, code < 0 /\ s' = set_out s (s_out s ++ [OErr fd MSG_TAG_DEL code])) \/
  (exists n t s1, named s idx n t /\ nthb n 0 <> 95 /\ tag_del E idx s = Done (s1, 0) /\
     s' = set_out s1 (s_out s1 ++ [OResp fd MSG_TAG_DEL (le_bytes 4 idx)])).
Proof.
  intros I H. unfold h_tag_del in H. inv1 H. inv1 H. inv1 H.
  destruct v as [[[[[i ty] c] a] nm]|e].
  - assert (N : exists t, named s idx nm t).
    { unfold tag_get_index in Hr. destruct ((idx <? 0) || (zlen (s_db s) <=? idx)); [discriminate|].
      unfold info_at in Hr. destruct (znth (s_db s) idx) as [t|] eqn:Z; [|discriminate].
      exists t. split; [assumption|]. destruct (t_data t); try discriminate; destruct (t_name t); congruence. }
    destruct N as [t N].
    destruct (nthb nm 0 =? 95) eqn:U.
    + inv1 Hm. left. exists E_ILLEGAL. split; [reflexivity|]. cbn [Z.eqb E_ILLEGAL] in H. unfold reply_err in H. inv_all. reflexivity.
    + assert (Hd := Hm). apply tag_del_effect in Hd as [[Hneg ->]|(-> & _)].
      * left. exists v0. split; [exact Hneg|]. replace (v0 =? 0) with false in H by lia. unfold reply_err in H. inv_all. reflexivity.
      * right. exists nm, t, s0. split; [exact N|]. split; [lia|]. split; [exact Hm|].
        unfold respond in H. cbn [Z.eqb] in H. rewrite zlen_le_bytes in H. cbn in H. inv_all. reflexivity.
  - inv1 Hm. left. exists E_ARG. split; [reflexivity|]. cbn [Z.eqb E_ARG] in H. unfold reply_err in H. inv_all. reflexivity.
Qed.
Lemma h_tag_add_effect E fd nm ty c a s s' u : handle_op E (OpTagAdd fd nm ty c a) s = Done (s', u) ->
  (nthb nm 0 = 95 /\ s' = set_out s (s_out s ++ [OErr fd MSG_TAG_ADD E_ILLEGAL])) \/
  (nthb nm 0 <> 95 /\ exists s1 r, tag_add E fd nm (u32 ty) (u32 c) (u32 a) s = Done (s1, r) /\
     s' = set_out s1 (s_out s1 ++ [if r <? 0 then OErr fd MSG_TAG_ADD r else OResp fd MSG_TAG_ADD (le_bytes 4 r)])).
Proof.
  cbn [handle_op]. intros H. inv1 H. destruct (nthb nm 0 =? 95) eqn:U.
  - inv1 Hm. left. split; [lia|]. unfold reply_int, reply_err in H. cbn [Z.ltb E_ILLEGAL Z.compare] in H. inv_all. reflexivity.
  - right. split; [lia|]. exists s0, v. split; [exact Hm|]. unfold reply_int, reply_err, respond in H.
    destruct (v <? 0); [inv_all; reflexivity|]. rewrite zlen_le_bytes in H. cbn in H. inv_all. reflexivity.
Qed.
Lemma u32_range x : 0 <= u32 x < 4294967296.
Proof. unfold u32. apply Z.mod_pos_bound. lia. Qed.

(** C01: the set of live tags changes exactly as the answers say.
    1. Requests other than add, delete, connect, disconnect do not change it. *)
Theorem C01_quiet : forall E s o s' i n,
  reachable E s -> step E s o = Done s' -> directory_op o = false ->
  (exists t, named s' i n t) <-> (exists t, named s i n t).
Proof.
  intros E s o s' i n R H D. rewrite <- !named_iff.
  rewrite (quiet_names _ _ _ _ i (reachable_Inv _ _ R) H D). tauto.
Qed.
(** 2. An add request is answered with an error and changes no name, or with an index r: then
    tag r has that name afterwards and every other index has the name it had before. *)
Theorem C01_add : forall E s fd nm ty c a s',
  reachable E s -> step E s (OpTagAdd fd nm ty c a) = Done s' ->
  (exists code, code < 0 /\ answered s s' (OErr fd MSG_TAG_ADD code) /\
     forall i n, (exists t, named s' i n t) <-> (exists t, named s i n t)) \/
  (exists r, 0 <= r /\ answered s s' (OResp fd MSG_TAG_ADD (le_bytes 4 r)) /\ (exists t, named s' r nm t /\ t_type t = u32 ty) /\
     forall i n, (exists t, named s' i n t) <-> ((exists t, named s i n t) \/ (i = r /\ n = nm))).
Proof.
  intros E s fd nm ty c a s' R H. assert (I := reachable_Inv _ _ R).
  apply step_inv in H as (s1 & u & H & ->). apply h_tag_add_effect in H as [[_ ->]|(U & s2 & r & Ha & ->)].
  - left. exists E_ILLEGAL. split; [reflexivity|]. split; [apply answered_step, answered_err, evout_refl|].
    intros i n. rewrite <- !named_iff. unfold name_at; cbn. tauto.
  - assert (EO := tag_add_evout _ _ _ _ _ _ _ _ _ Ha).
    assert (Ef := tag_add_effect _ _ _ _ _ _ _ _ _ I (u32_range c) Ha).
    destruct (r <? 0) eqn:Neg.
    + left. exists r. split; [lia|]. split; [apply answered_step, answered_err; exact EO|].
      intros i n. rewrite <- !named_iff. change (name_at (set_step _ _) i) with (name_at s2 i).
      destruct Ef as [(_ & Q & _)|[(Q & _)|(Q & _)]]; [rewrite (core_name _ _ _ (Q i)); tauto | lia|].
      assert (Z := zlen_nonneg (s_db s)). lia.
    + right. exists r. split; [lia|]. split; [apply answered_step, answered_resp; exact EO|].
      assert (Hr : 0 <= r) by lia.
      destruct (tag_add_post _ _ _ _ _ _ _ _ _ I (u32_range c) Ha Hr) as (t & Z1 & Z2 & Z3 & _).
      split; [exists t; split; [split; assumption|exact Z3]|].
      intros i n. rewrite <- !named_iff. change (name_at (set_step _ _) i) with (name_at s2 i).
      destruct Ef as [(Q & _)|[(_ & [t0 [[A1 A2] _]] & Q & _)|(Q0 & _ & Q1 & Q2 & _)]]; [lia | |].
      * rewrite Q. split; [tauto|]. intros [W|[-> ->]]; [exact W|]. unfold name_at. rewrite A1. exact A2.
      * destruct (Z.eq_dec i r) as [->|Hne].
        -- rewrite Q1. split; [intros W; injection W as <-; auto|]. intros [W|[_ ->]]; [|reflexivity].
           exfalso. apply named_iff in W as [t1 [W _]]. apply znth_range in W. lia.
        -- rewrite Q2 by assumption. split; [tauto|]. intros [W|[W _]]; [exact W | congruence].
Qed.
(** 3. A delete request is answered with an error and changes nothing, or with the index: then
    exactly that tag is gone. *)
Theorem C01_del : forall E s fd idx s',
  reachable E s -> step E s (OpTagDel fd idx) = Done s' ->
  (exists code, code < 0 /\ s' = after s [OErr fd MSG_TAG_DEL code]) \/
  (answered s s' (OResp fd MSG_TAG_DEL (le_bytes 4 idx)) /\ (exists n t, named s idx n t) /\
     forall i n, (exists t, named s' i n t) <-> ((exists t, named s i n t) /\ i <> idx)).
Proof.
  intros E s fd idx s' R H. assert (I := reachable_Inv _ _ R).
  apply step_inv in H as (s1 & u & H & ->). apply h_tag_del_effect in H; [|exact I].
  destruct H as [(code & Hc & ->)|(n & t & s2 & N & U & Hd & ->)].
  - left. exists code. split; [exact Hc | reflexivity].
  - right. assert (EO := tag_del_evout _ _ _ _ _ Hd). split; [apply answered_step, answered_resp; exact EO|].
    split; [eauto|]. intros i m. rewrite <- !named_iff. change (name_at (set_step _ _) i) with (name_at s2 i).
    apply tag_del_effect in Hd as [[Q _]|(_ & _ & (t' & G1 & G2 & _) & K & _)]; [lia|].
    destruct (Z.eq_dec i idx) as [->|Hne].
    + unfold name_at at 1. rewrite G1, G2. split; [discriminate | tauto].
    + rewrite (core_name _ _ _ (K i Hne)). tauto.
Qed.
(** 4. A disconnecting module takes only tags away, and only ones it owns and its status tag;
    connecting (which disconnects an earlier registration of the same connection first) adds at
    most one tag, a status tag named _m... *)
Theorem C01_disconnect : forall E s fd s' i,
  reachable E s -> step E s (OpDisconnect fd) = Done s' ->
  (forall n, (exists t, named s' i n t) -> exists t, named s i n t) /\
  (forall n t, named s i n t -> ~ (exists t', named s' i n t') ->
     exists m, find_mod s fd = Some m /\ (tag_owned s fd i = true \/ i = m_tagidx m)).
Proof.
  intros E s fd s' i R H. assert (I := reachable_Inv _ _ R).
  apply step_inv in H as (s1 & u & H & ->). cbn [handle_op] in H.
  assert (K : name_at s1 i = name_at s i \/ (name_at s1 i = None /\ exists m, find_mod s fd = Some m /\ (tag_owned s fd i = true \/ i = m_tagidx m))).
  { destruct (find_mod s fd) as [m|] eqn:F.
    - destruct (module_unregister_effect _ _ _ _ _ _ I F H) as (A & _).
      destruct (A i) as [K|[K1 K2]]; [left; apply kept_name; exact K | right; split; [apply is_gone_name; exact K2 | eauto]].
    - unfold module_unregister in H. inv1 H. rewrite F in H. inv_all. left; reflexivity. }
  split.
  - intros n Hn. apply named_iff. apply named_iff in Hn. change (name_at s1 i = Some n) in Hn. destruct K as [K|[K _]]; congruence.
  - intros n t N Hn. destruct K as [K|[_ K]]; [|exact K]. exfalso. apply Hn. apply named_iff.
    change (name_at s1 i = Some n). rewrite K. apply named_iff. eauto.
Qed.
Theorem C01_register : forall E s fd nm s' i,
  reachable E s -> step E s (OpRegister fd nm) = Done s' ->
  (forall n t, named s' i n t -> (exists t', named s i n t') \/ (i = zlen (s_db s) /\ nthb n 0 = 95)) /\
  (forall n t, named s i n t -> ~ (exists t', named s' i n t') ->
     exists m, find_mod s fd = Some m /\ (tag_owned s fd i = true \/ i = m_tagidx m)).
Proof.
  intros E s fd nm s' i R H. assert (I := reachable_Inv _ _ R).
  apply step_inv in H as (s1 & u & H & ->). cbn [handle_op] in H. inv1 H. inv1 H. inv1 H.
  assert (K := module_register_effect _ _ _ _ _ _ I Hm i).
  assert (Sh : shape s0 s1).
  { eapply shape_trans; [eapply tag_read_shape; exact Hm0 | eapply respond_shape; exact H]. }
  assert (N1 : name_at s1 i = name_at s0 i) by (apply shape_name; exact Sh).
  split.
  - intros n t N. assert (Q : name_at s1 i = Some n) by (apply (proj2 (named_iff (set_step s1 (s_step s1 + 1)) i n)); eauto).
    rewrite N1 in Q. destruct K as [K|[[K _]|[K1 [r K2]]]]; [left; apply named_iff; congruence | congruence|].
    right. split; [exact K1|]. rewrite K2 in Q. injection Q as <-. reflexivity.
  - intros n t N Hn. destruct K as [K|[[_ K]|[K _]]]; [|exact K|].
    + exfalso. apply Hn. apply named_iff. change (name_at s1 i = Some n). rewrite N1, K. apply named_iff. eauto.
    + exfalso. destruct N as [N _]. apply znth_range in N. lia.
Qed.
(** Over whole histories.  A live tag stays, under its name, as long as nobody deletes it and
    nobody connects or disconnects ... *)
Theorem C01_history_keep : forall E os s s' i n t,
  reachable E s -> exec E s os = Done s' -> named s i n t ->
  (forall o, In o os -> match o with OpRegister _ _ | OpDisconnect _ => False | OpTagDel _ j => j <> i | _ => True end) ->
  exists t', named s' i n t'.
Proof.
  intros E os. induction os as [|o os IH]; intros s s' i n t R H N Ho; cbn in H.
  - injection H as <-. eauto.
  - apply rbind_done in H as [s1 [H1 H2]].
    assert (Q : exists t1, named s1 i n t1).
    { specialize (Ho o (or_introl eq_refl)). destruct (directory_op o) eqn:D.
      - destruct o; try discriminate; try tauto.
        + destruct (C01_add _ _ _ _ _ _ _ _ R H1) as [(c & _ & _ & K)|(r & _ & _ & _ & K)]; apply K; eauto.
        + destruct (C01_del _ _ _ _ _ R H1) as [(c & _ & ->)|(_ & _ & K)]; [exists t; exact N | apply K; eauto].
      - apply (C01_quiet _ _ _ _ _ _ R H1 D). eauto. }
    destruct Q as [t1 Q]. eapply IH; [eapply reachable_step; eassumption | exact H2 | exact Q|].
    intros x Hx. apply Ho. right; exact Hx.
Qed.
(** ... and a tag that exists at the end existed at the start, or an add request for it is in the
    history, or it is a module's status tag and a connect request is in the history. *)
Theorem C01_history_origin : forall E os s s' i n t',
  reachable E s -> exec E s os = Done s' -> named s' i n t' ->
  (exists t, named s i n t) \/
  (exists fd ty c a, In (OpTagAdd fd n ty c a) os) \/
  (nthb n 0 = 95 /\ exists fd nm, In (OpRegister fd nm) os).
Proof.
  intros E os. induction os as [|o os IH]; intros s s' i n t' R H N; cbn in H.
  - injection H as <-. left; eauto.
  - apply rbind_done in H as [s1 [H1 H2]].
    destruct (IH _ _ _ _ _ (reachable_step _ _ _ _ R H1) H2 N) as [[t1 Q]|[(fd & ty & c & a & Q)|(U & fd & nm & Q)]].
    + destruct (directory_op o) eqn:D.
      * destruct o; try discriminate.
        -- destruct (proj1 (C01_register _ _ _ _ _ i R H1) _ _ Q) as [K|[_ K]]; [left; exact K|].
           right; right. split; [exact K|]. exists fd, nm. left; reflexivity.
        -- left. apply (proj1 (C01_disconnect _ _ _ _ i R H1)). eauto.
        -- destruct (C01_add _ _ _ _ _ _ _ _ R H1) as [(c & _ & _ & K)|(r & _ & _ & _ & K)].
           ++ left. apply K. eauto.
           ++ destruct (proj1 (K i n) (ex_intro _ _ Q)) as [W|[-> ->]]; [left; exact W|].
              right; left. exists fd, type, count, attr. left; reflexivity.
        -- destruct (C01_del _ _ _ _ _ R H1) as [(c & _ & ->)|(_ & _ & K)]; [left; exists t1; exact Q|].
           left. apply K. eauto.
      * left. apply (C01_quiet _ _ _ _ i n R H1 D). eauto.
    + right; left. exists fd, ty, c, a. right; exact Q.
    + right; right. split; [exact U|]. exists fd, nm. right; exact Q.
Qed.
Example C01_history_ex : exists s, exec env0 demo [OpTagAdd 6 (str "x1") T_LREAL 3 0; OpTagDel 5 14] = Done s /\
  (exists t, named s 13 (str "foo") t) /\ (exists t, named s 16 (str "x1") t) /\ gone s 14.
Proof.
  eexists. split; [vm_compute; reflexivity|]. split; [|split]; eexists; split; vm_compute; reflexivity.
Qed.

(** ** C02: an index denotes the same tag forever *)
Theorem C02_index_permanent : forall E os s s' i n t,
  reachable E s -> exec E s os = Done s' -> named s i n t ->
  (exists t', named s' i n t' /\ t_type t' = t_type t) \/ gone s' i.
Proof.
  intros E os s s' i n t R H [N1 N2]. destruct (exec_good _ _ _ _ H (reachable_Inv _ _ R)) as [_ M].
  destruct (mo_tags _ _ M _ _ N1) as [t' [Z' [T1 T2]]]. destruct T2 as [T2|T2].
  - left. exists t'. split; [split; congruence | exact T1].
  - right. exists t'. split; assumption.
Qed.
Theorem C02_gone_forever : forall E os s s' i,
  reachable E s -> exec E s os = Done s' -> gone s i -> gone s' i.
Proof.
  intros E os s s' i R H (t & N1 & N2). destruct (exec_good _ _ _ _ H (reachable_Inv _ _ R)) as [_ M].
  destruct (mo_tags _ _ M _ _ N1) as [t' [Z' [T1 T2]]]. exists t'. split; [exact Z'|]. destruct T2; congruence.
Qed.
(** a tag created later under the same name has another index *)
Theorem C02_new_tag_new_index : forall E os s s' i n t j,
  reachable E s -> exec E s os = Done s' -> gone s i -> named s' j n t -> j <> i.
Proof.
  intros E os s s' i n t j R H G [N1 N2] ->. destruct (C02_gone_forever _ _ _ _ _ R H G) as (t' & A & B). congruence.
Qed.

Lemma reachable_exec E os : forall s s', reachable E s -> exec E s os = Done s' -> reachable E s'.
Proof.
  induction os as [|o os IH]; intros s s' R H; cbn in H; [injection H as <-; exact R|].
  apply rbind_done in H as [s1 [H1 H2]]. eapply IH; [eapply reachable_step; eassumption | exact H2].
Qed.

(** ** C10 (and the second half of C02): requests naming a deleted index *)
Lemma gone_data E s i : reachable E s -> gone s i -> exists t, znth (s_db s) i = Some t /\ t_name t = None /\ t_data t = DNull /\
  dead_attr (t_attr t) /\ (exists n, tag_size (s_types s) t = Done n) /\ (exists n, raw_size (s_types s) t = Done n).
Proof.
  intros R (t & H1 & H2). assert (T := iv_tags _ (reachable_Inv _ _ R) _ _ H1). exists t.
  assert (D : t_data t = DNull) by (apply (it_live _ _ T); exact H2).
  assert (Z1 : exists n, type_size (s_types s) (t_type t) = Done n).
  { destruct (it_size _ _ T) as [n N]. unfold new_size in N. destruct (t_type t =? T_BOOL) eqn:B.
    - assert (t_type t = T_BOOL) as -> by lia. exists 0. reflexivity.
    - destruct (type_size (s_types s) (t_type t)); [eauto | discriminate]. }
  destruct Z1 as [n Z1]. repeat split; try assumption; try apply (it_dead _ _ T D).
  - unfold tag_size. destruct (t_type t =? T_BOOL); [eauto|]. rewrite Z1. cbn. eauto.
  - unfold raw_size. rewrite Z1. cbn. eauto.
Qed.
Lemma done_err E s o fd cmd code : handle_op E o s = Done (set_out s (s_out s ++ [OErr fd cmd code]), tt) -> code < 0 -> refused E s o fd cmd.
Proof. intros H L. exists code. split; [exact L|]. unfold step. rewrite H. reflexivity. Qed.
(** requests that read, write, mask-write, modify or override the data of tag [i], delete it or
    query it; the sum of offset and size must be a 32-bit int, else the C code overflows (C09) *)
Inductive tag_request (E : env) (i fd : Z) : op -> Z -> Prop :=
| tr_read off size : fits32 (off + size) = true -> tag_request E i fd (OpRead fd i off size) MSG_TAG_READ
| tr_write off d : fits32 (off + zlen d) = true -> tag_request E i fd (OpWrite fd i off d) MSG_TAG_WRITE
| tr_mask off d m : fits32 (off + zlen d) = true -> tag_request E i fd (OpMask fd i off d m) MSG_TAG_MWRITE
| tr_del : tag_request E i fd (OpTagDel fd i) MSG_TAG_DEL
| tr_get : en_strict E = false -> tag_request E i fd (OpTagGetIdx fd i) MSG_TAG_GET
| tr_atomic h opr d : h_index h = i -> tag_request E i fd (OpAtomic fd h opr d) MSG_ATOMIC_OP
| tr_ovadd off d m : tag_request E i fd (OpOvAdd fd i off d m) MSG_ADD_OVRD
| tr_ovdel off m : tag_request E i fd (OpOvDel fd i off m) MSG_DEL_OVRD
| tr_ovget off size : tag_request E i fd (OpOvGet fd i off size) MSG_GET_OVRD
| tr_ovset flag : tag_request E i fd (OpOvSet fd i flag) MSG_SET_OVRD.
Theorem C10_gone_refused : forall E s i fd o cmd,
  reachable E s -> gone s i -> tag_request E i fd o cmd -> refused E s o fd cmd.
Proof.
  intros E s i fd o cmd R G Q. destruct (gone_data _ _ _ R G) as (t & Ht & Hn & Hd & (A1 & A2 & A3 & A4 & A5) & [n Hs] & [n' Hr]).
  assert (Rg := znth_range _ _ _ Ht). destruct Q as [off size F|off d F|off d m F| |St|h opr d Hi|off d m|off m|off size|flag].
  - destruct (n <? off + size) eqn:L; [apply done_err with (code := E_2BIG) | apply done_err with (code := E_DELETED)]; try reflexivity;
      cbn [handle_op]; unfold h_read; rewrite bind_get; unfold bind, tag_read; rewrite Ht, A2, F; cbn [negb]; rewrite Hs; cbn [rbind]; rewrite L;
      [|rewrite Hd]; reflexivity.
  - destruct (n <? off + zlen d) eqn:L; [apply done_err with (code := E_2BIG) | apply done_err with (code := E_DELETED)]; try reflexivity;
      cbn [handle_op]; unfold h_write; rewrite bind_get; unfold bind; rewrite (attr_at_znth _ _ _ _ Ht); cbn [lift]; rewrite A1; cbn [andb];
      unfold tag_write; rewrite Ht, A2, F; cbn [negb]; rewrite Hs; cbn [rbind]; rewrite L;
      [|rewrite Hd]; reflexivity.
  - destruct (n <? off + zlen d) eqn:L; [apply done_err with (code := E_2BIG) | apply done_err with (code := E_DELETED)]; try reflexivity;
      cbn [handle_op]; unfold h_mask; rewrite bind_get; unfold bind; rewrite (attr_at_znth _ _ _ _ Ht); cbn [lift]; rewrite A1; cbn [andb];
      unfold tag_mask_write; rewrite (attr_at_znth _ _ _ _ Ht); cbn [rbind]; rewrite A2, Ht, F; cbn [negb]; rewrite Hs; cbn [rbind]; rewrite L;
      [|rewrite Hd]; reflexivity.
  - apply done_err with (code := E_ARG); [|reflexivity]. cbn [handle_op]. unfold h_tag_del. rewrite bind_get. unfold tag_get_index, info_at.
    replace ((i <? 0) || (zlen (s_db s) <=? i)) with false by lia. rewrite Ht, Hd. reflexivity.
  - apply done_err with (code := E_DELETED); [|reflexivity]. cbn [handle_op]. rewrite bind_get. unfold h_tag_get, tag_get_index, info_at.
    replace ((i <? 0) || (zlen (s_db s) <=? i)) with false by lia. rewrite Ht, Hd. unfold bind, lift. rewrite St. reflexivity.
  - assert (K : exists e, e < 0 /\ atomic_op E h opr d s = Done (s, e)).
    { unfold atomic_op. rewrite bind_get. destruct (is_custom (h_type h)); [exists E_BADTYPE; split; reflexivity|]. rewrite Hi, Ht.
      destruct (_ <? _); [exists E_2BIG; split; reflexivity|]. rewrite A2, A4, Hd. exists E_DELETED; split; reflexivity. }
    destruct K as (e & K1 & K2). apply done_err with (code := e); [|exact K1]. cbn [handle_op]. unfold h_atomic. rewrite bind_get.
    unfold bind. rewrite Hi, (attr_at_znth _ _ _ _ Ht). cbn [lift]. rewrite A1. cbn [andb]. rewrite K2. replace (e <? 0) with true by lia. reflexivity.
  - apply done_err with (code := E_DELETED); [|reflexivity]. cbn [handle_op]. unfold bind at 1, override_add. rewrite bind_get, Ht, Hd. reflexivity.
  - apply done_err with (code := E_DELETED); [|reflexivity]. cbn [handle_op]. unfold bind at 1, override_del. rewrite bind_get, Ht, Hd. reflexivity.
  - apply done_err with (code := E_DELETED); [|reflexivity]. cbn [handle_op]. unfold bind at 1, override_get. rewrite bind_get, Ht, Hd. reflexivity.
  - apply done_err with (code := E_DELETED); [|reflexivity]. cbn [handle_op]. unfold bind at 1, override_set. rewrite bind_get, Ht, Hd. reflexivity.
Qed.
(** C10: after a successful delete, whatever happens next, all these requests are refused *)
Theorem C10_deleted_stays_deleted : forall E s fd0 i s1 os s2 fd o cmd,
  reachable E s -> step E s (OpTagDel fd0 i) = Done s1 -> answered s s1 (OResp fd0 MSG_TAG_DEL (le_bytes 4 i)) ->
  exec E s1 os = Done s2 -> tag_request E i fd o cmd -> refused E s2 o fd cmd.
Proof.
  intros E s fd0 i s1 os s2 fd o cmd R H A X Q. assert (R1 := reachable_step _ _ _ _ R H). assert (R2 := reachable_exec _ _ _ _ R1 X).
  apply (C10_gone_refused _ _ i _ _ _ R2); [|exact Q]. apply (C02_gone_forever _ _ _ _ _ R1 X).
  destruct (C01_del _ _ _ _ _ R H) as [(c & Hc & ->)|(_ & (n & t & N) & K)].
  - assert (W : answered s (after s [OErr fd0 MSG_TAG_DEL c]) (OErr fd0 MSG_TAG_DEL c)) by (exists []; split; [reflexivity | constructor]).
    pose proof (answered_fun _ _ _ _ A W). discriminate.
  - destruct N as [N1 N2].
    destruct (step_good _ _ _ _ H (reachable_Inv _ _ R)) as [_ M]. destruct (mo_tags _ _ M _ _ N1) as (t' & Z1 & _ & [Z2|Z2]); [|exists t'; auto].
    exfalso. assert (B : exists t0, named s1 i n t0) by (exists t'; split; congruence). apply K in B. tauto.
Qed.
Example C10_ex : exists s1 s2, step env0 demo (OpTagDel 6 13) = Done s1 /\ answered demo s1 (OResp 6 MSG_TAG_DEL (le_bytes 4 13)) /\
  exec env0 s1 [OpTagAdd 5 (str "foo") T_DINT 10 0; OpTagGetName 5 (str "foo")] = Done s2 /\
  tag_request env0 13 5 (OpRead 5 13 0 4) MSG_TAG_READ.
Proof.
  eexists. eexists. split; [vm_compute; reflexivity|]. split; [|split; [vm_compute; reflexivity | constructor; reflexivity]].
  exists []. split; [vm_compute; reflexivity | constructor].
Qed.
(** C02 is false for the remaining requests: an event and a mapping can be attached to the
    deleted tag 13, the server answers with an id *)
Theorem C02_refuted_gone_accepts : exists s s1 s2,
  reachable env0 s /\ gone s 13 /\
  step env0 s (OpEvAdd 5 (mk_h 13 0 0 1 4 T_DINT) EV_WRITE []) = Done s1 /\ answered s s1 (OResp 5 MSG_EVNT_ADD (le_bytes 4 1)) /\
  step env0 s (OpMapAdd 5 (mk_h 13 0 0 1 4 T_DINT) (mk_h 15 0 0 2 4 T_INT)) = Done s2 /\ answered s s2 (OResp 5 MSG_MAP_ADD (le_bytes 4 1)).
Proof.
  exists demo_del. eexists. eexists. split; [exact demo_del_reachable|]. split; [eexists; split; vm_compute; reflexivity|].
  split; [vm_compute; reflexivity|]. split; [exists []; split; [vm_compute; reflexivity | constructor]|].
  split; [vm_compute; reflexivity|]. exists []; split; [vm_compute; reflexivity | constructor].
Qed.

(** ** C03: the tag counter *)
Theorem C03_count : forall E s, reachable E s ->
  s_tagcount s = zlen (filter (fun t => match t_name t with Some _ => true | None => false end) (s_db s)).
Proof.
  intros E s R. rewrite (iv_count _ (reachable_Inv _ _ R)). unfold live_count. f_equal.
  assert (X : forall l, filter live l = filter (fun t => match t_name t with Some _ => true | None => false end) l); [|apply X].
  intros l. induction l as [|t l IH]; [reflexivity|]. cbn. unfold live at 1. destruct (t_name t); cbn; rewrite IH; reflexivity.
Qed.
(** the index given to a tag that did not exist is the number of tags created so far, and that
    number then goes up by one *)
Theorem C03_next_index : forall E s fd nm ty c a s' r,
  reachable E s -> step E s (OpTagAdd fd nm ty c a) = Done s' -> ~ exists_tag s nm ->
  answered s s' (OResp fd MSG_TAG_ADD (le_bytes 4 r)) -> 0 <= r < 2147483648 -> zlen (s_db s) < 2147483648 ->
  r = zlen (s_db s) /\ zlen (s_db s') = zlen (s_db s) + 1 /\ s_tagcount s' = s_tagcount s + 1.
Proof.
  intros E s fd nm ty c a s' r R H N A Hr Hz. assert (I := reachable_Inv _ _ R).
  assert (R' := reachable_step _ _ _ _ R H). assert (I' := reachable_Inv _ _ R').
  apply step_inv in H as (s1 & u & H & ->). apply h_tag_add_effect in H as [[_ ->]|(U & s2 & r' & Ha & ->)].
  { assert (W : answered s (set_step (set_out s (s_out s ++ [OErr fd MSG_TAG_ADD E_ILLEGAL])) (s_step s + 1)) (OErr fd MSG_TAG_ADD E_ILLEGAL)) by apply answered_step, answered_err, evout_refl.
    pose proof (answered_fun _ _ _ _ A W). discriminate. }
  assert (EO := tag_add_evout _ _ _ _ _ _ _ _ _ Ha).
  assert (Ef := tag_add_effect _ _ _ _ _ _ _ _ _ I (u32_range c) Ha).
  destruct (r' <? 0) eqn:Neg.
  { assert (W : answered s (set_step (set_out s2 (s_out s2 ++ [OErr fd MSG_TAG_ADD r'])) (s_step s2 + 1)) (OErr fd MSG_TAG_ADD r')) by apply answered_step, answered_err, EO.
    pose proof (answered_fun _ _ _ _ A W). discriminate. }
  assert (W : answered s (set_step (set_out s2 (s_out s2 ++ [OResp fd MSG_TAG_ADD (le_bytes 4 r')])) (s_step s2 + 1)) (OResp fd MSG_TAG_ADD (le_bytes 4 r'))) by apply answered_step, answered_resp, EO.
  pose proof (answered_fun _ _ _ _ A W) as Q. injection Q as Q.
  destruct Ef as [(K & _)|[(_ & (t & K & _) & _)|(K0 & _ & K1 & K2 & K3 & _)]]; [lia | exfalso; apply N; exists r', t; exact K|].
  assert (Q2 : r = r').
  { assert (X : le_val (le_bytes 4 r) = le_val (le_bytes 4 r')) by (unfold le_bytes; congruence).
    rewrite !le_val_le_bytes in X. change (256 ^ Z.of_nat 4) with 4294967296 in X. assert (0 <= r' < 2147483648) by (assert (Q1 := zlen_nonneg (s_db s)); lia).
    rewrite !Z.mod_small in X by lia. exact X. }
  rewrite Q2. split; [exact K0|]. split; [exact K3|].
  rewrite (iv_count _ I'), (iv_count _ I). cbn [s_db set_step set_out].
  assert (X : map t_name (s_db s2) = map t_name (s_db s) ++ [Some nm]).
  { apply znth_ext. intros j Hj. rewrite znth_map. destruct (Z_lt_le_dec j (zlen (s_db s))) as [L|L].
    - rewrite znth_app1 by (rewrite zlen_map; exact L). rewrite znth_map. specialize (K2 j ltac:(lia)). unfold name_at in K2.
      destruct (znth_some (s_db s) j ltac:(lia)) as [x X]. destruct (znth_some (s_db s2) j ltac:(lia)) as [y Y]. rewrite X, Y in *. cbn. congruence.
    - rewrite znth_app2 by (rewrite zlen_map; exact L). rewrite zlen_map. destruct (Z.eq_dec j (zlen (s_db s))) as [->|Hne].
      + rewrite Z.sub_diag. rewrite <- K0. unfold name_at in K1. destruct (znth (s_db s2) r'); [cbn; rewrite K1; reflexivity | discriminate].
      + rewrite (proj2 (znth_none (s_db s2) j)) by lia. symmetry. apply znth_none. change (zlen [Some nm]) with 1. lia. }
  set (tr := mk_tag 0 0 0 (Some nm) 0 0 0 [] None DNull None None 0).
  rewrite (live_count_names (s_db s ++ [tr]) (s_db s2)); [apply live_count_app|]. rewrite map_app. exact X.
Qed.
Example C03_next_index_ex : exists s', step env0 demo_del (OpTagAdd 5 (str "foo") T_DINT 1 0) = Done s' /\
  answered demo_del s' (OResp 5 MSG_TAG_ADD (le_bytes 4 16)) /\ s_tagcount demo_del = 15 /\ zlen (s_db demo_del) = 16 /\ s_tagcount s' = 16.
Proof.
  eexists. split; [vm_compute; reflexivity|]. split; [exists []; split; [vm_compute; reflexivity | constructor]|].
  repeat split; vm_compute; reflexivity.
Qed.

(** ** C11: re-adding an existing tag *)
(** same name, type, count, data, owner, events and mappings; only attribute flags may differ *)
Definition same_tag (t t' : tag) : Prop :=
  t_name t' = t_name t /\ t_type t' = t_type t /\ t_count t' = t_count t /\ t_data t' = t_data t /\ t_fd t' = t_fd t /\
  t_events t' = t_events t /\ t_maps t' = t_maps t /\ t_odata t' = t_odata t /\ t_omask t' = t_omask t.
Lemma same_tag_refl t : same_tag t t.
Proof. unfold same_tag; repeat split. Qed.
Theorem C11_readd_idempotent : forall E s fd nm ty c a s' i t,
  reachable E s -> named s i nm t -> t_type t = u32 ty -> 0 < u32 c <= t_count t ->
  nthb nm 0 <> 95 -> (has (t_attr t) A_OWNED = true -> t_fd t = fd) ->
  step E s (OpTagAdd fd nm ty c a) = Done s' ->
  answered s s' (OResp fd MSG_TAG_ADD (le_bytes 4 i)) /\
  zlen (s_db s') = zlen (s_db s) /\
  (forall j u, znth (s_db s) j = Some u -> exists u', znth (s_db s') j = Some u' /\ same_tag u u' /\ (j <> i -> u' = u)).
Proof.
  intros E s fd nm ty c a s' i t R N Hty Hc Hu How H. assert (I := reachable_Inv _ _ R). assert (N0 := N). destruct N as [N1 N2].
  apply step_inv in H as (s1 & u & H & ->). apply h_tag_add_effect in H as [[Q _]|(_ & s2 & r & Ha & ->)]; [contradiction|].
  assert (EO := tag_add_evout _ _ _ _ _ _ _ _ _ Ha). assert (T := iv_tags _ I _ _ N1). assert (Rg := znth_range _ _ _ N1).
  assert (G : get_by_name (s_index s) nm = Done i) by (apply get_by_name_in; [apply I | apply (iv_index _ I); eauto]).
  assert (X : r = i /\ exists s0 u0, (s0 = s \/ exists z, s0 = set_dbsize s z) /\ set_attribute E i (u32 a) s0 = Done (s2, u0)).
  { clear EO. unfold tag_add in Ha. replace (u32 c =? 0) with false in Ha by lia. rewrite bind_get in Ha.
    assert (P : exists s0, (s0 = s \/ exists z, s0 = set_dbsize s z) /\
       (if s_dbsize s <=? zlen (s_db s) then put (set_dbsize s (s_dbsize s * 2)) else ret tt) s = Done (s0, tt)).
    { destruct (_ <=? _); eexists; (split; [|reflexivity]); eauto. }
    destruct P as (s0 & S0 & P). unfold bind at 1 in Ha. rewrite P in Ha. rewrite bind_get in Ha.
    destruct (set_dbsize_db _ _ S0) as (E1 & E2 & E3 & E4 & _). rewrite E3, E2 in Ha.
    rewrite <- Hty, (it_type _ _ T), (it_name _ _ T _ N2) in Ha. cbn [negb Z.eqb] in Ha.
    inv1 Ha. rewrite bind_lift_done with (a := i) in Ha by exact G. replace (0 <=? i) with true in Ha by lia.
    unfold bind at 1 in Ha. unfold tag_at in Ha. rewrite E1, N1 in Ha.
    replace (has (t_attr t) A_OWNED && negb (t_fd t =? fd)) with false in Ha
      by (destruct (has (t_attr t) A_OWNED); [rewrite How by reflexivity; lia | reflexivity]).
    rewrite Z.eqb_refl in Ha. replace (u32 c <=? t_count t) with true in Ha by lia. inv1 Ha. inv1 Ha. split; [reflexivity|]. eauto. }
  destruct X as (-> & s0 & u0 & S0 & Hsa). replace (i <? 0) with false by lia.
  split; [apply answered_step, answered_resp, EO|]. destruct (set_dbsize_db _ _ S0) as (E1 & _).
  split; [cbn; rewrite (set_attribute_len _ _ _ _ _ _ Hsa), E1; reflexivity|].
  intros j u1 Hj. cbn [s_db set_step set_out]. destruct (Z.eq_dec j i) as [->|Hne].
  - rewrite N1 in Hj. injection Hj as <-. destruct (set_attribute_spec _ _ _ _ _ _ Hsa) as (t1 & rr & f & x & H1 & H2 & ->).
    rewrite E1, N1 in H1. injection H1 as <-. cbn. rewrite znth_zset_eq by (rewrite E1; exact Rg).
    eexists. split; [reflexivity|]. split; [repeat split | congruence].
  - exists u1. rewrite (set_attribute_others _ _ _ _ _ _ Hsa) by assumption. rewrite E1. split; [exact Hj|]. split; [apply same_tag_refl | reflexivity].
Qed.
Example C11_ex : exists t s', named demo 13 (str "foo") t /\ t_type t = u32 T_DINT /\ 0 < u32 7 <= t_count t /\
  step env0 demo (OpTagAdd 6 (str "foo") T_DINT 7 0) = Done s'.
Proof. eexists. eexists. split; [split; vm_compute; reflexivity|]. split; [reflexivity|]. split; [vm_compute; split; [reflexivity | discriminate]|]. vm_compute; reflexivity. Qed.

(** ** C19: names starting with an underscore (character 95) *)
Theorem C19_add_refused : forall E s fd nm ty c a, nthb nm 0 = 95 ->
  step E s (OpTagAdd fd nm ty c a) = Done (after s [OErr fd MSG_TAG_ADD E_ILLEGAL]).
Proof.
  intros E s fd nm ty c a H. unfold step. cbn [handle_op]. rewrite H. reflexivity.
Qed.
Theorem C19_del_refused : forall E s fd i nm t, reachable E s -> named s i nm t -> nthb nm 0 = 95 ->
  step E s (OpTagDel fd i) = Done (after s [OErr fd MSG_TAG_DEL E_ILLEGAL]).
Proof.
  intros E s fd i nm t R [N1 N2] H. assert (T := iv_tags _ (reachable_Inv _ _ R) _ _ N1). assert (Rg := znth_range _ _ _ N1).
  assert (D := dead_not_named _ _ _ T N2).
  unfold step. cbn [handle_op]. unfold h_tag_del. rewrite bind_get. unfold tag_get_index, info_at.
  replace ((i <? 0) || (zlen (s_db s) <=? i)) with false by lia. rewrite N1, N2.
  destruct (t_data t); try congruence; unfold bind, lift; rewrite H; reflexivity.
Qed.
(** whatever clients send short of connecting and disconnecting, the reserved names and their
    indices stay as they are *)
Theorem C19_reserved_names_stable : forall E os s s' i n,
  reachable E s -> exec E s os = Done s' -> nthb n 0 = 95 ->
  (forall o, In o os -> match o with OpRegister _ _ | OpDisconnect _ => False | _ => True end) ->
  (exists t, named s' i n t) <-> (exists t, named s i n t).
Proof.
  intros E os. induction os as [|o os IH]; intros s s' i n R H U Ho; cbn in H; [injection H as <-; tauto|].
  apply rbind_done in H as [s1 [H1 H2]]. rewrite (IH _ _ i n (reachable_step _ _ _ _ R H1) H2 U); [|intros x Hx; apply Ho; right; exact Hx].
  specialize (Ho o (or_introl eq_refl)). destruct (directory_op o) eqn:D; [|apply (C01_quiet _ _ _ _ i n R H1 D)].
  destruct o; try discriminate; try tauto.
  - destruct (Z.eq_dec (nthb nm 0) 95) as [Q|Q].
    + rewrite (C19_add_refused E s fd nm type count attr Q) in H1. injection H1 as <-. tauto.
    + destruct (C01_add _ _ _ _ _ _ _ _ R H1) as [(c & _ & _ & K)|(r & _ & _ & _ & K)]; rewrite K; [tauto|].
      split; [|tauto]. intros [W|[_ ->]]; [exact W | contradiction].
  - destruct (C01_del _ _ _ _ _ R H1) as [(c & _ & ->)|(_ & (m & t & N) & K)]; [tauto|].
    rewrite K. split; [tauto|]. intros W. split; [exact W|]. intros ->. destruct W as [t0 W].
    assert (n = m) by (destruct N, W; congruence). subst m.
    rewrite (C19_del_refused E s fd idx n t R N U) in H1. injection H1 as <-.
    destruct (proj1 (K idx n) (ex_intro _ t0 W)) as [_ Q]. congruence.
Qed.
Example C19_ex : exists t s', named demo 0 (str "_tagcount") t /\ exec env0 demo [OpTagDel 5 0; OpTagAdd 5 (str "_x") T_INT 1 0] = Done s'.
Proof. eexists. eexists. split; [split; vm_compute; reflexivity | vm_compute; reflexivity]. Qed.
