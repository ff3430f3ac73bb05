(** * Prop_Groups: tag groups (C34, C35) *)
From Verif Require Import Base Const Types State Events Atomic Server Lib SearchProofs Shape Inv Reach Spec Frame Effects Out DataFrame WRel ModInv IdInv Demo
  Prop_Tags Prop_Data Prop_Modules EvSpec EvLoops Prop_Maps.

(** ** C34: reading *)
(** module [m], connected as [fd], has a group [i] with members [hs] *)
Definition has_group (s : server) (fd i : Z) (hs : list handle) : Prop :=
  exists m, find_mod s fd = Some m /\ znth (m_groups m) i = Some (mk_g true hs).
(** the handle's numbers are not negative as C ints *)
Definition sane (h : handle) : Prop := 0 <= h_byte h < 2147483648 /\ 0 <= h_size h < 2147483648.
(** the member is no virtual tag (queue, _time, _my_tagname) *)
Definition plain_member (s : server) (h : handle) : Prop := forall t, znth (s_db s) (h_index h) = Some t -> has (t_attr t) A_VIRTUAL = false.
(** reading the member [h] alone is answered with [a] *)
Definition read_alone (E : env) (s : server) (fd : Z) (h : handle) (a : out) : Prop :=
  step E s (OpRead fd (h_index h) (h_byte h) (h_size h)) = Done (Spec.after s [a]).
Lemma tag_read_plain E fd fd' h c c' s s' r : plain_member s h -> sane h -> h_size h <= c' ->
  tag_read E fd (h_index h) (h_byte h) (h_size h) c s = Done (s', r) ->
  s' = s /\ tag_read E fd' (h_index h) (h_byte h) (h_size h) c' s = Done (s, r) /\ (forall d, r = inl d -> zlen d = h_size h /\ h_size h <= c).
Proof.
  intros P [S1 S2] L H. unfold tag_read in *. destruct (znth (s_db s) (h_index h)) as [t|] eqn:Ht; [|injection H as <- <-; repeat split; intros; discriminate].
  rewrite (P _ Ht) in H |- *. destruct (negb (fits32 _)); [discriminate|]. destruct (tag_size (s_types s) t) as [sz|]; [|discriminate]. cbn [rbind] in H |- *.
  destruct (sz <? _); [injection H as <- <-; repeat split; intros; discriminate|].
  destruct (t_data t); try discriminate; [injection H as <- <-; repeat split; intros; discriminate|].
  replace (c' <? h_size h) with false by lia. destruct (in_bounds _ _ _) eqn:B; [|discriminate]. destruct (Z.ltb_spec c (h_size h)); [discriminate|]. cbn [negb orb] in H |- *.
  assert (B' := B). apply in_bounds_iff in B'. destruct (has (t_attr t) A_OVR_SET).
  - destruct (t_odata t) as [od|]; destruct (t_omask t) as [om|];
    try (destruct (Z.eqb_spec (h_size h) 0); [injection H as <- <-; split; [reflexivity|]; split; [reflexivity|]; intros d Q; injection Q as <-; split; [unfold zlen; cbn; lia | lia] | discriminate]).
    destruct (rd od _ _) as [o|] eqn:R1; [|discriminate]. destruct (rd om _ _) as [m|] eqn:R2; [|discriminate]. cbn [rbind] in H |- *. injection H as <- <-.
    split; [reflexivity|]. split; [reflexivity|]. intros d Q. injection Q as <-. split; [|lia]. unfold rd in R1, R2. destruct (in_bounds _ _ (zlen od)) eqn:B1; [|discriminate]. destruct (in_bounds _ _ (zlen om)) eqn:B2; [|discriminate].
    injection R1 as <-. injection R2 as <-. rewrite zlen_mix; rewrite ?zlen_slice by assumption; lia.
  - injection H as <- <-. split; [reflexivity|]. split; [reflexivity|]. intros d Q. injection Q as <-. split; [apply zlen_slice; exact B | lia].
Qed.
Lemma read_alone_of E fd h s r : plain_member s h -> sane h -> h_size h <= MSG_DATA_SIZE ->
  tag_read E fd (h_index h) (h_byte h) (h_size h) MSG_DATA_SIZE s = Done (s, r) ->
  read_alone E s fd h (match r with inl d => OResp fd MSG_TAG_READ d | inr e => OErr fd MSG_TAG_READ e end).
Proof.
  intros P S L H. destruct (tag_read_plain _ _ fd _ _ MSG_DATA_SIZE _ _ _ P S L H) as (_ & _ & Z).
  unfold read_alone, step. cbn [handle_op]. unfold h_read, bind, get. rewrite H. destruct r as [d|e]; [|reflexivity].
  destruct (Z _ eq_refl) as [Z1 _]. destruct S as [_ S]. replace (h_size h <? 0) with false by lia. replace (MSG_DATA_SIZE <? h_size h) with false by lia. cbn [orb].
  replace (firstn _ _) with d.
  - unfold respond. replace (MSG_DATA_SIZE <? zlen d) with false by lia. reflexivity.
  - rewrite firstn_app. replace (Z.to_nat (h_size h) - length d)%nat with 0%nat by (unfold zlen in Z1; lia). cbn [firstn]. rewrite app_nil_r. symmetry. apply firstn_all2. unfold zlen in Z1. lia.
Qed.
Lemma firstn_splice off d b : in_bounds off (zlen d) (zlen b) = true ->
  firstn (Z.to_nat (off + zlen d)) (splice off d b) = firstn (Z.to_nat off) b ++ d.
Proof.
  intros B. apply in_bounds_iff in B. unfold splice, zlen in *. rewrite app_assoc, firstn_app.
  rewrite firstn_all2 by (rewrite app_length, firstn_length; lia). rewrite app_length, firstn_length.
  replace (_ - _)%nat with 0%nat by lia. cbn [firstn]. apply app_nil_r.
Qed.
Lemma s32_sane h : sane h -> s32 (h_byte h) = h_byte h /\ s32 (h_size h) = h_size h.
Proof. intros [A B]. split; apply s32_small; lia. Qed.
Lemma group_read_loop_spec E fd hs : forall off buf s s' r, Forall (plain_member s) hs -> Forall sane hs -> 0 <= off -> zlen buf = MSG_GROUP_SIZE -> off <= MSG_GROUP_SIZE ->
  group_read_loop E hs off buf s = Done (s', r) -> s' = s /\
  match r with
  | inl x => exists ds, x = firstn (Z.to_nat off) buf ++ concat ds /\ off + zlen (concat ds) <= MSG_GROUP_SIZE /\
                        Forall2 (fun h d => read_alone E s fd h (OResp fd MSG_TAG_READ d)) hs ds
  | inr e => exists l1 h l2, hs = l1 ++ h :: l2 /\ read_alone E s fd h (OErr fd MSG_TAG_READ e) /\
               Forall (fun h => exists d, read_alone E s fd h (OResp fd MSG_TAG_READ d)) l1
  end.
Proof.
  induction hs as [|h hs IH]; intros off buf s s' r P S O Lb Ob H; cbn [group_read_loop] in H.
  - apply ret_done in H as [-> ->]. split; [reflexivity|]. exists []. cbn. rewrite app_nil_r. split; [reflexivity|]. split; [unfold zlen; cbn; lia | constructor].
  - apply Forall_cons_iff in P as [P1 P2]. apply Forall_cons_iff in S as [S1 S2]. destruct (s32_sane _ S1) as [Q1 Q2]. rewrite Q1, Q2 in H.
    apply bind_done in H as (s1 & x & H1 & H). destruct (Z_lt_le_dec MSG_DATA_SIZE (h_size h)) as [Big|Small].
    { assert (Z := tag_read_plain E (-1) fd h (MSG_GROUP_SIZE - off) (h_size h) s s1 x P1 S1 (Z.le_refl _) H1). destruct Z as (-> & Z1 & Z2).
      destruct x as [d|e]; [destruct (Z2 _ eq_refl); unfold MSG_GROUP_SIZE, MSG_DATA_SIZE in *; lia|].
      apply ret_done in H as [-> ->]. split; [reflexivity|]. exists [], h, hs. split; [reflexivity|]. split; [|constructor].
      unfold read_alone, step. cbn [handle_op]. unfold h_read, bind, get.
      replace (tag_read E fd (h_index h) (h_byte h) (h_size h) MSG_DATA_SIZE s) with (Done (s, @inr (list Z) Z e)); [reflexivity|].
      symmetry. clear - Z1 P1. unfold tag_read in *. destruct (znth (s_db s) (h_index h)) as [t|] eqn:Ht; [|exact Z1]. rewrite (P1 _ Ht) in *.
      destruct (negb (fits32 _)); [exact Z1|]. destruct (tag_size (s_types s) t) as [sz|]; [|exact Z1]. cbn [rbind] in *. destruct (sz <? _); [exact Z1|].
      destruct (t_data t); try exact Z1. exfalso. destruct (_ || _); [discriminate|]. destruct (has _ _); [|discriminate].
      destruct (t_odata t), (t_omask t); try (destruct (_ =? _); discriminate). destruct (rd _ _ _); [|discriminate]. cbn [rbind] in Z1. destruct (rd _ _ _); discriminate. }
    destruct (tag_read_plain E (-1) fd h (MSG_GROUP_SIZE - off) MSG_DATA_SIZE s s1 x P1 S1 Small H1) as (-> & Z1 & Z2).
    assert (A := read_alone_of _ _ _ _ _ P1 S1 Small Z1). destruct x as [d|e].
    2:{ apply ret_done in H as [-> ->]. split; [reflexivity|]. exists [], h, hs. auto. }
    destruct (Z2 _ eq_refl) as [Z3 Z4]. rewrite <- Z3 in H.
    assert (B : in_bounds off (zlen d) (zlen buf) = true) by (apply in_bounds_iff; pose proof (zlen_nonneg d); lia).
    apply IH in H as [-> H]; try assumption; try (pose proof (zlen_nonneg d); lia); [|rewrite zlen_splice; assumption].
    split; [reflexivity|]. destruct r as [y|e].
    + destruct H as (ds & -> & L & F). exists (d :: ds). cbn [concat]. rewrite firstn_splice by exact B. rewrite app_assoc. split; [reflexivity|].
      rewrite zlen_app. split; [lia|]. constructor; [exact A | exact F].
    + destruct H as (l1 & h' & l2 & -> & F1 & F2). exists (h :: l1), h', l2. split; [reflexivity|]. split; [exact F1|]. constructor; [eauto | exact F2].
Qed.
(** reading a group is answered with the concatenation of what reading each member is answered with; if some member cannot be read it
    is answered with the error of the first such member *)
Theorem C34_read : forall E s fd i hs s', has_group s fd i hs -> Forall (plain_member s) hs -> Forall sane hs ->
  step E s (OpGrpRead fd i) = Done s' ->
  (exists ds, s' = Spec.after s [OResp fd MSG_GRP_READ (concat ds)] /\ Forall2 (fun h d => read_alone E s fd h (OResp fd MSG_TAG_READ d)) hs ds) \/
  (exists e l1 h l2, s' = Spec.after s [OErr fd MSG_GRP_READ e] /\ hs = l1 ++ h :: l2 /\ read_alone E s fd h (OErr fd MSG_TAG_READ e) /\
     Forall (fun h => exists d, read_alone E s fd h (OResp fd MSG_TAG_READ d)) l1).
Proof.
  intros E s fd i hs s' (m & Hm & Hg) P S H. apply step_inv in H as (s1 & u & H & ->). cbn [handle_op] in H. unfold with_mod in H. inv1 H. rewrite Hm in H.
  apply bind_done in H as (s2 & x & H1 & H). unfold group_read in H1. rewrite Hg in H1. cbn [g_live g_members] in H1. inv1 H1.
  apply (group_read_loop_spec E fd) in H1 as [-> H1]; try assumption; [| lia | rewrite zlen_jbytes; reflexivity | discriminate].
  destruct x as [d|e].
  - destruct H1 as (ds & -> & L & F). left. exists ds. split; [|exact F]. cbn [Z.to_nat firstn app] in H. unfold respond in H.
    replace (MSG_DATA_SIZE <? zlen (concat ds)) with false in H by (unfold MSG_GROUP_SIZE, MSG_DATA_SIZE in *; lia). unfold emit, modify in H. injection H as <- _. reflexivity.
  - destruct H1 as (l1 & h & l2 & -> & F1 & F2). right. exists e, l1, h, l2. split; [|auto]. unfold reply_err, emit, modify in H. injection H as <- _. reflexivity.
Qed.
(** a group that is not there is refused *)
Theorem C34_unknown : forall E s fd i p m g, find_mod s fd = Some m -> znth (m_groups m) i = Some g -> g_live g = false ->
  step E s (OpGrpRead fd i) = Done (Spec.after s [OErr fd MSG_GRP_READ E_NOTFOUND]) /\
  step E s (OpGrpWrite fd i p) = Done (Spec.after s [OErr fd MSG_GRP_WRITE E_NOTFOUND]).
Proof.
  intros E s fd i p m g Hm Hg Hl. unfold step. cbn [handle_op]. unfold with_mod, bind, get. rewrite Hm. unfold group_read, group_write. rewrite Hg, Hl. split; reflexivity.
Qed.
(** but an id outside the module's group table is not checked *)
Theorem C34_outside_refuted : forall E s fd i p m, find_mod s fd = Some m -> zlen (m_groups m) <= i ->
  step E s (OpGrpRead fd i) = Undef UOob /\ step E s (OpGrpWrite fd i p) = Undef UOob /\ step E s (OpGrpDel fd i) = Undef UOob.
Proof.
  intros E s fd i p m Hm Hg. assert (Q : znth (m_groups m) i = None) by (apply znth_none; lia).
  unfold step. cbn [handle_op]. unfold with_mod, bind, get. rewrite Hm. unfold group_read, group_write, group_del. rewrite Q. auto.
Qed.

(** ** C34: writing *)
(** two servers that differ only in what they have sent and in the number of requests served *)
Definition sim (a b : server) : Prop := exists o n, b = set_step (set_out a o) n.
Lemma sim_refl s : sim s s.
Proof. exists (s_out s), (s_step s). destruct s; reflexivity. Qed.
Lemma sim_step a b n : sim a b -> sim a (set_step b n).
Proof. intros (o & k & ->). exists o, n. reflexivity. Qed.
Lemma sim_out a b o : sim a b -> sim a (set_out b o).
Proof. intros (o' & k & ->). exists o, k. reflexivity. Qed.
(** member of a group that a client may write: not virtual, not a module's status tag, not read-only, and nothing is mapped from it *)
Definition open_member (s : server) (h : handle) : Prop := exists t, znth (s_db s) (h_index h) = Some t /\
  has (t_attr t) A_VIRTUAL = false /\ has (t_attr t) A_SPECIAL = false /\ has (t_attr t) A_READONLY = false /\ t_maps t = Some [].
Lemma commit_sim E i t b off n a a' u o k : commit E i t b off n a = Done (a', u) ->
  exists ev, Forall is_event ev /\ s_out a' = s_out a ++ ev /\ commit E i t b off n (set_step (set_out a o) k) = Done (set_step (set_out a' (o ++ ev)) k, u).
Proof.
  unfold commit. cbn [s_mods s_types s_ret set_step set_out]. intros H. destruct (check_events _ _ _ _ _ _ _) as [[ev o']|] eqn:C; [|discriminate]. cbn [rbind fst snd] in *.
  apply check_events_out in C. exists o'. split; [exact C|]. destruct (has (t_attr t) A_RETAIN).
  - destruct (ret_tag_write _ _ _) as [x|]; [|discriminate]. cbn [rbind] in *. injection H as <- <-. split; reflexivity.
  - injection H as <- <-. split; reflexivity.
Qed.
Lemma tag_write_sim E fd fd' i off d a b a' r : (forall t, znth (s_db a) i = Some t -> has (t_attr t) A_VIRTUAL = false /\ has (t_attr t) A_SPECIAL = false) ->
  sim a b -> tag_write E fd i off d a = Done (a', r) ->
  exists b' ev, tag_write E fd' i off d b = Done (b', r) /\ sim a' b' /\ s_step b' = s_step b /\ Forall is_event ev /\ s_out a' = s_out a ++ ev /\ s_out b' = s_out b ++ ev.
Proof.
  intros P (o & k & ->) H. unfold tag_write in *. cbn [s_db s_types set_step set_out]. destruct (znth (s_db a) i) as [t|] eqn:Ht.
  2:{ injection H as <- <-. eexists; exists []. rewrite !app_nil_r. split; [reflexivity|]. split; [exists o, k; reflexivity|]. repeat split; auto. }
  destruct (P _ eq_refl) as [P1 P2]. rewrite P1 in *. destruct (negb (fits32 _)); [discriminate|]. destruct (tag_size (s_types a) t) as [sz|]; [|discriminate]. cbn [rbind] in *.
  assert (K : forall e : Z, exists b' ev, Done (set_step (set_out a o) k, e) = Done (b', e) /\ sim a b' /\ s_step b' = s_step (set_step (set_out a o) k) /\ Forall is_event ev /\ s_out a = s_out a ++ ev /\ s_out b' = s_out (set_step (set_out a o) k) ++ ev).
  { intros e. eexists; exists []. rewrite !app_nil_r. split; [reflexivity|]. split; [exists o, k; reflexivity|]. repeat split; auto. }
  destruct (sz <? _); [injection H as <- <-; apply K|]. destruct (t_data t); try discriminate; [injection H as <- <-; apply K|].
  rewrite P2 in *. cbn [negb Z.eqb] in *. destruct (in_bounds _ _ _); [|discriminate]. cbn [negb] in *.
  destruct (commit _ _ _ _ _ _ a) as [[a1 u]|] eqn:C; [|discriminate]. injection H as <- <-.
  destruct (commit_sim _ _ _ _ _ _ _ _ _ o k C) as (ev & F & O & ->). eexists; exists ev. split; [reflexivity|]. split; [exists (o ++ ev), k; reflexivity|]. auto.
Qed.
(** the requests that write the members one after another, each with its part of the data *)
Fixpoint member_writes (fd : Z) (hs : list handle) (d : list Z) : list op :=
  match hs with
  | [] => []
  | h :: r => OpWrite fd (h_index h) (h_byte h) (firstn (Z.to_nat (h_size h)) d) :: member_writes fd r (skipn (Z.to_nat (h_size h)) d)
  end.
Definition total (hs : list handle) : Z := fold_right (fun h n => h_size h + n) 0 hs.
Definition events_of (l : list out) : list out := filter (fun o => match o with OEvent _ _ _ _ _ => true | _ => false end) l.
Lemma tag_write_attrs E fd j off d s s' r k : tag_write E fd j off d s = Done (s', r) -> fk (fun t => (t_attr t, t_maps t)) k s s'.
Proof.
  intros H. apply tag_write_cases in H. destruct H; [apply fk_refl|..]; intros t0 Ht0;
    (cbn; rewrite znth_zset; match goal with |- context [if ?c then _ else _] => destruct c eqn:B end; [|eauto];
     assert (j = k) by lia; subst j; eexists; split; [reflexivity|]; assert (t = t0) by congruence; subst; reflexivity).
Qed.
Lemma open_kept E fd j off d s s' r h : tag_write E fd j off d s = Done (s', r) -> open_member s h -> open_member s' h.
Proof.
  intros H (t & Ht & P). destruct (tag_write_attrs _ _ _ _ _ _ _ _ (h_index h) H _ Ht) as (t' & Ht' & Q). injection Q as Q1 Q2. exists t'. rewrite Q1, Q2. auto.
Qed.
Lemma events_app a b : events_of (a ++ b) = events_of a ++ events_of b.
Proof. apply filter_app. Qed.
Lemma events_all l : Forall is_event l -> events_of l = l.
Proof. induction 1 as [|x l H F IH]; [reflexivity|]. cbn. destruct x; try destruct H. f_equal. exact IH. Qed.
(** one member write of the group and the client's write of the same data *)
Lemma member_step E fd h d a b a' r : open_member a h -> sim a b -> tag_write E (-1) (h_index h) (h_byte h) d a = Done (a', r) ->
  (r = 0 /\ exists b' ev, step E b (OpWrite fd (h_index h) (h_byte h) d) = Done b' /\ sim a' b' /\ Forall is_event ev /\ s_out a' = s_out a ++ ev /\ s_out b' = s_out b ++ ev ++ [OResp fd MSG_TAG_WRITE []]) \/
  (r <> 0 /\ a' = a /\ step E b (OpWrite fd (h_index h) (h_byte h) d) = Done (Spec.after b [OErr fd MSG_TAG_WRITE r])).
Proof.
  intros (t & Ht & P1 & P2 & P3 & P4) S H.
  assert (Pv : forall t, znth (s_db a) (h_index h) = Some t -> has (t_attr t) A_VIRTUAL = false /\ has (t_attr t) A_SPECIAL = false) by (intros t0 Q; assert (t0 = t) by congruence; subst; auto).
  destruct (tag_write_sim E (-1) fd _ _ _ _ _ _ _ Pv S H) as (b' & ev & H' & S' & St & F & O1 & O2).
  assert (Db : s_db b = s_db a) by (destruct S as (o & k & ->); reflexivity).
  unfold step. cbn [handle_op]. unfold h_write, bind, get, lift, attr_at. rewrite Db, Ht. rewrite P3. cbn [andb]. rewrite H'.
  destruct (Z.eqb_spec r 0) as [->|N].
  - left. split; [reflexivity|]. destruct (tag_write_attrs _ _ _ _ _ _ _ _ (h_index h) H _ Ht) as (t' & Ht' & Q). injection Q as _ Q. rewrite P4 in Q.
    assert (Db' : s_db b' = s_db a') by (destruct S' as (o & k & ->); reflexivity).
    cbn [negb]. unfold map_check, tag_at, bind. rewrite Db', Ht', Q. cbn [map_loop]. unfold ret, respond. cbn. unfold emit, modify. cbn.
    eexists; exists ev. split; [reflexivity|]. split; [apply sim_step, sim_out; exact S'|]. split; [exact F|]. split; [exact O1|]. cbn. rewrite O2, app_assoc. reflexivity.
  - right. split; [exact N|]. cbn [negb]. assert (C := tag_write_cases _ _ _ _ _ _ _ _ H). assert (C' := tag_write_cases _ _ _ _ _ _ _ _ H').
    inversion C; subst; [|congruence|congruence]. split; [reflexivity|]. inversion C'; subst; [|congruence|congruence]. reflexivity.
Qed.
Lemma skipn_skipn' {A} x y (l : list A) : skipn x (skipn y l) = skipn (y + x) l.
Proof. revert l; induction y as [|y IH]; intros l; [reflexivity|]. destruct l; [rewrite !skipn_nil; reflexivity|]. cbn. apply IH. Qed.
Definition accepted_out (fd : Z) (o : out) : Prop := is_event o \/ o = OResp fd MSG_TAG_WRITE [].
Lemma group_write_loop_spec E fd hs : forall off buf a a' b r, Forall (open_member a) hs -> Forall sane hs -> 0 <= off -> sim a b ->
  group_write_loop E hs off buf a = Done (a', r) ->
  exists l1 l2 b1 ev o, hs = l1 ++ l2 /\ exec E b (member_writes fd l1 (skipn (Z.to_nat off) buf)) = Done b1 /\ sim a' b1 /\
    s_out a' = s_out a ++ ev /\ Forall is_event ev /\ s_out b1 = s_out b ++ o /\ Forall (accepted_out fd) o /\ events_of o = ev /\
    ((r = 0 /\ l2 = []) \/
     (r <> 0 /\ exists h l3, l2 = h :: l3 /\ step E b1 (OpWrite fd (h_index h) (h_byte h) (slice (off + total l1) (h_size h) buf)) = Done (Spec.after b1 [OErr fd MSG_TAG_WRITE r]))).
Proof.
  induction hs as [|h hs IH]; intros off buf a a' b r P S O Sm H; cbn [group_write_loop] in H.
  - apply ret_done in H as [-> ->]. exists [], [], b, [], []. rewrite !app_nil_r. repeat (split; [first [reflexivity | constructor | exact Sm]|]). left. auto.
  - apply Forall_cons_iff in P as [P1 P2]. apply Forall_cons_iff in S as [S1 S2]. destruct (s32_sane _ S1) as [Q1 _]. rewrite Q1 in H.
    apply bind_done in H as (a1 & x & H1 & H). destruct (member_step _ fd _ _ _ _ _ _ P1 Sm H1) as [(-> & b1 & ev & T1 & T2 & T3 & T4 & T5)|(N & -> & T)].
    + cbn [Z.eqb negb] in H. destruct S1 as [S1 S3].
      eapply IH in H as (l1 & l2 & b2 & ev2 & o2 & -> & X1 & X2 & X3 & X4 & X5 & X6 & X7 & X8); [| | exact S2 | lia | exact T2].
      2:{ eapply Forall_impl; [|exact P2]. intros g. eapply open_kept. exact H1. }
      exists (h :: l1), l2, b2, (ev ++ ev2), (ev ++ OResp fd MSG_TAG_WRITE [] :: o2). split; [reflexivity|].
      split. { cbn [member_writes exec]. fold (slice off (h_size h) buf). rewrite T1. cbn [rbind]. rewrite skipn_skipn'. rewrite <- Z2Nat.inj_add by lia. exact X1. }
      split; [exact X2|]. split; [rewrite X3, T4, app_assoc; reflexivity|]. split; [apply Forall_app; auto|].
      split; [rewrite X5, T5, <- !app_assoc; reflexivity|]. split; [apply Forall_app; split; [eapply Forall_impl; [|exact T3]; intros; left; assumption | constructor; [right; reflexivity | exact X6]]|].
      split; [rewrite events_app, (events_all _ T3); f_equal; exact X7|]. cbn [total fold_right]. fold (total l1). rewrite Z.add_assoc. exact X8.
    + replace (x =? 0) with false in H by lia. cbn [negb] in H. apply ret_done in H as [-> ->].
      exists [], (h :: hs), b, [], []. rewrite !app_nil_r. cbn [app member_writes exec total fold_right].
      split; [reflexivity|]. split; [reflexivity|]. split; [exact Sm|]. split; [reflexivity|]. split; [constructor|]. split; [reflexivity|]. split; [constructor|]. split; [reflexivity|].
      right. split; [exact N|]. exists h, hs. rewrite Z.add_0_r. auto.
Qed.
Lemma member_writes_app fd hs : Forall sane hs -> forall p x, total hs <= zlen p -> member_writes fd hs (p ++ x) = member_writes fd hs p.
Proof.
  induction 1 as [|h hs [_ Hs] F IH]; intros p x L; [reflexivity|]. cbn [member_writes total fold_right] in *. fold (total hs) in *.
  assert (T : 0 <= total hs). { clear - F. induction F as [|h hs [_ Hs] F IH]; cbn; [lia|]. fold (total hs). lia. }
  unfold zlen in *. rewrite firstn_app, skipn_app. replace (Z.to_nat (h_size h) - length p)%nat with 0%nat by lia. cbn [firstn skipn]. rewrite app_nil_r. f_equal.
  apply IH. rewrite skipn_length. lia.
Qed.
Lemma total_app a b : total (a ++ b) = total a + total b.
Proof. unfold total. induction a as [|x a IH]; cbn; [lia|]. rewrite IH. lia. Qed.
Lemma total_pos hs : Forall sane hs -> 0 <= total hs.
Proof. induction 1 as [|h hs [_ Hs] F IH]; cbn; [lia|]. fold (total hs). lia. Qed.
(** writing a group whose members are open has the effect of writing the members one after another with the consecutive parts of the
    data: the same tags, the same retained values, the same event messages in the same order.  If it is answered with an error, that is
    the answer to the first member write that is refused, and the members before it have been written. *)
Theorem C34_write_partial : forall E s fd i hs p s', has_group s fd i hs -> Forall (open_member s) hs -> Forall sane hs -> total hs <= zlen p ->
  step E s (OpGrpWrite fd i p) = Done s' ->
  exists l1 l2 s2 ev o, hs = l1 ++ l2 /\ exec E s (member_writes fd l1 p) = Done s2 /\
    s_db s2 = s_db s' /\ s_ret s2 = s_ret s' /\ s_types s2 = s_types s' /\ s_mods s2 = s_mods s' /\
    s_out s2 = s_out s ++ o /\ Forall (accepted_out fd) o /\ events_of o = ev /\
    ((l2 = [] /\ s_out s' = s_out s ++ ev ++ [OResp fd MSG_GRP_WRITE []]) \/
     (exists h l3 e, l2 = h :: l3 /\ s_out s' = s_out s ++ ev ++ [OErr fd MSG_GRP_WRITE e] /\
        step E s2 (OpWrite fd (h_index h) (h_byte h) (slice (total l1) (h_size h) p)) = Done (Spec.after s2 [OErr fd MSG_TAG_WRITE e]))).
Proof.
  intros E s fd i hs p s' (m & Hm & Hg) P S L H. apply step_inv in H as (sx & u & H & ->). cbn [handle_op] in H. unfold with_mod in H. inv1 H. rewrite Hm in H.
  apply bind_done in H as (a' & r & H1 & H). unfold group_write in H1. rewrite Hg in H1. cbn [g_live g_members] in H1. inv1 H1.
  apply (group_write_loop_spec E fd _ 0 _ s a' s) in H1; try assumption; [|lia | apply sim_refl].
  destruct H1 as (l1 & l2 & b1 & ev & o & -> & X1 & X2 & X3 & X4 & X5 & X6 & X7 & X8). cbn [Z.to_nat skipn] in X1.
  apply Forall_app in S as [Sa Sb]. rewrite total_app in L. assert (T2 := total_pos _ Sb). rewrite member_writes_app in X1; [|exact Sa | lia].
  destruct X2 as (ob & k & ->). cbn [s_out set_step set_out] in X5. subst ob.
  exists l1, l2, (set_step (set_out a' (s_out s ++ o)) k), ev, o. split; [reflexivity|]. split; [exact X1|].
  unfold reply_status in H. destruct X8 as [[-> ->]|(N & h & l3 & -> & X8)].
  - cbn in H. unfold respond, emit, modify in H. cbn in H. injection H as <- _. do 4 (split; [reflexivity|]). split; [reflexivity|]. split; [exact X6|]. split; [exact X7|].
    left. split; [reflexivity|]. cbn. rewrite X3, <- app_assoc. reflexivity.
  - replace (r =? 0) with false in H by lia. cbn [negb] in H. unfold reply_err, emit, modify in H. injection H as <- _. do 4 (split; [reflexivity|]). split; [reflexivity|]. split; [exact X6|]. split; [exact X7|].
    right. exists h, l3, r. split; [reflexivity|]. split; [cbn; rewrite X3, <- app_assoc; reflexivity|].
    apply Forall_cons_iff in Sb as [[_ Sh] Sc]. rewrite Z.add_0_l in X8. rewrite <- X8. do 2 f_equal. unfold slice.
    cbn [total fold_right] in L, T2. fold (total l3) in *. assert (T3 := total_pos _ Sc). assert (T1 := total_pos _ Sa). unfold zlen in L.
    rewrite skipn_app, firstn_app, skipn_length. replace (Z.to_nat (h_size h) - _)%nat with 0%nat by lia. cbn [firstn]. rewrite app_nil_r. reflexivity.
Qed.

(** ** C35 *)
Definition gview (m : module) := (m_uid m, m_fd m, m_groups m, m_gsize m).
Definition gk (s s' : server) : Prop := map gview (s_mods s') = map gview (s_mods s).
Lemma gk_refl s : gk s s.
Proof. reflexivity. Qed.
Lemma gk_trans a b c : gk a b -> gk b c -> gk a c.
Proof. unfold gk. congruence. Qed.
Lemma gk_same s s' : s_mods s' = s_mods s -> gk s s'.
Proof. unfold gk. intros ->. reflexivity. Qed.
Lemma gk_upd s u f : (forall m, gview (f m) = gview m) -> gk s (upd_mod u f s).
Proof. intros H. unfold gk, upd_mod. cbn. rewrite map_map. apply map_ext. intros m. destruct (m_uid m =? u); auto. Qed.
Lemma commit_gk E i t b off n : pres gk (commit E i t b off n).
Proof. intros s s' u H. destruct (commit_spec _ _ _ _ _ _ _ _ _ H) as (evs & o & r & A & -> & _). apply gk_same. reflexivity. Qed.
Lemma tag_write_gk E fd i off d : pres gk (tag_write E fd i off d).
Proof. intros s s' r H. apply tag_write_cases in H. destruct H; apply gk_same; reflexivity. Qed.
Lemma tag_mask_write_gk E fd i off d m : pres gk (tag_mask_write E fd i off d m).
Proof. intros s s' r H. apply tag_mask_write_cases in H. destruct H; apply gk_same; reflexivity. Qed.
Lemma set_attribute_gk E i a : pres gk (set_attribute E i a).
Proof. intros s s' u H. destruct (set_attribute_spec _ _ _ _ _ _ H) as (t & r & f & x & _ & _ & ->). apply gk_same; reflexivity. Qed.
Lemma tag_read_gk E fd i off n c : pres gk (tag_read E fd i off n c).
Proof. intros s s' a H. unfold tag_read in H. inv_all; apply gk_same; reflexivity. Qed.
Create HintDb gk.
#[export] Hint Resolve tag_write_gk tag_mask_write_gk set_attribute_gk tag_read_gk commit_gk : gk.
Ltac gk_step :=
  match goal with
  | |- gk ?s ?s => apply gk_refl
  | H : ?m ?Y = Done (?X, _) |- gk _ ?X =>
      eapply (gk_trans _ Y); [| let P := fresh in assert (P : pres gk m) by (auto with gk); exact (P _ _ _ H)]
  | |- gk _ (upd_mod _ _ ?Y) => apply (gk_trans _ Y); [| apply gk_upd; reflexivity]
  | |- gk _ (set_ovi ?Y _) => apply (gk_trans _ Y); [| apply gk_same; reflexivity]
  | |- gk _ (set_dbsize ?Y _) => apply (gk_trans _ Y); [| apply gk_same; reflexivity]
  | |- gk _ (set_ovs ?Y _) => apply (gk_trans _ Y); [| apply gk_same; reflexivity]
  | |- gk _ (set_tag ?Y _ _) => apply (gk_trans _ Y); [| apply gk_same; reflexivity]
  | |- gk _ (set_out ?Y _) => apply (gk_trans _ Y); [| apply gk_same; reflexivity]
  | |- gk _ (set_types ?Y _) => apply (gk_trans _ Y); [| apply gk_same; reflexivity]
  | |- gk _ (set_ret ?Y _) => apply (gk_trans _ Y); [| apply gk_same; reflexivity]
  | |- gk _ (set_now ?Y _) => apply (gk_trans _ Y); [| apply gk_same; reflexivity]
  | |- gk _ (set_tagcount ?Y _) => apply (gk_trans _ Y); [| apply gk_same; reflexivity]
  | |- gk _ (set_index ?Y _) => apply (gk_trans _ Y); [| apply gk_same; reflexivity]
  | |- gk _ (set_db ?Y _) => apply (gk_trans _ Y); [| apply gk_same; reflexivity]
  end.
Ltac gks := repeat gk_step.
Ltac gk_tac := let s := fresh "s" in let s' := fresh "s'" in let a := fresh "a" in let H := fresh "H" in
  intros s s' a H; inv_all; gks.
Lemma sys_write_gk E i d : pres gk (sys_write E i d).
Proof. unfold sys_write. gk_tac. Qed.
#[export] Hint Resolve sys_write_gk : gk.
Lemma tag_add_gk E fd nm ty c a : pres gk (tag_add E fd nm ty c a).
Proof.
  intros s s' r H. unfold tag_add in H.
  destruct (c =? 0); [inv_all; apply gk_refl|]. inv1 H. inv1 H.
  assert (E0 : gk s s0).
  { destruct (s_dbsize s <=? zlen (s_db s)); [apply put_evout in Hm; subst; apply gk_same; reflexivity | inv_all; apply gk_refl]. }
  eapply gk_trans; [exact E0|]. clear E0 Hm. inv_all; gks.
Qed.
Lemma tag_del_gk E i : pres gk (tag_del E i).
Proof.
  intros s s' r H. unfold tag_del in H. inv1 H.
  destruct (znth (s_db s) i) as [t|]; [|inv_all; apply gk_refl].
  assert (K : forall d nm, (o <- lift (del_events (s_mods s) i (data_block d) (t_events t)) ;;
          emit o ;;;
          put_tag i (set_maps (set_events t []) (Some [])) ;;;
          ix <- lift (del_index (s_index s) nm) ;;
          modify (fun s => set_index s ix) ;;;
          tag_write E (-1) IX_DELETED 0 (tag_desc E (s_step s) i (t_type t) (t_count t) (u16 (t_attr t)) nm) ;;;
          t1 <- tag_at i ;;
          put_tag i (set_attr (set_data (set_name t1 None) DNull) 0) ;;;
          modify (fun s => set_tagcount s (s_tagcount s - 1)) ;;;
          s2 <- get ;;
          sys_write E IX_TAGCOUNT (le_bytes 4 (s_tagcount s2)) ;;;
          ret 0) s = Done (s', r) -> gk s s').
  { clear H. intros d nm K. inv1 K. inv1 K. inv_all. gks. }
  destruct (t_data t); try (inv_all; apply gk_refl); destruct (t_name t); try discriminate; destruct (t_maps t); try discriminate; eapply K; exact H.
Qed.
#[export] Hint Resolve tag_add_gk tag_del_gk : gk.
Lemma override_add_gk E idx off d m : pres gk (override_add E idx off d m).
Proof. unfold override_add. gk_tac. Qed.
Lemma override_del_gk E idx off m : pres gk (override_del E idx off m).
Proof. unfold override_del. gk_tac. Qed.
Lemma override_get_gk idx off size : pres gk (override_get idx off size).
Proof. unfold override_get. gk_tac. Qed.
Lemma override_set_gk E idx flag : pres gk (override_set E idx flag).
Proof. unfold override_set. gk_tac. Qed.
Lemma event_add_gk E h et ud m : pres gk (event_add E h et ud m).
Proof. unfold event_add. gk_tac. Qed.
Lemma event_del_gk E idx id mo : pres gk (event_del E idx id mo).
Proof. unfold event_del. gk_tac. Qed.
Lemma event_opt_gk idx id o mo : pres gk (event_opt idx id o mo).
Proof. unfold event_opt. gk_tac. Qed.
Lemma map_add_gk a b : pres gk (map_add a b).
Proof. unfold map_add. gk_tac. Qed.
Lemma map_del_gk a b : pres gk (map_del a b).
Proof. unfold map_del. gk_tac. Qed.
#[export] Hint Resolve override_add_gk override_del_gk override_get_gk override_set_gk event_add_gk event_del_gk event_opt_gk map_add_gk map_del_gk : gk.
Lemma map_fire_gk E m : pres gk (map_fire E m).
Proof. unfold map_fire. gk_tac. Qed.
#[export] Hint Resolve map_fire_gk : gk.
Lemma map_loop_gk E l o w : pres gk (map_loop E l o w).
Proof. induction l; cbn [map_loop]; gk_tac. Qed.
#[export] Hint Resolve map_loop_gk : gk.
Lemma map_check_gk E i o w : pres gk (map_check E i o w).
Proof. unfold map_check. gk_tac. Qed.
Lemma atomic_op_gk E h o d : pres gk (atomic_op E h o d).
Proof. unfold atomic_op. gk_tac. Qed.
Lemma group_write_loop_gk E : forall hs o b, pres gk (group_write_loop E hs o b).
Proof. induction hs; intros o b; cbn [group_write_loop]; gk_tac. Qed.
Lemma group_read_loop_gk E : forall hs o b, pres gk (group_read_loop E hs o b).
Proof. induction hs; intros o b; cbn [group_read_loop]; gk_tac. Qed.
#[export] Hint Resolve map_check_gk atomic_op_gk group_write_loop_gk group_read_loop_gk : gk.
Lemma group_read_gk E m g : pres gk (group_read E m g).
Proof. unfold group_read. gk_tac. Qed.
Lemma group_write_gk E m g p : pres gk (group_write E m g p).
Proof. unfold group_write. gk_tac. Qed.
Lemma respond_gk a b c : pres gk (respond a b c).
Proof. unfold respond. gk_tac. Qed.
Lemma reply_err_gk a b c : pres gk (reply_err a b c).
Proof. unfold reply_err. gk_tac. Qed.
#[export] Hint Resolve group_read_gk group_write_gk respond_gk reply_err_gk : gk.
Lemma reply_int_gk a b c : pres gk (reply_int a b c).
Proof. unfold reply_int. gk_tac. Qed.
Lemma reply_status_gk a b c : pres gk (reply_status a b c).
Proof. unfold reply_status. gk_tac. Qed.
#[export] Hint Resolve reply_int_gk reply_status_gk : gk.
Lemma h_tag_get_gk E fd r : pres gk (h_tag_get E fd r).
Proof. unfold h_tag_get. gk_tac. Qed.
Lemma h_cdt_get_gk a b : pres gk (h_cdt_get a b).
Proof. unfold h_cdt_get. gk_tac. Qed.
Lemma h_cdt_create_gk E a b : pres gk (h_cdt_create E a b).
Proof. unfold h_cdt_create. gk_tac. Qed.
Lemma h_read_gk E a b c d : pres gk (h_read E a b c d).
Proof. unfold h_read. gk_tac. Qed.
Lemma h_write_gk E a b c d : pres gk (h_write E a b c d).
Proof. unfold h_write. gk_tac. Qed.
Lemma h_mask_gk E a b c d m : pres gk (h_mask E a b c d m).
Proof. unfold h_mask. gk_tac. Qed.
Lemma h_atomic_gk E a b c d : pres gk (h_atomic E a b c d).
Proof. unfold h_atomic. gk_tac. Qed.
#[export] Hint Resolve h_tag_get_gk h_cdt_get_gk h_cdt_create_gk h_read_gk h_write_gk h_mask_gk h_atomic_gk : gk.
(** every request but these leaves the groups of all modules alone *)
Definition group_op (o : op) : bool := match o with OpRegister _ _ | OpDisconnect _ | OpGrpAdd _ _ | OpGrpDel _ _ => true | _ => false end.
Lemma h_tag_del_gk E a b : pres gk (h_tag_del E a b).
Proof. unfold h_tag_del. gk_tac. Qed.
#[export] Hint Resolve h_tag_del_gk : gk.
Lemma handle_op_gk E o : group_op o = false -> pres gk (handle_op E o).
Proof. destruct o; intros G; try discriminate G; cbn [handle_op]; try unfold with_mod; gk_tac. Qed.

(** *** the group table of one module *)
(** the id [i] of module [m] denotes the members [hs] *)
Definition denotes (m : module) (i : Z) (hs : list handle) : Prop := znth (m_groups m) i = Some (mk_g true hs).
(** the size the server has noted for the module's table covers all its groups *)
Definition covered (m : module) : Prop := 0 <= m_gsize m <= 4096 /\ forall i hs, denotes m i hs -> i < m_gsize m.
Lemma first_empty_some g : forall n k i, first_empty g n k = Some i -> exists x, znth g (i - k) = Some x /\ g_live x = false /\ k <= i < k + Z.of_nat n.
Proof.
  induction g as [|x g IH]; intros n k i H; [destruct n; discriminate|]. destruct n as [|n]; [discriminate|]. cbn [first_empty] in H.
  destruct (g_live x) eqn:Lx.
  - apply IH in H as (y & H1 & H2 & H3). exists y. split; [|split; [exact H2 | lia]]. replace (i - k) with ((i - (k + 1)) + 1) by lia. rewrite znth_S by lia. exact H1.
  - injection H as <-. exists x. rewrite Z.sub_diag, znth_0. split; [reflexivity|]. split; [exact Lx | lia].
Qed.
Lemma znth_firstn {A} n (l : list A) i : 0 <= i < Z.of_nat n -> znth (firstn n l) i = znth l i.
Proof.
  revert n i; induction l as [|x l IH]; intros n i H; [rewrite firstn_nil; reflexivity|]. destruct n as [|n]; [lia|]. cbn [firstn].
  destruct (Z.eq_dec i 0) as [->|N]; [rewrite !znth_0; reflexivity|]. replace i with ((i - 1) + 1) by lia. rewrite !znth_S by lia. apply IH. lia.
Qed.
Lemma znth_rep {A} (x : A) n j : 0 <= j < Z.of_nat n -> znth (repeat x n) j = Some x.
Proof.
  intros H. destruct (znth_some (repeat x n) j) as [y Hy]; [unfold zlen; rewrite repeat_length; lia|]. rewrite Hy. f_equal.
  apply znth_In, repeat_spec in Hy. exact Hy.
Qed.
Lemma group_slot_spec g size g' size' i : 0 <= size <= 4096 -> (forall k hs, znth g k = Some (mk_g true hs) -> k < size) -> group_slot g size = (g', size', i) ->
  (forall k hs, znth g k = Some (mk_g true hs) -> znth g' k = Some (mk_g true hs)) /\
  (0 <= size' <= 4096 /\ size <= size') /\ (forall k hs, znth g' k = Some (mk_g true hs) -> znth g k = Some (mk_g true hs)) /\
  (0 <= i -> i < size' /\ i < zlen g' /\ forall hs, znth g i <> Some (mk_g true hs)).
Proof.
  intros S C H. unfold group_slot in H.
  set (g1 := if size =? 0 then repeat empty_group 16 else g). set (z1 := if size =? 0 then 16 else size).
  assert (Q : (if size =? 0 then (repeat empty_group 16, 16) else (g, size)) = (g1, z1)) by (subst g1 z1; destruct (size =? 0); reflexivity).
  rewrite Q in H. clear Q. assert (Z1 : 0 < z1 <= 4096 /\ size <= z1) by (subst z1; destruct (Z.eqb_spec size 0); lia).
  assert (Em : forall n k hs, znth (repeat empty_group n) k <> Some (mk_g true hs)).
  { intros n k hs Q. apply znth_In, repeat_spec in Q. discriminate. }
  assert (A : forall k hs, znth g k = Some (mk_g true hs) <-> znth g1 k = Some (mk_g true hs)).
  { intros k hs. subst g1. destruct (Z.eqb_spec size 0) as [->|]; [|reflexivity]. split; intros Q; exfalso; [assert (B := C _ _ Q); apply znth_range in Q; lia | exact (Em _ _ _ Q)]. }
  assert (C1 : forall k hs, znth g1 k = Some (mk_g true hs) -> k < z1).
  { intros k hs Q. apply A, C in Q. subst z1. destruct (Z.eqb_spec size 0); lia. }
  clearbody g1 z1. destruct (first_empty g1 (Z.to_nat z1) 0) as [x|] eqn:F.
  - injection H as <- <- <-. split; [intros; apply A; assumption|]. split; [lia|]. split; [intros; apply A; assumption|]. intros _.
    apply first_empty_some in F as (y & F1 & F2 & F3). rewrite Z.sub_0_r in F1. split; [lia|]. split; [apply znth_range in F1; lia|].
    intros hs Q. apply A in Q. assert (y = mk_g true hs) by congruence. subst y. discriminate.
  - replace (u32 (z1 * 2)) with (z1 * 2) in H by (symmetry; apply Z.mod_small; lia). destruct (Z.ltb_spec 4096 (z1 * 2)) as [L|L].
    { injection H as <- <- <-. split; [intros; apply A; assumption|]. split; [lia|]. split; [intros; apply A; assumption|]. intros Q. exfalso. vm_compute in Q. apply Q. reflexivity. }
    injection H as <- <- <-. set (R := resize_groups g1 (z1 * 2)).
    assert (LR : zlen R = z1 * 2).
    { unfold R, resize_groups, zlen. rewrite app_length, firstn_length, repeat_length. lia. }
    assert (RA : forall k, 0 <= k < z1 -> znth R k = match znth g1 k with Some v => Some v | None => Some empty_group end).
    { intros k Hk. unfold R, resize_groups. destruct (Z_lt_le_dec k (zlen g1)) as [Lk|Lk].
      - rewrite znth_app1; [|unfold zlen in *; rewrite firstn_length; lia]. rewrite znth_firstn by lia. destruct (znth_some g1 k) as [v ->]; [lia | reflexivity].
      - replace (znth g1 k) with (@None group) by (symmetry; apply znth_none; lia).
        rewrite znth_app2; [|unfold zlen in *; rewrite firstn_length; lia]. apply znth_rep. unfold zlen in *. rewrite firstn_length. lia. }
    assert (LF : zlen (firstn (Z.to_nat z1) R) = z1) by (unfold zlen in *; rewrite firstn_length; lia).
    assert (X : forall k hs, znth (firstn (Z.to_nat z1) R ++ repeat empty_group (Z.to_nat (z1 * 2 - z1))) k = Some (mk_g true hs) <-> znth g1 k = Some (mk_g true hs)).
    { intros k hs. split; intros Q.
      - destruct (Z_lt_le_dec k z1) as [Lk|Lk].
        + assert (0 <= k) by (apply znth_range in Q; lia). rewrite znth_app1 in Q by lia. rewrite znth_firstn, RA in Q by lia. destruct (znth g1 k); [exact Q | discriminate].
        + rewrite znth_app2 in Q by lia. exfalso. exact (Em _ _ _ Q).
      - assert (B := C1 _ _ Q). assert (0 <= k) by (apply znth_range in Q; lia). rewrite znth_app1 by lia. rewrite znth_firstn, RA by lia. rewrite Q. reflexivity. }
    split; [intros; apply X, A; assumption|]. split; [lia|]. split; [intros k hs Q; apply A, X; exact Q|].
    intros _. split; [lia|]. split; [rewrite zlen_app, LF; unfold zlen; rewrite repeat_length; lia|].
    intros hs Q. apply A, C1 in Q. lia.
Qed.
Lemma del_owned_gk E fd n : pres gk (del_owned E fd n).
Proof. unfold del_owned. gk_tac. Qed.
#[export] Hint Resolve del_owned_gk : gk.
Lemma del_owned_loop_gk E fd : forall k n, pres gk (del_owned_loop E fd k n).
Proof. induction k; intros n; cbn [del_owned_loop]; gk_tac. Qed.
#[export] Hint Resolve del_owned_loop_gk : gk.
Lemma cleanup_tag_gk E n uid : forall l, pres gk (cleanup_tag E n uid l).
Proof. induction l; cbn [cleanup_tag]; gk_tac. Qed.
#[export] Hint Resolve cleanup_tag_gk : gk.
Lemma cleanup_loop_gk E uid : forall k, pres gk (cleanup_loop E k uid).
Proof. induction k; cbn [cleanup_loop]; gk_tac. Qed.
#[export] Hint Resolve cleanup_loop_gk : gk.
(** two entries of the module list with the same uid (or the same connection) are the same *)
Lemma one_module E s m m' : SysInv E s -> In m (s_mods s) -> In m' (s_mods s) -> m_uid m = m_uid m' \/ m_fd m = m_fd m' -> m = m'.
Proof.
  intros S. destruct (si_mods _ _ S) as (N1 & N2 & _). revert N1 N2. generalize (s_mods s). clear.
  induction l as [|x l IH]; intros N1 N2 H1 H2 Q; [destruct H1|]. cbn in N1, N2. apply NoDup_cons_iff in N1 as [N1 N1']. apply NoDup_cons_iff in N2 as [N2 N2'].
  destruct H1 as [->|H1], H2 as [->|H2]; auto; exfalso; destruct Q as [Q|Q].
  - apply N1. rewrite Q. apply in_map. exact H2.
  - apply N2. rewrite Q. apply in_map. exact H2.
  - apply N1. rewrite <- Q. apply in_map. exact H1.
  - apply N2. rewrite <- Q. apply in_map. exact H1.
Qed.
Lemma gk_in s s' m : gk s s' -> In m (s_mods s) -> exists m', In m' (s_mods s') /\ gview m' = gview m.
Proof.
  unfold gk. intros K H. apply (in_map gview) in H. rewrite <- K in H. apply in_map_iff in H as (m' & A & B). eauto.
Qed.
Lemma unregister_keeps E fd s s' u m : SysInv E s -> module_unregister E fd s = Done (s', u) -> In m (s_mods s) -> m_fd m <> fd ->
  exists m', In m' (s_mods s') /\ gview m' = gview m.
Proof.
  intros S H Hm Hf. unfold module_unregister in H. inv1 H. destruct (find_mod s fd) as [m0|] eqn:F; [|apply ret_done in H as [-> _]; eauto].
  apply find_some in F as [F1 F2]. assert (Nu : m_uid m <> m_uid m0) by (intros Q; assert (m = m0) by (eapply one_module; eauto); subst; lia).
  apply bind_done in H as (s1 & u1 & H1 & H). inv1 H. apply bind_done in H as (s2 & u2 & H2 & H). apply bind_done in H as (s3 & u3 & H3 & H).
  assert (K : gk s s3) by (eapply gk_trans; [eapply gk_trans; [eapply cleanup_loop_gk; exact H1 | eapply del_owned_loop_gk; exact H2] | eapply tag_del_gk; exact H3]).
  destruct (gk_in _ _ _ K Hm) as (m' & A & B). unfold modify in H. injection H as <- _. exists m'. split; [|exact B]. cbn. apply filter_In. split; [exact A|].
  unfold gview in B. injection B as B _ _ _. rewrite B. lia.
Qed.
Lemma register_keeps E nm fd s s' u m : Inv s -> SysInv E s -> module_register E nm fd s = Done (s', u) -> In m (s_mods s) -> m_fd m <> fd ->
  exists m', In m' (s_mods s') /\ gview m' = gview m.
Proof.
  intros I S H Hm Hf. unfold module_register in H. inv1 H. apply bind_done in H as (s1 & u1 & H1 & H).
  assert (exists m1, In m1 (s_mods s1) /\ gview m1 = gview m) as (m1 & A & B).
  { destruct (find_mod s fd) as [m0|] eqn:F; [|apply ret_done in H1 as [-> _]; eauto].
    apply find_some in F as [_ F]. apply Z.eqb_eq in F. rewrite F in H1. eapply unregister_keeps; eassumption. }
  inv1 H. inv1 H. set (s2 := set_nextuid _ _) in H. assert (A2 : In m1 (s_mods s2)) by (right; exact A).
  assert (K : gk s2 s').
  { clear -H. destruct (existsb _ _); [apply ret_done in H as [-> _]; apply gk_refl|]. inv1 H. inv1 H. destruct v as [tn uuid]. inv1 H. inv1 H. 
    apply bind_done in H as (s3 & r & H1 & H). destruct (r <? 0); [discriminate|]. clearbody s2. inv_all. gks. apply gk_same. reflexivity. }
  destruct (gk_in _ _ _ K A2) as (m' & A3 & B3). exists m'. split; [exact A3 | congruence].
Qed.
(** the request neither deletes a group of the module connected as [fd] nor ends or renews its connection *)
Definition spares_groups (o : op) (fd : Z) : Prop := match o with OpGrpDel f _ | OpRegister f _ | OpDisconnect f => f <> fd | _ => True end.
Lemma upd_mod_in s u f m : In m (s_mods s) -> In (if m_uid m =? u then f m else m) (s_mods (upd_mod u f s)).
Proof. intros H. cbn. apply in_map_iff. exists m. auto. Qed.
Lemma group_add_done uid m hs s s' r : group_add uid m hs s = Done (s', r) -> 0 <= m_gsize m <= 4096 -> (forall i hs, denotes m i hs -> i < m_gsize m) ->
  (r < 0 /\ ((s' = s) \/ exists g z, s' = upd_mod uid (fun m => set_groups m g z) s /\ (0 <= z <= 4096 /\ m_gsize m <= z) /\ forall i h, denotes m i h <-> znth g i = Some (mk_g true h))) \/
  (0 <= r /\ (forall h, ~ denotes m r h) /\ exists g z, s' = upd_mod uid (fun m => set_groups m (zset g r (mk_g true hs)) z) s /\ r < z /\ (0 <= z <= 4096 /\ m_gsize m <= z) /\ r < zlen g /\
     forall i h, denotes m i h <-> znth g i = Some (mk_g true h)).
Proof.
  intros H B C. unfold group_add in H. destruct (150 <? zlen hs); [apply ret_done in H as [-> ->]; left; split; [reflexivity | auto]|].
  destruct (group_slot (m_groups m) (m_gsize m)) as [[g z] i] eqn:G. destruct (group_slot_spec _ _ _ _ _ B C G) as (S1 & S2 & S3 & S4).
  destruct (Z.ltb_spec i 0) as [L|L].
  - inv1 H. apply ret_done in H as [-> ->]. left. split; [exact L|]. right. exists g, z. split; [reflexivity|]. split; [exact S2|]. intros k h. split; [apply S1 | apply S3].
  - destruct (S4 L) as (S5 & S6 & S7). destruct (group_fits hs 0).
    + inv1 H. apply ret_done in H as [-> ->]. right. split; [exact L|]. split; [exact S7|]. exists g, z. split; [reflexivity|]. split; [exact S5|]. split; [exact S2|]. split; [exact S6|].
      intros k h. split; [apply S1 | apply S3].
    + inv1 H. apply ret_done in H as [-> ->]. left. split; [reflexivity|]. right. exists g, z. split; [reflexivity|]. split; [exact S2|]. intros k h. split; [apply S1 | apply S3].
Qed.
Lemma gview_rel (P : module -> Prop) m m' : gview m' = gview m -> m_uid m' = m_uid m /\ m_fd m' = m_fd m /\ m_groups m' = m_groups m /\ m_gsize m' = m_gsize m.
Proof. unfold gview. intros H. injection H as -> -> -> ->. auto. Qed.
Lemma group_add_other uid m hs s s' r : group_add uid m hs s = Done (s', r) -> s' = s \/ exists g z, s' = upd_mod uid (fun m => set_groups m g z) s.
Proof.
  intros H. unfold group_add in H. destruct (150 <? zlen hs); [apply ret_done in H as [-> ->]; auto|]. destruct (group_slot _ _) as [[g z] i].
  destruct (i <? 0); [|destruct (group_fits hs 0)]; inv1 H; apply ret_done in H as [-> ->]; right; eauto.
Qed.
Definition same_groups (m m' : module) : Prop := m_uid m' = m_uid m /\ m_fd m' = m_fd m /\ covered m' /\ forall i hs, denotes m i hs -> denotes m' i hs.
Lemma group_add_keeps s m0 m hs s' r : covered m -> In m (s_mods s) -> (m_uid m = m_uid m0 -> m = m0) -> group_add (m_uid m0) m0 hs s = Done (s', r) ->
  exists m', In m' (s_mods s') /\ same_groups m m' /\ (m = m0 -> 0 <= r -> (forall h, ~ denotes m r h) /\ denotes m' r hs).
Proof.
  intros C Hm U H1. assert (Same : same_groups m m) by (split; [reflexivity|]; split; [reflexivity|]; split; [exact C | auto]). destruct C as [C1 C2].
  destruct (Z.eq_dec (m_uid m) (m_uid m0)) as [Eu|Nu].
  - assert (m = m0) by auto. subst m0.
    destruct (group_add_done _ _ _ _ _ _ H1 C1 C2) as [(P0 & [->|(g & z & -> & Bz & D)])|(P0 & Pn & g & z & -> & Rz & Bz & Rg & D)].
    + exists m. split; [exact Hm|]. split; [exact Same|]. intros _ Q. lia.
    + eexists. split; [apply upd_mod_in; exact Hm|]. rewrite Z.eqb_refl. split; [|intros _ Q; lia]. split; [reflexivity|]. split; [reflexivity|].
      split; [split; [apply Bz|]; intros i h Q; apply D, C2 in Q; cbn; lia | intros i h Q; apply D; exact Q].
    + eexists. split; [apply upd_mod_in; exact Hm|]. rewrite Z.eqb_refl.
      assert (Ne : forall i h, denotes m i h -> i <> r) by (intros i h Q ->; exact (Pn _ Q)).
      split; [|intros _ _; split; [exact Pn | unfold denotes; cbn; apply znth_zset_eq; lia]]. split; [reflexivity|]. split; [reflexivity|]. split; [split; [apply Bz|]|].
      * intros i h Q. unfold denotes in Q. cbn in Q |- *. destruct (Z.eq_dec i r) as [->|N]; [exact Rz|]. rewrite znth_zset_ne in Q by congruence. apply D, C2 in Q. lia.
      * intros i h Q. unfold denotes. cbn. rewrite znth_zset_ne by (intros ->; exact (Pn _ Q)). apply D. exact Q.
  - apply group_add_other in H1 as [->|(g & z & ->)]; exists m; (split; [|split; [exact Same | intros ->; congruence]]); [exact Hm|].
    apply (upd_mod_in _ (m_uid m0) (fun m => set_groups m g z)) in Hm. replace (m_uid m =? m_uid m0) with false in Hm by lia. exact Hm.
Qed.
Lemma same_gk s s' m m' : gk s s' -> In m' (s_mods s) -> same_groups m m' -> exists m2, In m2 (s_mods s') /\ same_groups m m2 /\ gview m2 = gview m'.
Proof.
  intros K A B. destruct (gk_in _ _ _ K A) as (m2 & A2 & V). exists m2. split; [exact A2|]. split; [|exact V].
  destruct (gview_rel (fun _ => True) _ _ V) as (B1 & B2 & B3 & B4). unfold same_groups, covered, denotes in *. rewrite B1, B2, B3, B4. exact B.
Qed.
Lemma C35_step E s o s' m : reachable E s -> In m (s_mods s) -> covered m -> spares_groups o (m_fd m) -> step E s o = Done s' ->
  exists m', In m' (s_mods s') /\ same_groups m m'.
Proof.
  intros R Hm C Sp H. apply step_inv in H as (s1 & u & H & ->). cbn [s_mods set_step].
  assert (Same : same_groups m m) by (split; [reflexivity|]; split; [reflexivity|]; split; [exact C | auto]).
  assert (V : forall m', In m' (s_mods s1) /\ gview m' = gview m -> exists m', In m' (s_mods s1) /\ same_groups m m').
  { intros m' [A B]. destruct (gview_rel (fun _ => True) _ _ B) as (B1 & B2 & B3 & B4). exists m'. split; [exact A|]. unfold same_groups, covered, denotes in *. rewrite B1, B2, B3, B4. auto. }
  assert (I := reachable_Inv _ _ R). assert (Sy := reachable_sys _ _ R).
  destruct (group_op o) eqn:G; [|destruct (gk_in _ _ _ (handle_op_gk _ _ G _ _ _ H) Hm) as (m' & A); eauto].
  destruct o; try discriminate G; cbn [handle_op spares_groups] in H, Sp.
  - apply bind_done in H as (s2 & v & H1 & H). inv1 H. destruct (register_keeps _ _ _ _ _ _ _ I Sy H1 Hm) as (m1 & A & B); [congruence|].
    assert (K : gk s2 s1) by (clear - H; inv_all; gks).
    destruct (gk_in _ _ _ K A) as (m' & A' & B'). apply (V m'). split; [exact A' | congruence].
  - destruct (unregister_keeps _ _ _ _ _ _ Sy H Hm) as (m' & A); [congruence|]. eauto.
  - unfold with_mod in H. inv1 H. destruct (find_mod s fd) as [m0|] eqn:F; [|discriminate]. apply find_some in F as [F1 F2]. apply Z.eqb_eq in F2.
    apply bind_done in H as (s2 & r & H1 & H). assert (K := reply_int_gk _ _ _ _ _ _ H).
    destruct (group_add_keeps s m0 m hs s2 r C Hm) as (m' & A & B & _); [intros Q; eapply one_module; eauto | exact H1|].
    destruct (same_gk _ _ _ _ K A B) as (m2 & A2 & B2 & _). eauto.
  - unfold with_mod in H. inv1 H. destruct (find_mod s fd) as [m0|] eqn:F; [|discriminate]. apply find_some in F as [F1 F2]. apply Z.eqb_eq in F2.
    apply bind_done in H as (s2 & r & H1 & H). assert (K := reply_int_gk _ _ _ _ _ _ H).
    assert (Nu : m_uid m <> m_uid m0) by (intros Q; assert (m = m0) by (eapply one_module; eauto); subst; congruence).
    assert (A : In m (s_mods s2)).
    { unfold group_del in H1. destruct (znth (m_groups m0) i) as [g|]; [|discriminate]. destruct (g_live g); [|apply ret_done in H1 as [-> _]; exact Hm].
      inv1 H1. apply ret_done in H1 as [-> _]. apply (upd_mod_in _ (m_uid m0) (fun m => set_groups m (zset (m_groups m) i empty_group) (u32 (m_gsize m - 1)))) in Hm.
      replace (m_uid m =? m_uid m0) with false in Hm by lia. exact Hm. }
    destruct (same_gk _ _ _ _ K A Same) as (m2 & A2 & B2 & _). eauto.
Qed.
(** FULL STATEMENT (false, see the refutation): a group id keeps denoting the same members until the module deletes that group, and a
    new group never gets the id of a live one.
    What holds: as long as the size noted for the module's group table covers its groups -- which is so until the module deletes one --
    every id keeps its members through any number of requests of all modules, *)
Theorem C35_partial : forall E os s s' m, reachable E s -> In m (s_mods s) -> covered m -> Forall (fun o => spares_groups o (m_fd m)) os -> exec E s os = Done s' ->
  exists m', In m' (s_mods s') /\ m_uid m' = m_uid m /\ m_fd m' = m_fd m /\ covered m' /\ forall i hs, denotes m i hs -> denotes m' i hs.
Proof.
  induction os as [|o os IH]; intros s s' m R Hm C F H; cbn in H.
  - injection H as <-. exists m. split; [exact Hm|]. split; [reflexivity|]. split; [reflexivity|]. split; [exact C | auto].
  - apply Forall_cons_iff in F as [F1 F2]. apply rbind_done in H as (s1 & H1 & H). destruct (C35_step _ _ _ _ _ R Hm C F1 H1) as (m1 & A & U & Fd & C1 & D).
    rewrite <- Fd in F2. destruct (IH _ _ _ (reachable_step _ _ _ _ R H1) A C1 F2 H) as (m' & A' & U' & Fd' & C' & D').
    exists m'. split; [exact A'|]. split; [congruence|]. split; [congruence|]. split; [exact C' | auto].
Qed.
(** a newly connected module is in that situation, *)
Theorem C35_start : forall E s fd nm s' m, reachable E s -> step E s (OpRegister fd nm) = Done s' -> In m (s_mods s') -> m_fd m = fd -> m_groups m = [] /\ covered m.
Proof.
  intros E s fd nm s' m R H Hm Fd. assert (Sy' := reachable_sys _ _ (reachable_step _ _ _ _ R H)). apply step_inv in H as (s1 & u & H & ->). cbn [s_mods set_step handle_op] in *.
  apply bind_done in H as (s2 & v & H1 & H). inv1 H. assert (K : gk s2 s1) by (clear - H; inv_all; gks). clear H.
  unfold module_register in H1. inv1 H1. apply bind_done in H1 as (s3 & u1 & H0 & H). inv1 H. inv1 H. set (s4 := set_nextuid _ _) in H.
  assert (A2 : In (mk_mod (s_nextuid s3) nm fd 0 0 [] 0) (s_mods s4)) by (left; reflexivity).
  assert (K2 : gk s4 s2).
  { clear -H. destruct (existsb _ _); [apply ret_done in H as [-> _]; apply gk_refl|]. inv1 H. inv1 H. destruct v as [tn uuid]. inv1 H. inv1 H. inv1 H.
    apply bind_done in H as (s5 & r & H1 & H). destruct (r <? 0); [discriminate|]. clearbody s4. inv_all. gks. apply gk_same. reflexivity. }
  destruct (gk_in _ _ _ (gk_trans _ _ _ K2 K) A2) as (m' & A' & B'). assert (m' = m).
  { eapply one_module; [exact Sy' | exact A' | exact Hm|]. right. unfold gview in B'. cbn in B'. congruence. }
  subst m'. unfold gview in B'. cbn in B'. injection B' as _ _ B1 B2. split; [exact B1|]. split; [lia|]. intros i hs Q. unfold denotes in Q. rewrite B1 in Q. apply znth_range in Q. cbn in Q. lia.
Qed.
(** a new group gets an id that is not in use and denotes the members given, *)
Theorem C35_new_id : forall E s fd hs s' m p, reachable E s -> In m (s_mods s) -> m_fd m = fd -> covered m ->
  step E s (OpGrpAdd fd hs) = Done s' -> answered s s' (OResp fd MSG_GRP_ADD p) ->
  exists i m', 0 <= i /\ p = le_bytes 4 i /\ (forall h, ~ denotes m i h) /\ In m' (s_mods s') /\ m_uid m' = m_uid m /\ denotes m' i hs.
Proof.
  intros E s fd hs s' m p R Hm Fd C H A. apply step_inv in H as (s1 & u & H & ->). cbn [handle_op] in H. unfold with_mod in H. inv1 H.
  destruct (find_mod s fd) as [m0|] eqn:F; [|discriminate]. apply find_some in F as [F1 F2]. apply Z.eqb_eq in F2.
  assert (m0 = m) by (eapply one_module; [exact (reachable_sys _ _ R) | exact F1 | exact Hm | right; congruence]). subst m0.
  apply bind_done in H as (s2 & r & H1 & H). assert (K := reply_int_gk _ _ _ _ _ _ H). apply reply_int_done in H. subst s1.
  assert (Ev : s_out s2 = s_out s) by (apply group_add_other in H1 as [->|(g & z & ->)]; reflexivity).
  set (a := if r <? 0 then _ else _) in *.
  assert (Q : answered s (set_step (set_out s2 (s_out s2 ++ [a])) (s_step (set_out s2 (s_out s2 ++ [a])) + 1)) a) by (exists []; split; [cbn; rewrite Ev; reflexivity | constructor]).
  assert (Z := answered_fun _ _ _ _ A Q). subst a. destruct (Z.ltb_spec r 0); [discriminate|]. injection Z as ->.
  destruct (group_add_keeps s m m hs s2 r C Hm (fun _ => eq_refl) H1) as (m' & A' & B' & D). destruct (D eq_refl H) as [D1 D2].
  exists r, m'. split; [exact H|]. split; [reflexivity|]. split; [exact D1|]. split; [exact A'|]. split; [apply B' | exact D2].
Qed.
(** and deleting a group frees its id and leaves the other groups of the module alone; an id that is not in use is refused *)
Theorem C35_delete : forall E s fd i s' m, reachable E s -> In m (s_mods s) -> m_fd m = fd -> step E s (OpGrpDel fd i) = Done s' ->
  ((exists hs, denotes m i hs) /\ answered s s' (OResp fd MSG_GRP_DEL (le_bytes 4 0)) /\
     exists m', In m' (s_mods s') /\ m_uid m' = m_uid m /\ forall j hs, denotes m' j hs <-> denotes m j hs /\ j <> i) \/
  (s' = Spec.after s [OErr fd MSG_GRP_DEL E_NOTFOUND] /\ forall hs, ~ denotes m i hs).
Proof.
  intros E s fd i s' m R Hm Fd H. apply step_inv in H as (s1 & u & H & ->). cbn [handle_op] in H. unfold with_mod in H. inv1 H.
  destruct (find_mod s fd) as [m0|] eqn:F; [|discriminate]. apply find_some in F as [F1 F2]. apply Z.eqb_eq in F2.
  assert (m0 = m) by (eapply one_module; [exact (reachable_sys _ _ R) | exact F1 | exact Hm | right; congruence]). subst m0.
  apply bind_done in H as (s2 & r & H1 & H). assert (K := reply_int_gk _ _ _ _ _ _ H). apply reply_int_done in H. subst s1.
  unfold group_del in H1. destruct (znth (m_groups m) i) as [g|] eqn:G; [|discriminate]. destruct g as [lv hs]. destruct lv; cbn [g_live] in H1.
  - inv1 H1. apply ret_done in H1 as [-> ->]. left. split; [exists hs; exact G|]. split; [exists []; split; [reflexivity | constructor]|].
    eexists. split; [cbn [s_mods set_out]; apply upd_mod_in; exact Hm|]. rewrite Z.eqb_refl. split; [reflexivity|].
    intros j h. unfold denotes. cbn. destruct (Z.eq_dec j i) as [->|N].
    + rewrite znth_zset_eq by (eapply znth_range; exact G). split; [discriminate | intros [_ Q]; congruence].
    + rewrite znth_zset_ne by congruence. intuition.
  - apply ret_done in H1 as [-> ->]. right. split; [reflexivity|]. intros h Q. unfold denotes in Q. congruence.
Qed.

(** ** Refutations and examples *)
Definition h13 := mk_h 13 4 0 2 8 T_DINT.                (* two elements of foo *)
Definition h15 := mk_h 15 2 0 1 2 T_INT.                 (* one element of baz *)
Definition hro := mk_h 16 0 0 1 2 T_INT.
(** the write of a group changes a tag that a write request refuses to change *)
Definition ro_ops := demo_ops ++ [OpTagAdd 5 (str "ro") T_INT 2 (A_READONLY + A_OWNED); OpGrpAdd 6 [hro]].
Definition ro_state : server := after_ops env0 ro_ops.
Lemma ro_reachable : reachable env0 ro_state.
Proof. apply after_reachable. vm_compute. reflexivity. Qed.
Theorem C34_readonly_refuted : exists E s fd i h s1 s2, reachable E s /\ has_group s fd i [h] /\ sane h /\
  step E s (OpWrite fd (h_index h) (h_byte h) [1; 2]) = Done s1 /\ answered s s1 (OErr fd MSG_TAG_WRITE E_READONLY) /\
  step E s (OpGrpWrite fd i [1; 2]) = Done s2 /\ answered s s2 (OResp fd MSG_GRP_WRITE []) /\ stored s (h_index h) [0; 0; 0; 0] /\ stored s2 (h_index h) [1; 2; 0; 0].
Proof.
  exists env0, ro_state, 6, 0, hro, (after_ops env0 (ro_ops ++ [OpWrite 6 16 0 [1; 2]])), (after_ops env0 (ro_ops ++ [OpGrpWrite 6 0 [1; 2]])).
  split; [exact ro_reachable|]. split; [eexists; split; vm_compute; reflexivity|]. split; [vm_compute; intuition discriminate|].
  split; [vm_compute; reflexivity|]. split; [exists []; split; [vm_compute; reflexivity | constructor]|].
  split; [vm_compute; reflexivity|]. split; [exists []; split; [vm_compute; reflexivity | constructor]|].
  split; eexists; (split; [vm_compute; reflexivity|]; split; vm_compute; reflexivity).
Qed.
(** and it does not carry the value to a mapped tag, which the write request does *)
Definition gm_ops := demo_ops ++ [OpTagAdd 5 (str "q") T_INT 1 0; OpTagAdd 5 (str "r") T_INT 1 0; OpMapAdd 5 hro (mk_h 17 0 0 1 2 T_INT); OpGrpAdd 5 [hro]].
Definition gm_state : server := after_ops env0 gm_ops.
Lemma gm_reachable : reachable env0 gm_state.
Proof. apply after_reachable. vm_compute. reflexivity. Qed.
Theorem C34_mapping_refuted : exists E s fd i h s1 s2, reachable E s /\ has_group s fd i [h] /\ sane h /\
  step E s (OpWrite fd (h_index h) (h_byte h) [1; 2]) = Done s1 /\ stored s1 (h_index h) [1; 2] /\ stored s1 17 [1; 2] /\
  step E s (OpGrpWrite fd i [1; 2]) = Done s2 /\ stored s2 (h_index h) [1; 2] /\ stored s2 17 [0; 0].
Proof.
  exists env0, gm_state, 5, 0, hro, (after_ops env0 (gm_ops ++ [OpWrite 5 16 0 [1; 2]])), (after_ops env0 (gm_ops ++ [OpGrpWrite 5 0 [1; 2]])).
  split; [exact gm_reachable|]. split; [eexists; split; vm_compute; reflexivity|]. split; [vm_compute; intuition discriminate|].
  split; [vm_compute; reflexivity|]. split; [eexists; (split; [vm_compute; reflexivity|]; split; vm_compute; reflexivity)|].
  split; [eexists; (split; [vm_compute; reflexivity|]; split; vm_compute; reflexivity)|]. split; [vm_compute; reflexivity|].
  split; eexists; (split; [vm_compute; reflexivity|]; split; vm_compute; reflexivity).
Qed.
(** a group of two members that meets the hypotheses of [C34_read] and [C34_write_partial] *)
Definition gr_ops := demo_ops ++ [OpGrpAdd 5 [h13; h15]].
Definition gr_state : server := after_ops env0 gr_ops.
Example C34_ex : reachable env0 gr_state /\ has_group gr_state 5 0 [h13; h15] /\ Forall (plain_member gr_state) [h13; h15] /\ Forall (open_member gr_state) [h13; h15] /\
  Forall sane [h13; h15] /\ total [h13; h15] = 10 /\
  step env0 gr_state (OpGrpRead 5 0) = Done (Spec.after gr_state [OResp 5 MSG_GRP_READ [1; 2; 3; 4; 0; 0; 0; 0; 0; 0]]) /\
  exists s', step env0 gr_state (OpGrpWrite 5 0 [9; 8; 7; 6; 5; 4; 3; 2; 1; 11]) = Done s' /\ stored s' 15 [0; 0; 1; 11; 0; 0; 0; 0].
Proof.
  assert (O : Forall (open_member gr_state) [h13; h15]).
  { constructor; [|constructor; [|constructor]]; eexists; (split; [vm_compute; reflexivity|]; split; [vm_compute; reflexivity|]; split; [vm_compute; reflexivity|]; split; vm_compute; reflexivity). }
  split; [apply after_reachable; vm_compute; reflexivity|]. split; [eexists; split; vm_compute; reflexivity|].
  split; [eapply Forall_impl; [|exact O]; intros h (t & A & B & _) t' A'; congruence|]. split; [exact O|].
  split; [constructor; [|constructor; [|constructor]]; vm_compute; intuition discriminate|]. split; [reflexivity|]. split; [vm_compute; reflexivity|].
  exists (after_ops env0 (gr_ops ++ [OpGrpWrite 5 0 [9; 8; 7; 6; 5; 4; 3; 2; 1; 11]])). split; [vm_compute; reflexivity|].
  eexists; (split; [vm_compute; reflexivity|]; split; vm_compute; reflexivity).
Qed.
(** With 16 groups, of which one is deleted, the second group added after that gets the id of a group that exists, and takes its place. *)
Definition id_ops := demo_ops ++ repeat (OpGrpAdd 5 [h13]) 16 ++ [OpGrpDel 5 0; OpGrpAdd 5 [h13]].
Theorem C35_refuted : exists E s s', reachable E s /\ has_group s 5 15 [h13] /\ step E s (OpGrpAdd 5 [h15]) = Done s' /\
  answered s s' (OResp 5 MSG_GRP_ADD (le_bytes 4 15)) /\ has_group s' 5 15 [h15].
Proof.
  exists env0, (after_ops env0 id_ops), (after_ops env0 (id_ops ++ [OpGrpAdd 5 [h15]])). split; [apply after_reachable; vm_compute; reflexivity|].
  split; [eexists; split; vm_compute; reflexivity|]. split; [vm_compute; reflexivity|]. split; [exists []; split; [vm_compute; reflexivity | constructor]|].
  eexists; split; vm_compute; reflexivity.
Qed.
Definition gmod : module := Eval vm_compute in match find_mod gr_state 5 with Some m => m | None => mk_mod 0 [] 0 0 0 [] 0 end.
Example C35_ex : exists s', In gmod (s_mods gr_state) /\ m_fd gmod = 5 /\ covered gmod /\ denotes gmod 0 [h13; h15] /\
  Forall (fun o => spares_groups o 5) [OpGrpAdd 5 [h15]; OpGrpAdd 6 [h15]; OpGrpDel 6 0; OpDisconnect 6] /\
  exec env0 gr_state [OpGrpAdd 5 [h15]; OpGrpAdd 6 [h15]; OpGrpDel 6 0; OpDisconnect 6] = Done s' /\ has_group s' 5 0 [h13; h15] /\ has_group s' 5 1 [h15].
Proof.
  exists (after_ops env0 (gr_ops ++ [OpGrpAdd 5 [h15]; OpGrpAdd 6 [h15]; OpGrpDel 6 0; OpDisconnect 6])).
  split. { assert (F : find_mod gr_state 5 = Some gmod) by (vm_compute; reflexivity). exact (proj1 (find_some (fun m => m_fd m =? 5) (s_mods gr_state) F)). }
  split; [reflexivity|].
  split. { split; [vm_compute; intuition discriminate|]. intros i hs Q. apply znth_range in Q. exact (proj2 Q). }
  split; [reflexivity|]. split; [constructor; [|constructor; [|constructor; [|constructor; [|constructor]]]]; cbn; first [exact Logic.I | discriminate]|]. split; [vm_compute; reflexivity|].
  split; eexists; split; vm_compute; reflexivity.
Qed.
