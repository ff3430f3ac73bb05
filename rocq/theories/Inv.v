(** * Inv: the global invariant of the server *)
From Verif Require Import Base Const Types State Events Atomic Server Lib SearchProofs Shape.

(** ** The type registry only grows, sizes never change *)
Lemma zlen_app_le {A} (a b : list A) : zlen a <= zlen (a ++ b).
Proof. rewrite zlen_app. pose proof (zlen_nonneg b). lia. Qed.
Lemma checktype_app ts e t : checktype ts t = true -> checktype (ts ++ e) t = true.
Proof.
  unfold checktype. intros H. apply orb_true_iff in H as [H|H]; [rewrite H; reflexivity|].
  apply orb_true_iff; right. apply andb_true_iff in H as [H1 H2]. rewrite H1. pose proof (zlen_app_le ts e). lia.
Qed.
Lemma members_bits_mono f g ms pos p :
  (forall m n, In m ms -> f (cm_type m) = Done n -> 0 < n -> g (cm_type m) = Done n) ->
  members_bits f ms pos = Done p -> members_bits g ms pos = Done p.
Proof.
  revert pos; induction ms as [|m ms IH]; intros pos Hf H; cbn [members_bits] in *; [exact H|].
  destruct (cm_type m =? T_BOOL); [apply IH; [intros; apply Hf; [right|..]; assumption | exact H]|].
  destruct (is_custom (cm_type m)); [|apply IH; [intros; apply Hf; [right|..]; assumption | exact H]].
  apply rbind_done in H as [n [H1 H2]]. destruct (0 <? n) eqn:P; [|discriminate].
  rewrite (Hf m n (or_introl eq_refl) H1 ltac:(lia)). cbn [rbind]. rewrite P.
  apply IH; [intros; apply Hf; [right|..]; assumption | exact H2].
Qed.
Lemma type_size_f_mono ts e : forall k j t n, (k <= j)%nat -> checktype ts t = true ->
  type_size_f k ts t = Done n -> type_size_f j (ts ++ e) t = Done n.
Proof.
  induction k as [|k IH]; intros j t n Hj Hc H; [discriminate|]. destruct j as [|j]; [lia|].
  cbn [type_size_f] in *. rewrite Hc in H. rewrite (checktype_app _ _ _ Hc). cbn [negb] in *.
  destruct (is_custom t); [|exact H].
  destruct (znth ts (cdt_index t)) as [c|] eqn:Z; [|discriminate].
  rewrite znth_app1 by (apply znth_range in Z; lia). rewrite Z.
  apply rbind_done in H as [p [H1 H2]].
  erewrite members_bits_mono; [exact H2 | | exact H1].
  intros m x _ Hx Px. destruct (checktype ts (cm_type m)) eqn:C.
  - eapply IH; [lia | exact C | exact Hx].
  - destruct k; [discriminate|]. cbn [type_size_f] in Hx. rewrite C in Hx. cbn in Hx. injection Hx as <-.
    unfold E_NOTFOUND in Px. lia.
Qed.
Lemma type_size_app ts e t n : checktype ts t = true -> type_size ts t = Done n -> type_size (ts ++ e) t = Done n.
Proof. unfold type_size. intros Hc. apply type_size_f_mono; [rewrite app_length; lia | exact Hc]. Qed.
Lemma new_size_app ts e t c n : checktype ts t = true -> new_size ts t c = Done n -> new_size (ts ++ e) t c = Done n.
Proof.
  intros Hc. unfold new_size. destruct (t =? T_BOOL); [auto|].
  intros H. apply rbind_done in H as [z [H1 H2]]. rewrite (type_size_app _ _ _ _ Hc H1). exact H2.
Qed.
Lemma cdt_create_grows ts s ts' ty e : cdt_create ts s = Done (ts', ty, e) -> exists x, ts' = ts ++ x.
Proof.
  unfold cdt_create. intros H. inv_all; try (exists []; rewrite app_nil_r; reflexivity). eexists; reflexivity.
Qed.

(** ** The invariant *)
Definition dead_attr (a : Z) : Prop :=
  has a A_READONLY = false /\ has a A_VIRTUAL = false /\ has a A_RETAIN = false /\
  has a A_SPECIAL = false /\ has a A_OWNED = false.
Record inv_tag (ts : list cdt) (t : tag) : Prop := mk_itag {
  it_live : t_name t = None <-> t_data t = DNull;
  it_dead : t_data t = DNull -> dead_attr (t_attr t);
  it_bytes : forall b, t_data t = DBytes b -> new_size ts (t_type t) (t_count t) = Done (zlen b);
  it_size : exists n, new_size ts (t_type t) (t_count t) = Done n;
  it_type : checktype ts (t_type t) = true;
  it_count : 0 < t_count t < 4294967296;
  it_name : forall n, t_name t = Some n -> validate_name n = 0 }.
Definition live (t : tag) : bool := negb (is_none (t_name t)).
Definition live_count (db : list tag) : Z := zlen (filter live db).
Record Inv (s : server) : Prop := mk_inv {
  iv_sorted : sorted (s_index s);
  iv_index : forall n i, In (n, i) (s_index s) <-> exists t, znth (s_db s) i = Some t /\ t_name t = Some n;
  iv_count : s_tagcount s = live_count (s_db s);
  iv_tags : forall i t, znth (s_db s) i = Some t -> inv_tag (s_types s) t }.

(** what keeps the invariant without further ado *)
Record wtag (t t' : tag) : Prop := mk_wtag {
  wt_type : t_type t' = t_type t;
  wt_count : t_count t' = t_count t;
  wt_name : t_name t' = t_name t;
  wt_data : data_shape (t_data t) (t_data t');
  wt_dead : t_data t = DNull -> dead_attr (t_attr t) -> dead_attr (t_attr t') }.
Record wshape (s s' : server) : Prop := mk_wshape {
  w_index : s_index s' = s_index s;
  w_tagcount : s_tagcount s' = s_tagcount s;
  w_types : exists x, s_types s' = s_types s ++ x;
  w_len : zlen (s_db s') = zlen (s_db s);
  w_tags : forall i t, znth (s_db s) i = Some t -> exists t', znth (s_db s') i = Some t' /\ wtag t t' }.
Lemma core_dead a a' : core_attr a a' -> dead_attr a -> dead_attr a'.
Proof. unfold core_attr, dead_attr. intuition congruence. Qed.
Lemma shape_wtag t t' : tag_shape t t' -> wtag t t'.
Proof. intros []; constructor; auto. intros _. apply core_dead; assumption. Qed.
Lemma wtag_refl t : wtag t t.
Proof. apply shape_wtag, tag_shape_refl. Qed.
Lemma shape_wshape s s' : shape s s' -> wshape s s'.
Proof.
  intros []; constructor; auto; [exists []; rewrite app_nil_r; assumption|].
  intros i t H. destruct (sh_tags _ _ H) as [t' [H1 H2]]. exists t'; split; [assumption | apply shape_wtag; assumption].
Qed.
Lemma wshape_set_tag s i t t' : znth (s_db s) i = Some t -> wtag t t' -> wshape s (set_tag s i t').
Proof.
  intros H HT. constructor; try reflexivity; cbn.
  - exists []; rewrite app_nil_r; reflexivity.
  - apply zset_zlen.
  - intros j u Hj. rewrite znth_zset. destruct ((i =? j) && (0 <=? i) && (i <? zlen (s_db s))) eqn:E.
    + assert (j = i) by lia. subst j. rewrite H in Hj. injection Hj as <-. eauto.
    + exists u. split; [assumption | apply wtag_refl].
Qed.
Lemma wshape_same s s' : s_db s' = s_db s -> s_index s' = s_index s -> s_tagcount s' = s_tagcount s ->
  (exists x, s_types s' = s_types s ++ x) -> wshape s s'.
Proof.
  intros H1 H2 H3 H4. constructor; auto; rewrite H1; [reflexivity|].
  intros i t H; exists t; split; [assumption | apply wtag_refl].
Qed.

Lemma map_names_eq s s' : wshape s s' -> map t_name (s_db s') = map t_name (s_db s).
Proof.
  intros []. apply znth_ext. intros i Hi. rewrite !znth_map.
  destruct (znth (s_db s) i) as [t|] eqn:E.
  - destruct (w_tags0 _ _ E) as [t' [E' W]]. rewrite E'. cbn. rewrite (wt_name _ _ W). reflexivity.
  - apply znth_none in E. rewrite (proj2 (znth_none (s_db s') i)) by (rewrite w_len0; exact E). reflexivity.
Qed.
Lemma live_count_names db db' : map t_name db' = map t_name db -> live_count db' = live_count db.
Proof.
  revert db'; induction db as [|t db IH]; intros [|t' db'] H; cbn in H; try discriminate; [reflexivity|].
  injection H as H1 H2. apply IH in H2. unfold live_count in *. cbn [filter].
  assert (L : live t' = live t) by (unfold live; rewrite H1; reflexivity). rewrite L.
  destruct (live t); rewrite ?zlen_cons; lia.
Qed.
Lemma inv_tag_wtag ts x t t' : inv_tag ts t -> wtag t t' -> inv_tag (ts ++ x) t'.
Proof.
  intros [] []. constructor.
  - rewrite wt_name0. rewrite it_live0. destruct (t_data t), (t_data t'); cbn in *; intuition congruence.
  - intros H. assert (D : t_data t = DNull) by (rewrite H in wt_data0; destruct (t_data t); cbn in wt_data0; tauto).
    auto.
  - intros b H. rewrite wt_type0, wt_count0. apply new_size_app; [assumption|].
    rewrite H in wt_data0. destruct (t_data t) eqn:D; cbn in wt_data0; try tauto.
    rewrite (it_bytes0 _ eq_refl). unfold zlen. rewrite wt_data0. reflexivity.
  - rewrite wt_type0, wt_count0. destruct it_size0 as [n Hn]. exists n. apply new_size_app; assumption.
  - rewrite wt_type0. apply checktype_app; assumption.
  - lia.
  - rewrite wt_name0; assumption.
Qed.
Lemma znth_wshape_back s s' i t' : wshape s s' -> znth (s_db s') i = Some t' ->
  exists t, znth (s_db s) i = Some t /\ wtag t t'.
Proof.
  intros W H. assert (R := znth_range _ _ _ H). rewrite (w_len _ _ W) in R.
  destruct (znth_some _ _ R) as [t E]. destruct (w_tags _ _ W _ _ E) as [u [E' T]].
  exists t. split; [assumption|]. congruence.
Qed.
Lemma Inv_wshape s s' : Inv s -> wshape s s' -> Inv s'.
Proof.
  intros I W. destruct I. constructor.
  - rewrite (w_index _ _ W). assumption.
  - intros n i. rewrite (w_index _ _ W). rewrite iv_index0. split; intros [t [H1 H2]].
    + destruct (w_tags _ _ W _ _ H1) as [t' [E T]]. exists t'. rewrite (wt_name _ _ T). auto.
    + destruct (znth_wshape_back _ _ _ _ W H1) as [u [E T]]. exists u. rewrite <- (wt_name _ _ T). auto.
  - rewrite (w_tagcount _ _ W), iv_count0. symmetry. apply live_count_names. apply map_names_eq; assumption.
  - intros i t' H. destruct (znth_wshape_back _ _ _ _ W H) as [t [E T]].
    destruct (w_types _ _ W) as [x ->]. eapply inv_tag_wtag; [eapply iv_tags0; exact E | exact T].
Qed.
Lemma Inv_shape s s' : Inv s -> shape s s' -> Inv s'.
Proof. intros I W. eapply Inv_wshape; [exact I | apply shape_wshape; exact W]. Qed.

(** ** set_attribute *)
Lemma dead_not_named ts t n : inv_tag ts t -> t_name t = Some n -> t_data t <> DNull.
Proof. intros [] H D. apply it_live0 in D. congruence. Qed.
Lemma set_attribute_spec E idx attr s s' u : set_attribute E idx attr s = Done (s', u) ->
  exists t r f x, znth (s_db s) idx = Some t /\
    (f = 0 \/ f = A_RETAIN \/ f = A_OWNED + A_READONLY \/ f = A_OWNED) /\
    s' = set_ret (set_tag s idx (set_attr (set_retid t r) (Z.lor (t_attr t) f))) x.
Proof.
  unfold set_attribute. intros H. inv_all.
  - exists t, (snd v), A_RETAIN, (fst v). split; [first [assumption | reflexivity]|]. split; [tauto | reflexivity].
  - exists t, (t_retid t), (A_OWNED + A_READONLY), (s_ret s). split; [first [assumption | reflexivity]|]. split; [tauto|].
    destruct s, t; reflexivity.
  - exists t, (t_retid t), A_OWNED, (s_ret s). split; [first [assumption | reflexivity]|]. split; [tauto|].
    destruct s, t; reflexivity.
  - exists t, (t_retid t), 0, (s_ret s'). split; [first [assumption | reflexivity]|]. split; [tauto|].
    rewrite Z.lor_0_r.
    replace (set_attr (set_retid t (t_retid t)) (t_attr t)) with t by (destruct t; reflexivity).
    unfold set_tag. rewrite zset_same by assumption. destruct s'; reflexivity.
Qed.
Lemma set_attribute_wshape E idx attr s s' u t n : Inv s -> znth (s_db s) idx = Some t -> t_name t = Some n ->
  set_attribute E idx attr s = Done (s', u) -> wshape s s'.
Proof.
  intros I Ht Hn H. destruct (set_attribute_spec _ _ _ _ _ _ H) as (t0 & r & f & x & H1 & H2 & H3).
  assert (t0 = t) by congruence. subst t0 s'.
  assert (W : wshape s (set_tag s idx (set_attr (set_retid t r) (Z.lor (t_attr t) f)))).
  { eapply wshape_set_tag; [exact Ht|]. constructor; cbn; auto using data_shape_refl.
    intros D. exfalso. eapply dead_not_named; [eapply iv_tags; eassumption | exact Hn | exact D]. }
  destruct W. constructor; assumption.
Qed.

(** ** Adding a tag *)
Lemma live_count_app a b : live_count (a ++ b) = live_count a + live_count b.
Proof. unfold live_count. rewrite filter_app, zlen_app. reflexivity. Qed.
Lemma In_mid {A} (x y : A) l r : In x (l ++ y :: r) <-> x = y \/ In x (l ++ r).
Proof. rewrite !in_app_iff. cbn. intuition. Qed.
Lemma Inv_push s t nm ix : Inv s -> inv_tag (s_types s) t -> t_name t = Some nm ->
  (forall i, ~ In (nm, i) (s_index s)) -> add_index (s_index s) nm (zlen (s_db s)) = Done ix ->
  Inv (set_tagcount (set_index (set_db s (s_db s ++ [t])) ix) (s_tagcount s + 1)).
Proof.
  intros I T N Hno Hix. destruct I.
  destruct (add_index_ok _ nm (zlen (s_db s)) iv_sorted0 Hno) as (l & r & E1 & E2 & E3).
  rewrite E2 in Hix. injection Hix as <-.
  constructor; cbn.
  - exact E3.
  - intros n i. rewrite In_mid, <- E1, iv_index0. split.
    + intros [H|[u [H1 H2]]].
      * injection H as -> ->. exists t. rewrite znth_last. auto.
      * exists u. rewrite znth_app1 by (apply znth_range in H1; lia). auto.
    + intros [u [H1 H2]]. destruct (Z_lt_le_dec i (zlen (s_db s))).
      * right. rewrite znth_app1 in H1 by lia. eauto.
      * left. assert (i = zlen (s_db s)).
        { apply znth_range in H1. rewrite zlen_app in H1. unfold zlen at 2 in H1. cbn in H1. lia. }
        subst i. rewrite znth_last in H1. congruence.
  - rewrite live_count_app, iv_count0.
    assert (L : live_count [t] = 1) by (unfold live_count; cbn [filter]; unfold live; rewrite N; reflexivity). lia.
  - intros i u H. destruct (Z_lt_le_dec i (zlen (s_db s))).
    + rewrite znth_app1 in H by lia. eauto.
    + assert (i = zlen (s_db s)).
      { apply znth_range in H. rewrite zlen_app in H. unfold zlen at 2 in H. cbn in H. lia. }
      subst i. rewrite znth_last in H. injection H as <-. exact T.
Qed.

Lemma zlen_jbytes E st from n : zlen (jbytes E st from n) = Z.max 0 n.
Proof. unfold jbytes, zseq. rewrite !zlen_map. unfold zlen. rewrite seq_length. lia. Qed.
Lemma regrow_data E st d size d' ok : d <> DNull -> 0 <= size -> regrow E st d size = (d', ok) ->
  d' <> DNull /\ (forall b, d' = DBytes b -> zlen b = size).
Proof.
  intros Hd Hs. unfold regrow. destruct (size =? 0) eqn:Z0.
  - intros H. injection H as <- <-. split; congruence.
  - destruct d; try congruence; try (intros H; injection H as <- <-; split; congruence).
    + intros H. injection H as <- <-. split; [congruence|]. intros b0 Hb. injection Hb as <-.
      rewrite zlen_app, zlen_firstn, zlen_jbytes. pose proof (zlen_nonneg b). lia.
    + destruct (size <? 24); intros H; injection H as <- <-; split; congruence.
Qed.
Lemma new_size_nonneg ts ty c n : 0 <= c -> new_size ts ty c = Done n -> 0 <= n.
Proof.
  unfold new_size. intros Hc H. destruct (ty =? T_BOOL).
  - injection H as <-. lia.
  - inv_all. unfold u32. apply Z.mod_pos_bound. lia.
Qed.

(** the outcomes of tag_add *)
Definition new_tag (E : env) (fd idx : Z) (nm : name) (type count size : Z) : tag :=
  mk_tag type (if is_queue type then set_flag (fresh_attr E idx) A_VIRTUAL else fresh_attr E idx) count (Some nm) fd 1 1 []
         (if (idx <? 1024) || en_maps0 E idx then Some [] else None)
         (if is_queue type then DQueue (new_queue (s32 size)) else DBytes (zeros size))
         None None (if idx <? 1024 then 0 else u32 (en_retid E idx)).

Inductive add_result (E : env) (fd : Z) (nm : name) (type count attr : Z) (s : server) : server -> Z -> Prop :=
| ar_refused s' r : r < 0 -> (s' = s \/ exists z, s' = set_dbsize s z) -> add_result E fd nm type count attr s s' r
| ar_same n t s0 s' u :
    (s0 = s \/ exists z, s0 = set_dbsize s z) ->
    znth (s_db s) n = Some t -> t_name t = Some nm -> t_type t = type -> count <= t_count t ->
    negb (has (t_attr t) A_OWNED && negb (t_fd t =? fd)) = true ->
    set_attribute E n attr s0 = Done (s', u) ->
    add_result E fd nm type count attr s s' n
| ar_grow n t s0 d size s1 s' u v :
    (s0 = s \/ exists z, s0 = set_dbsize s z) ->
    znth (s_db s) n = Some t -> t_name t = Some nm -> t_type t = type -> t_count t < count ->
    negb (has (t_attr t) A_OWNED && negb (t_fd t =? fd)) = true ->
    new_size (s_types s) type count = Done size ->
    regrow E (s_step s) (t_data t) size = (d, true) ->
    set_attribute E n attr (set_tag s0 n (set_count (set_data t d) count)) = Done (s1, u) ->
    tag_write E (-1) IX_ADDED 0 (le_bytes 4 n) s1 = Done (s', v) ->
    add_result E fd nm type count attr s s' n
| ar_freed n t s0 d :
    (s0 = s \/ exists z, s0 = set_dbsize s z) ->
    znth (s_db s) n = Some t -> t_name t = Some nm -> t_type t = type -> t_count t < count ->
    regrow E (s_step s) (t_data t) 0 = (d, false) ->
    new_size (s_types s) type count = Done 0 ->
    negb (has (t_attr t) A_OWNED && negb (t_fd t =? fd)) = true ->
    add_result E fd nm type count attr s (set_tag s0 n (set_data t d)) E_ALLOC
| ar_new s0 s1 s3 s4 s' ix size u v w x :
    (s0 = s \/ exists z, s0 = set_dbsize s z) ->
    (forall i t, znth (s_db s) i = Some t -> t_name t <> Some nm) ->
    checktype (s_types s) type = true -> validate_name nm = 0 -> 0 < count ->
    new_size (s_types s) type count = Done size ->
    add_index (s_index s) nm (zlen (s_db s)) = Done ix ->
    sys_write E IX_LASTINDEX (le_bytes 4 (zlen (s_db s))) s0 = Done (s1, u) ->
    sys_write E IX_TAGCOUNT (le_bytes 4 (s_tagcount s + 1))
      (set_tagcount (set_index (set_db s1 (s_db s1 ++ [new_tag E fd (zlen (s_db s)) nm type count size])) ix)
                    (s_tagcount s1 + 1)) = Done (s3, v) ->
    set_attribute E (zlen (s_db s)) attr s3 = Done (s4, w) ->
    tag_write E (-1) IX_ADDED 0 (tag_desc E (s_step s) (zlen (s_db s)) type count (u16 attr) nm) s4 = Done (s', x) ->
    add_result E fd nm type count attr s s' (zlen (s_db s)).

Lemma set_dbsize_db s0 s : (s0 = s \/ exists z, s0 = set_dbsize s z) ->
  s_db s0 = s_db s /\ s_index s0 = s_index s /\ s_types s0 = s_types s /\ s_step s0 = s_step s /\
  s_tagcount s0 = s_tagcount s /\ s_out s0 = s_out s /\ s_mods s0 = s_mods s /\ s_now s0 = s_now s /\ s_ret s0 = s_ret s.
Proof. intros [->|[z ->]]; repeat split. Qed.

Lemma tag_add_cases E fd nm type count attr s s' r : Inv s -> 0 <= count ->
  tag_add E fd nm type count attr s = Done (s', r) -> add_result E fd nm type count attr s s' r.
Proof.
  intros I Hc H. unfold tag_add in H.
  destruct (count =? 0) eqn:C0.
  { inv_all. apply ar_refused; [reflexivity | left; reflexivity]. }
  inv1 H. inv1 H.
  assert (S1 : s0 = s \/ exists z, s0 = set_dbsize s z).
  { destruct (s_dbsize s <=? zlen (s_db s)) eqn:D; [|inv_all; auto].
    unfold put in Hm. injection Hm as <- _. eauto. }
  clear Hm. destruct (set_dbsize_db _ _ S1) as (Edb & Eix & Ety & Est & Etc & Eout & Emod & Enow & Eret).
  inv1 H. rewrite Ety in H.
  destruct (negb (checktype (s_types s) type)) eqn:CT; [inv_all; apply ar_refused; [reflexivity|assumption]|].
  destruct (negb (validate_name nm =? 0)) eqn:VN; [inv_all; apply ar_refused; [reflexivity|assumption]|].
  inv1 H. inv1 H. rename v0 into size, v1 into n.
  rewrite Eix in Hr0.
  apply get_by_name_done in Hr0; [|apply iv_sorted; exact I|].
  2:{ intros a b Hin. apply (iv_index _ I) in Hin as [t [Ht _]]. apply znth_range in Ht. lia. }
  destruct Hr0 as [[Hin Hn]|[-> Hno]].
  - apply (iv_index _ I) in Hin as [t [Ht Hnm]].
    replace (0 <=? n) with true in H by lia. inv1 H.
    rewrite Edb in Ht0. assert (t0 = t) by congruence. subst t0. clear Ht0.
    destruct (has (t_attr t) A_OWNED && negb (t_fd t =? fd)) eqn:OW; [inv_all; apply ar_refused; [reflexivity|assumption]|].
    destruct (t_type t =? type) eqn:TY; [|inv_all; apply ar_refused; [reflexivity|assumption]].
    destruct (count <=? t_count t) eqn:CC.
    + inv_all. eapply ar_same with (t := t); eauto; try lia. rewrite OW; reflexivity.
    + rewrite Est in H. destruct (regrow E (s_step s) (t_data t) size) as [d ok] eqn:RG. destruct ok.
      * inv1 H. inv1 H. inv1 H. inv_all.
        eapply ar_grow with (t := t) (s0 := s0) (size := size) (d := d); eauto; try lia. rewrite OW; reflexivity.
      * inv_all.
        assert (size = 0).
        { revert RG. clear. unfold regrow. destruct (Z.eqb_spec size 0); [auto|]. destruct (t_data t); try congruence.
          destruct (size <? 24); congruence. }
        subst size. eapply ar_freed; eauto; try lia. rewrite OW; reflexivity.
  - replace (0 <=? E_NOTFOUND) with false in H by reflexivity.
    rewrite Edb, Eix in H. inv1 H. inv1 H. inv1 H. inv1 H.
    assert (Sh := sys_write_shape _ _ _ _ _ _ Hm).
    inv1 H. inv1 H. cbn [s_tagcount set_tagcount] in Hm0. rewrite Est in H. inv_all.
    eapply ar_new with (s0 := s0) (size := size); eauto.
    + intros i t Hz Hn. apply (Hno i). apply (iv_index _ I). eauto.
    + destruct (checktype (s_types s) type); [reflexivity | discriminate].
    + lia.
    + lia.
    + rewrite (sh_count _ _ Sh), Etc in Hm0. rewrite (sh_count _ _ Sh), Etc. exact Hm0.
Qed.

Lemma Inv_db s0 s : (s0 = s \/ exists z, s0 = set_dbsize s z) -> Inv s -> Inv s0.
Proof.
  intros S1 I. destruct (set_dbsize_db _ _ S1) as (Edb & Eix & Ety & Est & Etc & _).
  destruct I. constructor; rewrite ?Edb, ?Eix, ?Ety, ?Etc; assumption.
Qed.
(** replacing one tag by one with the same name and type *)
Lemma Inv_replace s i t t' : Inv s -> znth (s_db s) i = Some t -> t_name t' = t_name t -> inv_tag (s_types s) t' ->
  Inv (set_tag s i t').
Proof.
  intros I Ht Hn T. assert (R := znth_range _ _ _ Ht). destruct I. constructor; cbn.
  - assumption.
  - intros n j. rewrite iv_index0. split; intros [u [H1 H2]].
    + destruct (Z.eq_dec i j) as [<-|Hne].
      * exists t'. rewrite znth_zset_eq by lia. split; [reflexivity | congruence].
      * exists u. rewrite znth_zset_ne by assumption. auto.
    + destruct (Z.eq_dec i j) as [<-|Hne].
      * exists t. rewrite znth_zset_eq in H1 by lia. injection H1 as <-. split; [assumption | congruence].
      * exists u. rewrite znth_zset_ne in H1 by assumption. auto.
  - rewrite iv_count0. symmetry. apply live_count_names. apply znth_ext. intros j _. rewrite !znth_map, znth_zset.
    destruct ((i =? j) && (0 <=? i) && (i <? zlen (s_db s))) eqn:E; [|reflexivity].
    assert (j = i) by lia. subst j. rewrite Ht. cbn. congruence.
  - intros j u. rewrite znth_zset.
    destruct ((i =? j) && (0 <=? i) && (i <? zlen (s_db s))) eqn:E; [|apply iv_tags0].
    intros H. injection H as <-. exact T.
Qed.

(** fresh_attr of a new tag is arbitrary, but the tag is live *)
Lemma inv_new_tag E s fd nm type count size :
  checktype (s_types s) type = true -> validate_name nm = 0 -> 0 < count < 4294967296 ->
  new_size (s_types s) type count = Done size ->
  inv_tag (s_types s) (new_tag E fd (zlen (s_db s)) nm type count size).
Proof.
  intros H1 H2 H3 H4. unfold new_tag. generalize (is_queue type) as q. intros q. constructor; cbn.
  - destruct q; split; discriminate.
  - destruct q; discriminate.
  - destruct q; [discriminate|]. intros b H; injection H as <-.
    rewrite zlen_zeros by (eapply new_size_nonneg; [|exact H4]; lia). exact H4.
  - eauto.
  - exact H1.
  - exact H3.
  - intros n H; injection H as <-; exact H2.
Qed.

Lemma shape_tag s s' i t : shape s s' -> znth (s_db s) i = Some t -> exists t', znth (s_db s') i = Some t' /\ tag_shape t t'.
Proof. intros S; apply (sh_tags _ _ S). Qed.

Lemma Inv_grow E s n t d count nm size : Inv s -> znth (s_db s) n = Some t -> t_name t = Some nm ->
  t_count t < count < 4294967296 ->
  new_size (s_types s) (t_type t) count = Done size -> (exists ok, regrow E (s_step s) (t_data t) size = (d, ok)) ->
  Inv (set_tag s n (set_count (set_data t d) count)).
Proof.
  intros I Ht Hn Hc Hs [ok Hr]. assert (T := iv_tags _ I _ _ Ht).
  assert (D : t_data t <> DNull) by (eapply dead_not_named; eassumption).
  pose proof (it_count _ _ T) as Hp.
  destruct (regrow_data _ _ _ _ _ _ D ltac:(eapply new_size_nonneg; [|exact Hs]; lia) Hr) as [D1 D2].
  eapply Inv_replace; [exact I | exact Ht | reflexivity |]. constructor; cbn.
  - rewrite Hn. split; [discriminate | contradiction].
  - contradiction.
  - intros b Hb. rewrite Hs, (D2 _ Hb). reflexivity.
  - eauto.
  - apply (it_type _ _ T).
  - lia.
  - apply (it_name _ _ T).
Qed.

Lemma tag_add_Inv E fd nm type count attr s s' r : Inv s -> 0 <= count < 4294967296 ->
  tag_add E fd nm type count attr s = Done (s', r) -> Inv s'.
Proof.
  intros I Hc H. apply tag_add_cases in H; [|exact I | lia].
  destruct H as [s' r Hr S1 | n t s0 s' u S1 Ht Hn Hty Hct How Hsa
    | n t s0 d size s1 s' u v S1 Ht Hn Hty Hct How Hns Hrg Hsa Htw
    | n t s0 d S1 Ht Hn Hty Hct Hrg Hns
    | s0 s1 s3 s4 s' ix size u v w x S1 Hno Hck Hvn Hcp Hns Hix Hw1 Hw2 Hsa Hw3].
  - eapply Inv_db; eassumption.
  - assert (I0 := Inv_db _ _ S1 I). destruct (set_dbsize_db _ _ S1) as (Edb & _).
    eapply Inv_wshape; [exact I0|]. eapply set_attribute_wshape; [exact I0 | rewrite Edb; exact Ht | exact Hn | exact Hsa].
  - assert (I0 := Inv_db _ _ S1 I). destruct (set_dbsize_db _ _ S1) as (Edb & Eix & Ety & Est & _).
    rewrite <- Edb in Ht. subst type. rewrite <- Ety in Hns. rewrite <- Est in Hrg.
    assert (I1 : Inv (set_tag s0 n (set_count (set_data t d) count))).
    { eapply Inv_grow; eauto; lia. }
    assert (W := set_attribute_wshape _ _ _ _ _ _ (set_count (set_data t d) count) nm I1
                   ltac:(cbn; apply znth_zset_eq; eapply znth_range; exact Ht) Hn Hsa).
    eapply Inv_shape; [eapply Inv_wshape; [exact I1 | exact W]|]. eapply tag_write_shape; exact Htw.
  - assert (I0 := Inv_db _ _ S1 I). destruct (set_dbsize_db _ _ S1) as (Edb & Eix & Ety & Est & _).
    rewrite <- Edb in Ht. unfold regrow in Hrg; cbn in Hrg. injection Hrg as <-.
    assert (T := iv_tags _ I0 _ _ Ht).
    eapply Inv_replace; [exact I0 | exact Ht | reflexivity |]. destruct T. constructor; cbn; try assumption; try discriminate.
    rewrite Hn; split; discriminate.
  - assert (I0 := Inv_db _ _ S1 I). destruct (set_dbsize_db _ _ S1) as (Edb & Eix & Ety & Est & Etc & _).
    assert (Sh1 := sys_write_shape _ _ _ _ _ _ Hw1).
    assert (I1 := Inv_shape _ _ I0 Sh1).
    set (s2 := set_tagcount _ _) in *.
    assert (I2 : Inv s2).
    { unfold s2. eapply Inv_push with (nm := nm); try exact I1.
      - rewrite (sh_types _ _ Sh1), Ety.
        pose proof (inv_new_tag E s fd nm type count size) as Q. apply Q; auto. lia.
      - reflexivity.
      - intros i Hin. rewrite (sh_index _ _ Sh1), Eix in Hin. apply (iv_index _ I) in Hin as [t [Ht Hn]].
        eapply Hno; eassumption.
      - rewrite (sh_index _ _ Sh1), Eix, (sh_len _ _ Sh1), Edb. exact Hix. }
    assert (Sh2 := sys_write_shape _ _ _ _ _ _ Hw2).
    assert (I3 := Inv_shape _ _ I2 Sh2).
    assert (Z2 : znth (s_db s2) (zlen (s_db s)) = Some (new_tag E fd (zlen (s_db s)) nm type count size)).
    { unfold s2. cbn. rewrite <- Edb. rewrite <- (sh_len _ _ Sh1). apply znth_last. }
    destruct (shape_tag _ _ _ _ Sh2 Z2) as [t3 [Z3 T3]].
    assert (W := set_attribute_wshape _ _ _ _ _ _ t3 nm I3 Z3 ltac:(rewrite (ts_name _ _ T3); reflexivity) Hsa).
    eapply Inv_shape; [eapply Inv_wshape; [exact I3 | exact W]|]. eapply tag_write_shape; exact Hw3.
Qed.

(** ** Deleting a tag *)
Lemma live_count_zset db i t t' : znth db i = Some t ->
  live_count (zset db i t') = live_count db - (if live t then 1 else 0) + (if live t' then 1 else 0).
Proof.
  intros H. destruct (znth_iff db i t) as [Q _]. destruct (Q H) as [Hi He]. clear Q.
  assert (R := znth_range _ _ _ H). unfold zset. replace ((0 <=? i) && (i <? zlen db)) with true by lia.
  unfold upd. destruct (skipn (Z.to_nat i) db) as [|y r] eqn:K.
  - assert (L := skipn_length (Z.to_nat i) db). rewrite K in L. cbn in L. unfold zlen in R. lia.
  - assert (y = t).
    { rewrite <- (firstn_skipn (Z.to_nat i) db), K in He. rewrite nth_error_app2 in He by (rewrite firstn_length; lia).
      rewrite firstn_length in He. unfold zlen in R. replace (_ - _)%nat with O in He by lia. cbn in He. congruence. }
    subst y. rewrite <- (firstn_skipn (Z.to_nat i) db) at 2. rewrite K.
    change (t' :: r) with ([t'] ++ r). change (t :: r) with ([t] ++ r). rewrite !live_count_app.
    assert (forall u, live_count [u] = if live u then 1 else 0).
    { intros u. unfold live_count. cbn [filter]. destruct (live u); reflexivity. }
    rewrite !H0. lia.
Qed.
Lemma Inv_drop s idx t nm ix t' : Inv s -> znth (s_db s) idx = Some t -> t_name t = Some nm ->
  del_index (s_index s) nm = Done ix -> inv_tag (s_types s) t' -> t_name t' = None ->
  Inv (set_tagcount (set_index (set_tag s idx t') ix) (s_tagcount s - 1)).
Proof.
  intros I Ht Hn Hix T Hn'. assert (R := znth_range _ _ _ Ht). destruct I.
  assert (Hin : In (nm, idx) (s_index s)) by (apply iv_index0; eauto).
  destruct (del_index_ok _ _ _ iv_sorted0 Hin) as (l & r & E1 & E2 & E3).
  rewrite E2 in Hix. injection Hix as <-.
  constructor; cbn.
  - exact E3.
  - intros n i. split.
    + intros H. assert (H' : In (n, i) (s_index s)) by (rewrite E1; apply In_mid; right; exact H).
      apply iv_index0 in H' as [u [U1 U2]]. exists u. split; [|exact U2].
      rewrite znth_zset_ne; [exact U1|]. intros <-. assert (u = t) by congruence. subst u.
      assert (n = nm) by congruence. subst n.
      rewrite E1 in iv_sorted0. 
      apply in_app_iff in H as [H|H].
      * apply sorted_app in iv_sorted0 as (_ & _ & Q). specialize (Q _ _ H (or_introl eq_refl)).
        cbn in Q. rewrite strcmp_refl in Q. discriminate.
      * apply sorted_app in iv_sorted0 as (_ & Q & _). apply sorted_cons in Q as [_ Q]. specialize (Q _ H).
        cbn in Q. rewrite strcmp_refl in Q. discriminate.
    + intros [u [U1 U2]]. rewrite znth_zset in U1.
      destruct ((idx =? i) && (0 <=? idx) && (idx <? zlen (s_db s))) eqn:E.
      * injection U1 as <-. congruence.
      * assert (H' : In (n, i) (s_index s)) by (apply iv_index0; eauto).
        rewrite E1 in H'. apply In_mid in H' as [H'|H']; [|exact H']. injection H' as -> ->. lia.
  - rewrite (live_count_zset _ _ t t' Ht), iv_count0. unfold live. rewrite Hn, Hn'. cbn. lia.
  - intros i u. rewrite znth_zset.
    destruct ((idx =? i) && (0 <=? idx) && (idx <? zlen (s_db s))) eqn:E; [|apply iv_tags0].
    intros H. injection H as <-. exact T.
Qed.

Definition dead_tag (t : tag) : tag := set_attr (set_data (set_name t None) DNull) 0.
Inductive del_result (E : env) (idx : Z) (s : server) : server -> Z -> Prop :=
| dr_refused r : r < 0 -> del_result E idx s s r
| dr_done t nm o ix s1 s3 s' t1 v u :
    znth (s_db s) idx = Some t -> t_name t = Some nm -> t_data t <> DNull ->
    del_events (s_mods s) idx (data_block (t_data t)) (t_events t) = Done o ->
    del_index (s_index s) nm = Done ix ->
    s1 = set_index (set_tag (set_out s (s_out s ++ o)) idx (set_maps (set_events t []) (Some []))) ix ->
    tag_write E (-1) IX_DELETED 0 (tag_desc E (s_step s) idx (t_type t) (t_count t) (u16 (t_attr t)) nm) s1 = Done (s3, v) ->
    znth (s_db s3) idx = Some t1 ->
    sys_write E IX_TAGCOUNT (le_bytes 4 (s_tagcount s - 1))
      (set_tagcount (set_tag s3 idx (dead_tag t1)) (s_tagcount s3 - 1)) = Done (s', u) ->
    del_result E idx s s' 0.
Lemma tag_del_cases E idx s s' r : tag_del E idx s = Done (s', r) -> del_result E idx s s' r.
Proof.
  unfold tag_del. intros H. inv1 H.
  destruct (znth (s_db s) idx) as [t|] eqn:Ht; [|inv_all; apply dr_refused; reflexivity].
  destruct (t_data t) eqn:D; [inv_all; apply dr_refused; reflexivity|..];
  (destruct (t_name t) as [nm|] eqn:N; [|discriminate]; destruct (t_maps t) as [mp|] eqn:Mp; [|discriminate];
   inv1 H; inv1 H; inv1 H; inv1 H; inv1 H; inv1 H; inv1 H; inv1 H; inv1 H; inv1 H; inv1 H; inv1 H;
   assert (Sh := tag_write_shape _ _ _ _ _ _ _ _ Hm);
   eapply dr_done; try eassumption; try reflexivity; try (rewrite D; discriminate);
   [rewrite D; exact Hr |]; cbn in Hm0; rewrite (sh_count _ _ Sh) in *; exact Hm0).
Qed.
