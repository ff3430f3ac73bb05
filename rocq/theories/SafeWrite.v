(** * SafeWrite: reads, writes and mappings within the limits of [Safe] *)
From Verif Require Import Base Const Types State Events Atomic Server Lib SearchProofs Shape Inv Reach Spec Frame Effects Out DataFrame WRel ModInv IdInv
  EvLoops TypeFrame TypesProofs Safe SafeLoops SafeInv.

(** ** Sizes *)
Lemma s32_small x : u32 x < 2147483648 -> s32 x = u32 x.
Proof. unfold s32, u32. cbv zeta. intros H. replace (x mod 4294967296 <? 2147483648) with true by lia. reflexivity. Qed.
Lemma tag_size_ok ts t : inv_tag ts t -> (forall n, new_size ts (t_type t) (t_count t) = Done n -> n < 2147483648) ->
  exists n, tag_size ts t = Done n /\ 0 <= n < 2147483648 /\ new_size ts (t_type t) (t_count t) = Done n.
Proof.
  intros I S. destruct (it_size _ _ I) as [n Hn]. assert (C := it_count _ _ I). assert (N : 0 <= n) by (eapply new_size_nonneg; [|exact Hn]; lia). specialize (S _ Hn).
  exists n. split; [|split; [lia | exact Hn]]. unfold tag_size. unfold new_size in Hn. destruct (t_type t =? T_BOOL).
  - injection Hn as Hn. rewrite s32_id by lia. rewrite Hn. reflexivity.
  - apply rbind_done in Hn as (z & H1 & H2). injection H2 as H2. rewrite H1. cbn [rbind]. rewrite s32_small by lia. rewrite H2. reflexivity.
Qed.
Lemma li_tag_size s i t : LI s -> znth (s_db s) i = Some t -> exists n, tag_size (s_types s) t = Done n /\ 0 <= n < 2147483648 /\ forall b, t_data t = DBytes b -> n = zlen b.
Proof.
  intros L H. destruct (tag_size_ok (s_types s) t (li_inv _ L _ _ H) (fun n => li_size _ L _ _ n H)) as (n & A & B & C). exists n. split; [exact A|]. split; [exact B|].
  intros b D. assert (X := it_bytes _ _ (li_inv _ L _ _ H) _ D). congruence.
Qed.
Lemma type_size_bool ts : type_size ts T_BOOL = Done 0.
Proof. reflexivity. Qed.
Lemma li_raw_size s i t : LI s -> znth (s_db s) i = Some t -> exists n, raw_size (s_types s) t = Done n /\ 0 <= n < 2147483648 /\
  forall b, t_data t = DBytes b -> n <= zlen b /\ (t_type t <> T_BOOL -> n = zlen b).
Proof.
  intros L H. destruct (li_tag_size s i t L H) as (n & A & B & C). unfold raw_size. unfold tag_size in A. destruct (t_type t =? T_BOOL) eqn:Q.
  - replace (t_type t) with T_BOOL by lia. rewrite type_size_bool. cbn [rbind]. rewrite Z.mul_0_r. exists 0. split; [reflexivity|]. split; [lia|]. intros b D. assert (Z0 := zlen_nonneg b). lia.
  - apply rbind_done in A as (z & H1 & H2). rewrite H1. cbn [rbind]. rewrite (Z.mul_comm (t_count t)). exists n. split; [congruence|]. split; [exact B|]. intros b D. rewrite (C _ D). lia.
Qed.

(** ** Changing one tag *)
Definition same_maps (s s' : server) : Prop := forall i t t', znth (s_db s) i = Some t -> znth (s_db s') i = Some t' -> t_maps t' = t_maps t.
Lemma same_maps_refl s : same_maps s s.
Proof. intros i t t' H1 H2. congruence. Qed.
Lemma same_maps_trans a b c : wrel a b -> same_maps a b -> same_maps b c -> same_maps a c.
Proof. intros W A B i t t' H1 H2. destruct (wr_tag _ _ W _ _ H1) as (x & H3 & _). rewrite (B _ _ _ H3 H2). exact (A _ _ _ H1 H3). Qed.
Lemma lq_one s s' i t t' : wrel s s' -> znth (s_db s) i = Some t -> s_db s' = zset (s_db s) i t' -> map ekey (t_events t') = map ekey (t_events t) ->
  data_q (t_data t) (t_data t') -> lq s s'.
Proof.
  intros W H D K Q. constructor; [exact W|]. intros j u u' H1 H2. rewrite D, znth_zset in H2. destruct (_ && _) eqn:X.
  - injection H2 as <-. assert (j = i) by lia. subst j. assert (u = t) by congruence. subst u. auto.
  - assert (u' = u) by congruence. subst. split; [reflexivity | apply data_q_refl].
Qed.
Lemma same_maps_one s s' i t t' : znth (s_db s) i = Some t -> s_db s' = zset (s_db s) i t' -> t_maps t' = t_maps t -> same_maps s s'.
Proof. intros H D M j u u' H1 H2. rewrite D, znth_zset in H2. destruct (_ && _) eqn:X; [injection H2 as <-; assert (j = i) by lia; subst j; congruence | congruence]. Qed.
Lemma ev_aligned_stat e e' off : stat e' = stat e -> ev_aligned e off -> ev_aligned e' off.
Proof.
  unfold ev_aligned, stepping, stat, set_test. destruct e, e'; cbn. intros H. injection H as -> -> -> -> -> -> -> -> -> ->. auto.
Qed.
Lemma aligned_wrel s s' i off : wrel s s' -> aligned s i off -> aligned s' i off.
Proof.
  intros W A t' e' Ht He. destruct (wrel_back _ _ _ _ W Ht) as (t & H0 & X). assert (J : In (stat e') (map stat (t_events t))) by (rewrite <- (wg_events _ _ X); apply in_map; exact He).
  apply in_map_iff in J as (e & E & J). eapply ev_aligned_stat; [symmetry; exact E | exact (A _ _ H0 J)].
Qed.
Lemma aligned_0 s i : LI s -> aligned s i 0.
Proof.
  intros L t e H I S R. exfalso. assert (O := li_tag _ L _ _ H). unfold tag_ok in O. destruct (t_data t).
  - destruct O as (_ & K & _). rewrite K in I. destruct I.
  - destruct O as (_ & _ & K & _). rewrite Forall_forall in K. apply K, eo_area in I. lia.
  - destruct O as (_ & _ & K & _). rewrite K in I. destruct I.
  - destruct O as (_ & K & _). rewrite K in I. destruct I.
  - destruct O as (_ & K & _). rewrite K in I. destruct I.
  - destruct O.
Qed.

Lemma zlen_splice' off d b : in_bounds off (zlen d) (zlen b) = true -> zlen (splice off d b) = zlen b.
Proof. intros H. unfold zlen. rewrite splice_length by exact H. reflexivity. Qed.
(** ** Writing *)
Definition wr_ok (s : server) (i off n : Z) : Prop := 0 <= off /\ off + n < 2147483648 /\ aligned s i off.
Lemma wr_ok_wrel s s' i off n : wrel s s' -> wr_ok s i off n -> wr_ok s' i off n.
Proof. intros W (A & B & C). split; [exact A|]. split; [exact B|]. eapply aligned_wrel; eassumption. Qed.
Definition moved (s s' : server) : Prop := lq s s' /\ same_maps s s'.
Lemma moved_refl s : moved s s.
Proof. split; [apply lq_refl | apply same_maps_refl]. Qed.
Lemma moved_trans a b c : moved a b -> moved b c -> moved a c.
Proof. intros [A1 A2] [B1 B2]. split; [eapply lq_trans; eassumption | eapply same_maps_trans; [exact (lq_w _ _ A1) | exact A2 | exact B2]]. Qed.
Lemma moved_same s s' : s_db s' = s_db s -> srest s' = srest s -> moved s s'.
Proof. intros A B. split; [apply lq_same; assumption|]. intros i t t' H1 H2. congruence. Qed.
Lemma moved_LI s s' : moved s s' -> LI s -> LI s'.
Proof. intros [A _] L. eapply LI_lq; eassumption. Qed.
Lemma commit_ok E s i t b b' off n : LI s -> znth (s_db s) i = Some t -> t_data t = DBytes b -> zlen b' = zlen b -> wr_ok s i off n -> 0 <= n ->
  exists s', commit E i t b' off n s = Done (s', tt) /\ moved s s'.
Proof.
  intros L H D Z (A & B & C) N. assert (O := li_tag _ L _ _ H). unfold tag_ok in O. rewrite D in O. destruct O as (V & O1 & O2 & O3 & O4).
  destruct (check_events_ok E (s_mods s) i b' off n (t_events t) (zlen b) O2 (li_own _ L _ _ H) Z O1 A N B (fun e I => C _ _ H I)) as (r & R1 & R2).
  set (t1 := set_events (set_data t (DBytes b')) (fst r)).
  assert (X : exists s', commit E i t b' off n s = Done (s', tt) /\ s_db s' = zset (s_db s) i t1).
  { unfold commit. rewrite R1. cbn [rbind]. fold t1. destruct (has (t_attr t) A_RETAIN); [|eexists; split; reflexivity].
    unfold ret_tag_write. destruct (negb (r_open (s_ret s))); [eexists; split; reflexivity|].
    destruct (li_raw_size s i t L H) as (z & Z1 & Z2 & Z3). change (raw_size (s_types s) t1) with (raw_size (s_types s) t). rewrite Z1. cbn [rbind]. change (t_data t1) with (DBytes b'). cbv match.
    rewrite rd_ok; [eexists; split; reflexivity | lia | lia |]. destruct (Z3 _ D) as [Z4 _]. lia. }
  destruct X as (s' & X1 & X2). exists s'. split; [exact X1|]. split.
  - eapply lq_one; [eapply commit_wrel; eassumption | exact H | exact X2 | exact R2 |]. rewrite D. exact Z.
  - eapply same_maps_one; [exact H | exact X2 | reflexivity].
Qed.
Definition write_fits (s : server) (i off n : Z) : Prop :=
  forall t, znth (s_db s) i = Some t -> if has (t_attr t) A_VIRTUAL then queue_room t n else wr_ok s i off n.
Lemma tag_write_ok E fd i off d s : LI s -> write_fits s i off (zlen d) -> exists s' r, tag_write E fd i off d s = Done (s', r) /\ moved s s'.
Proof.
  intros L F. unfold tag_write. destruct (znth (s_db s) i) as [t|] eqn:H; [|do 2 eexists; split; [reflexivity | apply moved_refl]].
  specialize (F _ H). assert (O := li_tag _ L _ _ H). unfold tag_ok in O. destruct (has (t_attr t) A_VIRTUAL) eqn:V.
  - destruct (t_data t) as [|b|q| | |] eqn:D; try (destruct O as [O _]; congruence); try contradiction; try (do 2 eexists; split; [reflexivity | apply moved_refl]).
    destruct (_ || _); [do 2 eexists; split; [reflexivity | apply moved_refl]|]. destruct O as (Q & O). destruct (F _ D) as [F1 F2].
    destruct (queue_write_ok E (s_step s) q d Q F1 F2) as (q' & Q1 & Q2). rewrite Q1. cbn [rbind]. destruct O as (_ & O1 & O2 & _). rewrite O1. cbn [check_events rbind fst snd].
    do 2 eexists. split; [reflexivity|]. set (t1 := set_events (set_data t (DQueue q')) []). split.
    + apply lq_one with (i := i) (t := t) (t' := t1); [| exact H | reflexivity | rewrite O1; reflexivity | rewrite D; cbn; auto].
      eapply wrel_trans; [apply wrel_set_tag with (t := t) (t' := t1); [exact H|] | apply wrel_same; reflexivity].
      constructor; try reflexivity; [cbn; rewrite O1; reflexivity | apply maps_sub_refl].
    + apply same_maps_one with (i := i) (t := t) (t' := t1); [exact H | reflexivity | reflexivity].
  - destruct F as (F1 & F2 & F3). assert (Zd := zlen_nonneg d). replace (fits32 (off + zlen d)) with true by (unfold fits32; lia). cbn [negb].
    destruct (li_tag_size s i t L H) as (n & N1 & N2 & N3). rewrite N1. cbn [rbind]. destruct (n <? off + zlen d) eqn:Q; [do 2 eexists; split; [reflexivity | apply moved_refl]|].
    destruct (t_data t) as [|b|q| | |] eqn:D; try (destruct O as [O _]; congruence); try (destruct O as (_ & O & _); congruence); try contradiction; [do 2 eexists; split; [reflexivity | apply moved_refl]|].
    cbv zeta. destruct (negb (_ =? 0)); [do 2 eexists; split; [reflexivity | apply moved_refl]|]. assert (Nb := N3 _ eq_refl).
    assert (Ib : in_bounds off (zlen d) (zlen b) = true) by (apply in_bounds_iff; lia). rewrite Ib. cbn [negb].
    destruct (commit_ok E s i t b (splice off d b) off (zlen d) L H D) as (s' & C1 & C2); [apply zlen_splice'; exact Ib | repeat split; auto; lia | lia |].
    rewrite C1. do 2 eexists. split; [reflexivity | exact C2].
Qed.
Lemma tag_mask_write_ok E fd i off d m s : LI s -> (0 <= i < s_dbsize s \/ exists t, znth (s_db s) i = Some t) -> (forall t, znth (s_db s) i = Some t -> has (t_attr t) A_VIRTUAL = false -> wr_ok s i off (zlen d) /\ zlen d <= zlen m) ->
  exists s' r, tag_mask_write E fd i off d m s = Done (s', r) /\ moved s s'.
Proof.
  intros L Hi F. unfold tag_mask_write, attr_at. destruct (znth (s_db s) i) as [t|] eqn:H; cbn [rbind].
  2: { destruct Hi as [Hi|[t Hi]]; [|discriminate]. replace ((0 <=? i) && (i <? s_dbsize s)) with true by lia. cbn [rbind]. destruct (has _ _); do 2 eexists; (split; [reflexivity | apply moved_refl]). }
  destruct (has (t_attr t) A_VIRTUAL) eqn:V; [do 2 eexists; split; [reflexivity | apply moved_refl]|].
  destruct (F _ eq_refl V) as ((F1 & F2 & F3) & F4). assert (O := li_tag _ L _ _ H). unfold tag_ok in O. assert (Zd := zlen_nonneg d).
  replace (fits32 (off + zlen d)) with true by (unfold fits32; lia). cbn [negb].
  destruct (li_tag_size s i t L H) as (n & N1 & N2 & N3). rewrite N1. cbn [rbind]. destruct (n <? off + zlen d) eqn:Q; [do 2 eexists; split; [reflexivity | apply moved_refl]|].
  destruct (t_data t) as [|b|q| | |] eqn:D; try (destruct O as [O _]; congruence); try (destruct O as (_ & O & _); congruence); try contradiction; [do 2 eexists; split; [reflexivity | apply moved_refl]|].
  cbv zeta. destruct (negb (_ =? 0)); [do 2 eexists; split; [reflexivity | apply moved_refl]|]. assert (Nb := N3 _ eq_refl).
  assert (Ib : in_bounds off (zlen d) (zlen b) = true) by (apply in_bounds_iff; lia). rewrite Ib. replace (zlen m <? zlen d) with false by lia. cbn [negb orb].
  assert (Lm : zlen (mix (slice off (zlen d) b) d m) = zlen d).
  { assert (Ls := zlen_slice off (zlen d) b Ib). unfold zlen in *. rewrite mix_length; lia. }
  destruct (commit_ok E s i t b (splice off (mix (slice off (zlen d) b) d m) b) off (zlen d) L H D) as (s' & C1 & C2); [apply zlen_splice'; rewrite Lm; exact Ib | repeat split; auto; lia | lia |].
  rewrite C1. do 2 eexists. split; [reflexivity | exact C2].
Qed.
Lemma sys_write_ok E i d s : LI s -> 0 <= i < 9 -> zlen d < 2147483648 -> exists s', sys_write E i d s = Done (s', tt) /\ moved s s'.
Proof.
  intros L Hi Hd. unfold sys_write. destruct (znth (s_db s) i) as [t|] eqn:H; [|eexists; split; [reflexivity | apply moved_refl]].
  destruct (tag_write_ok E (-1) i 0 d s L) as (s' & r & W1 & W2).
  { intros t' Ht. assert (t' = t) by congruence. subst. destruct (li_sys _ L i Hi) as (x & X1 & X2). assert (x = t) by congruence. subst. rewrite X2. repeat split; [lia | lia | apply aligned_0; exact L]. }
  destruct (t_data t); [eexists; split; [reflexivity | apply moved_refl]|..]; rewrite W1; eexists; (split; [reflexivity | exact W2]).
Qed.
Lemma sys_tag_write_ok E i d s : LI s -> 0 <= i < 9 -> zlen d < 2147483648 -> exists s' r, tag_write E (-1) i 0 d s = Done (s', r) /\ moved s s'.
Proof.
  intros L Hi Hd. apply tag_write_ok; [exact L|]. intros t Ht. destruct (li_sys _ L i Hi) as (x & X1 & X2). assert (x = t) by congruence. subst. rewrite X2.
  repeat split; [lia | lia | apply aligned_0; exact L].
Qed.
(** ** Reading *)
Lemma tag_read_ok E fd i off n cap s : LI s -> 0 <= n -> 0 <= off -> off + n < 2147483648 -> n <= cap ->
  (forall t, znth (s_db s) i = Some t -> t_data t = DTime -> n <= 8) ->
  (forall t, znth (s_db s) i = Some t -> has (t_attr t) A_VIRTUAL = true -> 4080 <= cap) ->
  exists s' r, tag_read E fd i off n cap s = Done (s', r) /\ moved s s'.
Proof.
  intros L N O0 B C F G. unfold tag_read. destruct (znth (s_db s) i) as [t|] eqn:H; [|do 2 eexists; split; [reflexivity | apply moved_refl]].
  assert (O := li_tag _ L _ _ H). unfold tag_ok in O. destruct (has (t_attr t) A_VIRTUAL) eqn:V.
  - specialize (G _ eq_refl V). destruct (t_data t) as [|b|q| | |] eqn:D; try (destruct O as [O _]; congruence); try contradiction.
    + destruct O as (Q & O). destruct (queue_read_ok q Q) as (r & R1 & R2). rewrite R1. cbn [rbind]. destruct r as [[q' d]|]; [|do 2 eexists; split; [reflexivity | apply moved_refl]].
      destruct (R2 _ _ eq_refl) as [R3 R4]. replace (cap <? zlen d) with false by lia. do 2 eexists. split; [reflexivity|]. set (t1 := set_data t (DQueue q')). split.
      * apply lq_one with (i := i) (t := t) (t' := t1); [| exact H | reflexivity | reflexivity | rewrite D; cbn; auto]. apply wrel_set_tag with (t := t); [exact H | apply wtg_data].
      * apply same_maps_one with (i := i) (t := t) (t' := t1); [exact H | reflexivity | reflexivity].
    + specialize (F _ eq_refl D). replace (in_bounds 0 n 8) with true by (symmetry; apply in_bounds_iff; lia). replace (n <=? cap) with true by lia. cbn [andb].
      do 2 eexists. split; [reflexivity | apply moved_refl].
    + destruct (find_mod s fd) as [m|]; [|do 2 eexists; split; [reflexivity | apply moved_refl]]. destruct (m_tagidx m =? 0); [do 2 eexists; split; [reflexivity | apply moved_refl]|].
      destruct (znth (s_db s) (m_tagidx m)) as [mt|] eqn:M; [|do 2 eexists; split; [reflexivity | apply moved_refl]].
      assert (I := li_inv _ L _ _ M). destruct (t_name mt) as [nm|] eqn:Nm.
      * assert (Nl : zlen nm <= 32). { assert (W := it_name _ _ I _ Nm). revert W. unfold validate_name. destruct (TAGNAME_SIZE <? zlen nm) eqn:Q; [discriminate | unfold TAGNAME_SIZE in *; lia]. }
        replace (cap <? Z.max 32 (zlen nm + 1)) with false by lia. destruct (t_data mt); do 2 eexists; (split; [reflexivity | apply moved_refl]).
      * rewrite (proj1 (it_live _ _ I) Nm). do 2 eexists. split; [reflexivity | apply moved_refl].
  - replace (fits32 (off + n)) with true by (unfold fits32; lia). cbn [negb].
    destruct (li_tag_size s i t L H) as (z & N1 & N2 & N3). rewrite N1. cbn [rbind]. destruct (z <? off + n) eqn:Q; [do 2 eexists; split; [reflexivity | apply moved_refl]|].
    destruct (t_data t) as [|b|q| | |] eqn:D; try (destruct O as [O _]; congruence); try (destruct O as (_ & O & _); congruence); try contradiction; [do 2 eexists; split; [reflexivity | apply moved_refl]|].
    assert (Nb := N3 _ eq_refl). replace (in_bounds off n (zlen b)) with true by (symmetry; apply in_bounds_iff; lia). replace (cap <? n) with false by lia. cbn [negb orb].
    destruct (has (t_attr t) A_OVR_SET) eqn:W; [|do 2 eexists; split; [reflexivity | apply moved_refl]].
    destruct O as (_ & _ & _ & _ & O & _). unfold ovr_ok in O. destruct (t_odata t) as [od|], (t_omask t) as [om|]; try contradiction; try congruence.
    destruct O as (O1 & O2 & O3). rewrite !rd_ok by lia. cbn [rbind]. do 2 eexists. split; [reflexivity | apply moved_refl].
Qed.

(** ** Running forwards *)
Lemma run_bind {S A B} (m : M S A) (k : A -> M S B) s s1 a : m s = Done (s1, a) -> bind m k s = k a s1.
Proof. intros H. unfold bind. rewrite H. reflexivity. Qed.
Lemma run_lift {S A B} (r : run A) (k : A -> M S B) s a : r = Done a -> bind (lift r) k s = k a s.
Proof. intros ->. reflexivity. Qed.
Lemma run_tag_at {B} i (k : tag -> SM B) s t : znth (s_db s) i = Some t -> bind (tag_at i) k s = k t s.
Proof. intros H. unfold bind, tag_at. rewrite H. reflexivity. Qed.

(** ** Mappings *)
Lemma after_suffix {A} (p : A -> bool) pre (m : A) r x rest : p m = true -> Server.after p (pre ++ m :: r) = x -> x = Some rest -> exists pre', rest = pre' ++ r.
Proof.
  intros P <-. induction pre as [|y pre IH]; cbn [app Server.after].
  - rewrite P. intros H. injection H as <-. exists []. reflexivity.
  - destruct (p y); [intros H; injection H as <-; exists (pre ++ [m]); rewrite <- app_assoc; reflexivity | exact IH].
Qed.
Lemma after_found {A} (p : A -> bool) pre (m : A) r : p m = true -> exists rest, Server.after p (pre ++ m :: r) = Some rest.
Proof. intros P. induction pre as [|y pre IH]; cbn [app Server.after]; [rewrite P; eauto|]. destruct (p y); eauto. Qed.
Lemma map_del_ok i id s t pre m r : znth (s_db s) i = Some t -> t_maps t = Some (pre ++ m :: r) -> m_id m = id ->
  exists s' t' pre', map_del i id s = Done (s', 0) /\ s' = set_tag s i t' /\ t' = set_maps t (Some (pre' ++ r)).
Proof.
  intros H M Id. unfold map_del. rewrite bind_get, H, M. destruct pre as [|x pre]; cbn [app].
  - rewrite Id, Z.eqb_refl, bind_put_tag. do 3 eexists. split; [reflexivity|]. split; [reflexivity|]. instantiate (1 := []). reflexivity.
  - destruct (m_id x =? id).
    + rewrite bind_put_tag. do 3 eexists. split; [reflexivity|]. split; [reflexivity|]. instantiate (1 := pre ++ [m]). rewrite <- app_assoc. reflexivity.
    + assert (P : (fun y => m_id y =? id) m = true) by (cbn; lia). destruct (after_found _ pre m r P) as [rest R]. rewrite R. destruct (after_suffix _ pre m r _ rest P eq_refl R) as [pre' ->].
      rewrite bind_put_tag. do 3 eexists. split; [reflexivity|]. split; [reflexivity|]. instantiate (1 := x :: pre'). reflexivity.
Qed.
Lemma lq_maps s i t l' : znth (s_db s) i = Some t -> maps_sub (t_maps t) (Some l') -> lq s (set_tag s i (set_maps t (Some l'))).
Proof.
  intros H M. apply lq_one with (i := i) (t := t) (t' := set_maps t (Some l')); [| exact H | reflexivity | reflexivity | apply data_q_refl].
  apply wrel_set_tag with (t := t); [exact H|]. constructor; try reflexivity. exact M.
Qed.
Definition live (s : server) (i : Z) : Prop := exists t, znth (s_db s) i = Some t /\ t_data t <> DNull.
Lemma special_not_deleted s fd i t off n : special_write s fd i t off n <> E_DELETED.
Proof. unfold special_write. repeat match goal with |- context [if ?c then _ else _] => destruct c | |- context [match ?c with Some _ => _ | None => _ end] => destruct c end; discriminate. Qed.
Lemma write_deleted E fd i off d s s' : tag_write E fd i off d s = Done (s', E_DELETED) -> ~ live s i.
Proof.
  intros H (t & Ht & D). unfold tag_write in H. rewrite Ht in H. destruct (has _ A_VIRTUAL) in H.
  - destruct (t_data t); try discriminate H. destruct (_ || _) in H; [discriminate|]. apply rbind_done in H as (q' & _ & H). apply rbind_done in H as (x & _ & H). discriminate.
  - destruct (negb _) in H; [discriminate|]. apply rbind_done in H as (z & _ & H). destruct (z <? _) in H; [discriminate|]. destruct (t_data t) as [|b|q| | |]; try discriminate H; [congruence|]. cbv zeta in H.
    destruct (has _ A_SPECIAL) in H.
    + destruct (negb (special_write s fd i t off (zlen d) =? 0)) in H; [injection H as _ H; exact (special_not_deleted _ _ _ _ _ _ H)|]. destruct (negb _) in H; [discriminate|]. destruct (commit _ _ _ _ _ _ s) as [[? ?]|]; discriminate.
    + change (negb (0 =? 0)) with false in H. cbv iota in H. destruct (negb _) in H; [discriminate|]. destruct (commit _ _ _ _ _ _ s) as [[? ?]|]; discriminate.
Qed.
Lemma mask_deleted E fd i off d m s s' : tag_mask_write E fd i off d m s = Done (s', E_DELETED) -> ~ live s i.
Proof.
  intros H (t & Ht & D). unfold tag_mask_write in H. apply rbind_done in H as (a & _ & H). destruct (has a A_VIRTUAL) in H; [discriminate|]. rewrite Ht in H.
  destruct (negb _) in H; [discriminate|]. apply rbind_done in H as (z & _ & H). destruct (z <? _) in H; [discriminate|]. destruct (t_data t) as [|b|q| | |]; try discriminate H; [congruence|]. cbv zeta in H.
  destruct (has _ A_SPECIAL) in H.
  + destruct (negb (special_write s fd i t off (zlen d) =? 0)) in H; [injection H as _ H; exact (special_not_deleted _ _ _ _ _ _ H)|]. destruct (_ || _) in H; [discriminate|]. destruct (commit _ _ _ _ _ _ s) as [[? ?]|]; discriminate.
  + change (negb (0 =? 0)) with false in H. cbv iota in H. destruct (_ || _) in H; [discriminate|]. destruct (commit _ _ _ _ _ _ s) as [[? ?]|]; discriminate.
Qed.
Lemma live_lq s s' i : lq s s' -> live s i -> live s' i.
Proof.
  intros Q (t & H & D). destruct (lq_tag _ _ _ _ Q H) as (t' & H' & _ & _ & K). exists t'. split; [exact H'|]. intros D'. rewrite D' in K. destruct (t_data t); cbn in K; congruence.
Qed.
Lemma map_fire_ok E m s i t b pre r : (en_strict E = true -> live s (h_index (m_dst m))) -> LI s -> znth (s_db s) i = Some t -> t_data t = DBytes b -> map_ok s i (zlen b) m ->
  aligned s (h_index (m_dst m)) (h_byte (m_dst m)) -> t_maps t = Some (pre ++ m :: r) ->
  exists s', map_fire E m s = Done (s', tt) /\ lq s s' /\ exists t' pre', znth (s_db s') i = Some t' /\ t_maps t' = Some (pre' ++ r).
Proof.
  intros St L H D [K1 K2 K3 K4 K5] Al Mp. unfold map_fire. rewrite (run_tag_at _ _ _ t) by (rewrite K1; exact H). rewrite D.
  assert (X : exists s1 c, (match m_mask m with
            | Some mask =>
                nd <- lift (shift_bits (Z.to_nat (h_count (m_src m))) 0 (h_bit (m_src m)) 0 (h_bit (m_dst m)) b (h_byte (m_src m)) (zeros (h_size (m_src m)))) ;;
                tag_mask_write E (-1) (h_index (m_dst m)) (s32 (h_byte (m_dst m))) nd mask
            | None =>
                d <- lift (rd b (h_byte (m_src m)) (h_size (m_src m))) ;;
                if (h_index (m_src m) =? h_index (m_dst m)) && areas_overlap (h_byte (m_src m)) (h_size (m_src m)) (h_byte (m_dst m)) (h_size (m_src m))
                then undef UOverlap
                else tag_write E (-1) (h_index (m_dst m)) (s32 (h_byte (m_dst m))) d
            end) s = Done (s1, c) /\ moved s s1).
  { clear St. destruct K3 as (td & T1 & T2). rewrite s32_id by lia. destruct (m_mask m) as [mask|].
    - destruct K5 as (M1 & M2 & M3 & M4 & M5).
      assert (X : exists nd, shift_bits (Z.to_nat (h_count (m_src m))) 0 (h_bit (m_src m)) 0 (h_bit (m_dst m)) b (h_byte (m_src m)) (zeros (h_size (m_src m))) = Done nd /\ zlen nd = zlen (zeros (h_size (m_src m)))).
      { destruct (Z.to_nat (h_count (m_src m))) as [|k] eqn:Q; [eexists; split; reflexivity|]. apply shift_bits_ok; rewrite ?zlen_zeros; lia. }
      destruct X as (nd & N1 & N2).
      rewrite zlen_zeros in N2 by lia. rewrite (run_lift _ _ _ _ N1). apply tag_mask_write_ok; [exact L | right; eauto|]. intros t' _ _. rewrite N2. split; [repeat split; auto; lia | lia].
    - rewrite (run_lift _ _ _ _ (rd_ok b (h_byte (m_src m)) (h_size (m_src m)) ltac:(lia) ltac:(lia) ltac:(lia))).
      destruct (h_index (m_src m) =? h_index (m_dst m)) eqn:Q; [rewrite K5 by lia|]; cbn [andb].
      all: apply tag_write_ok; [exact L|]; intros t' Ht; assert (t' = td) by congruence; subst t'; rewrite T2, zlen_slice' by lia; repeat split; auto; lia. }
  destruct X as (s1 & c & X1 & X2). rewrite (run_bind _ _ _ _ _ X1). destruct X2 as [X2 X3]. destruct (lq_tag _ _ _ _ X2 H) as (t1 & H1 & W1 & _). assert (M1 := X3 _ _ _ H H1). rewrite Mp in M1.
  destruct (c =? E_DELETED) eqn:Cd.
  - destruct (map_del_ok i (m_id m) s1 t1 pre m r H1 M1 eq_refl) as (s2 & t2 & pre' & Y1 & Y2 & Y3). rewrite K1. assert (W2 := map_del_wrel _ _ _ _ _ Y1). rewrite (run_bind _ _ _ _ _ Y1).
    assert (Se : en_strict E = false).
    { destruct (en_strict E); [|reflexivity]. exfalso. assert (c = E_DELETED) by lia. subst c. clear Y1 Y2 Y3 W2. destruct (m_mask m) as [mask|].
      - unfold bind, lift in X1. destruct (shift_bits _ _ _ _ _ _ _ _) in X1; [|discriminate]. exact (mask_deleted _ _ _ _ _ _ _ _ X1 (St eq_refl)).
      - unfold bind, lift in X1. destruct (rd _ _ _) in X1; [|discriminate]. destruct (_ && _) in X1; [discriminate|]. exact (write_deleted _ _ _ _ _ _ _ X1 (St eq_refl)). }
    rewrite Se. exists s2. split; [reflexivity|].
    subst s2. split.
    + eapply lq_trans; [exact X2|]. apply lq_one with (i := i) (t := t1) (t' := t2); [exact W2 | exact H1 | reflexivity | subst t2; reflexivity | subst t2; apply data_q_refl].
    + exists t2, pre'. split; [|subst t2; reflexivity]. cbn. rewrite znth_zset. apply znth_range in H1. replace (_ && _) with true by lia. reflexivity.
  - exists s1. split; [reflexivity|]. split; [exact X2|]. exists t1, (pre ++ [m]). split; [exact H1|]. rewrite <- app_assoc. exact M1.
Qed.
Lemma map_loop_ok E maps off n : forall s i t b pre, (en_strict E = true -> forall m, In m maps -> live s (h_index (m_dst m))) -> LI s -> znth (s_db s) i = Some t -> t_data t = DBytes b ->
  t_maps t = Some (pre ++ maps) -> (forall m, In m maps -> aligned s (h_index (m_dst m)) (h_byte (m_dst m))) ->
  exists s', map_loop E maps off n s = Done (s', tt) /\ lq s s'.
Proof.
  induction maps as [|m maps IH]; intros s i t b pre St L H D Mp Al; cbn [map_loop]; [exists s; split; [reflexivity | apply lq_refl]|].
  assert (O := li_tag _ L _ _ H). unfold tag_ok in O. rewrite D in O. destruct O as (_ & _ & _ & (l & O1 & O2) & _). assert (l = pre ++ m :: maps) by congruence. subst l.
  assert (X : exists s1, (if map_overlap m off n then map_fire E m else ret tt) s = Done (s1, tt) /\ lq s s1 /\ exists t' pre', znth (s_db s1) i = Some t' /\ t_maps t' = Some (pre' ++ maps)).
  { destruct (map_overlap m off n).
    - eapply map_fire_ok; eauto; [intros Q; apply (St Q); left; reflexivity | apply O2; apply in_or_app; right; left; reflexivity | apply Al; left; reflexivity].
    - exists s. split; [reflexivity|]. split; [apply lq_refl|]. exists t, (pre ++ [m]). split; [exact H|]. rewrite <- app_assoc. exact Mp. }
  destruct X as (s1 & X1 & X2 & t1 & pre1 & X3 & X4). rewrite (run_bind _ _ _ _ _ X1). destruct (lq_tag _ _ _ _ X2 H) as (t1' & H1 & W1 & _ & Dq). assert (t1' = t1) by congruence. subst t1'.
  rewrite D in Dq. destruct (t_data t1) as [|b1|q| | |] eqn:D1; try (cbn in Dq; discriminate).
  destruct (IH s1 i t1 b1 pre1 (fun Q m I => live_lq _ _ _ X2 (St Q m (or_intror I))) (LI_lq _ _ L X2) X3 D1 X4) as (s2 & Y1 & Y2); [intros m' I; eapply aligned_wrel; [exact (lq_w _ _ X2) | apply Al; right; exact I]|].
  exists s2. split; [exact Y1 | eapply lq_trans; eassumption].
Qed.
Definition dests_aligned (s : server) (i : Z) : Prop := forall t l m, znth (s_db s) i = Some t -> t_maps t = Some l -> In m l -> aligned s (h_index (m_dst m)) (h_byte (m_dst m)).
Lemma map_check_ok E i off n s t : (en_strict E = true -> dests_live s i) -> LI s -> znth (s_db s) i = Some t -> t_data t <> DNull -> dests_aligned s i ->
  exists s', map_check E i off n s = Done (s', tt) /\ lq s s'.
Proof.
  intros St L H N Al. unfold map_check. rewrite (run_tag_at _ _ _ t) by exact H. assert (O := li_tag _ L _ _ H). unfold tag_ok in O. destruct (t_data t) as [|b|q| | |] eqn:D; [congruence| | | | |contradiction].
  - destruct O as (_ & _ & _ & (l & O1 & O2) & _). rewrite O1. apply map_loop_ok with (i := i) (t := t) (b := b) (pre := []); auto; intros; [eapply St; eassumption|]. eapply Al; eassumption.
  - destruct O as (_ & _ & _ & O & _). rewrite O. cbn [map_loop]. exists s. split; [reflexivity | apply lq_refl].
  - destruct O as (_ & _ & O & _). rewrite O. cbn [map_loop]. exists s. split; [reflexivity | apply lq_refl].
  - destruct O as (_ & _ & O & _). rewrite O. cbn [map_loop]. exists s. split; [reflexivity | apply lq_refl].
Qed.
Lemma tag_write_zero E fd i off d s s' : LI s -> tag_write E fd i off d s = Done (s', 0) -> exists t, znth (s_db s) i = Some t /\ t_data t <> DNull.
Proof.
  intros L H. unfold tag_write in H. destruct (znth (s_db s) i) as [t|] eqn:Ht; [|discriminate]. exists t. split; [reflexivity|]. intros D. rewrite D in H.
  destruct (has _ _); [discriminate|]. destruct (negb _); [discriminate|]. apply rbind_done in H as (z & _ & H). destruct (_ <? _); discriminate.
Qed.
Lemma tag_mask_write_zero E fd i off d m s s' : LI s -> tag_mask_write E fd i off d m s = Done (s', 0) -> exists t, znth (s_db s) i = Some t /\ t_data t <> DNull.
Proof.
  intros L H. unfold tag_mask_write in H. apply rbind_done in H as (a & _ & H). destruct (has a A_VIRTUAL); [discriminate|]. destruct (znth (s_db s) i) as [t|] eqn:Ht; [|discriminate]. exists t. split; [reflexivity|]. intros D. rewrite D in H.
  destruct (negb _); [discriminate|]. apply rbind_done in H as (z & _ & H). destruct (_ <? _); discriminate.
Qed.
Lemma data_q_null d d' : data_q d d' -> d <> DNull -> d' <> DNull.
Proof. destruct d, d'; cbn; congruence. Qed.
Lemma dests_aligned_moved s s' i : moved s s' -> dests_aligned s i -> dests_aligned s' i.
Proof.
  intros [Q M] A t l m H T I. destruct (lq_back _ _ _ _ Q H) as (t0 & H0 & _). rewrite (M _ _ _ H0 H) in T. eapply aligned_wrel; [exact (lq_w _ _ Q) | exact (A _ _ _ H0 T I)].
Qed.
