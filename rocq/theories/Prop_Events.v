(** * Prop_Events: C23 to C28 *)
From Verif Require Import Base Const Types State Events Atomic Server Lib SearchProofs Shape Inv Reach Spec Frame Effects Out DataFrame WRel ModInv IdInv Demo Prop_Tags Prop_Data EvSpec EvLoops EvSync.

Lemma writing_checks E s fd i off n b b' o a s' t : reachable E s -> writing s fd i off n b b' o a ->
  step E s o = Done s' -> answered s s' a -> znth (s_db s) i = Some t ->
  exists evs out rest, check_events E (s_mods s) i b' off n (t_events t) = Done (evs, out) /\
    s_out s' = s_out s ++ out ++ rest /\ in_bounds off n (zlen b) = true /\ off + n <= 2147483647 /\ zlen b' = zlen b /\ (forall k, 0 <= k -> ~ off <= k < off + n -> znth b' k = znth b k) /\
    (no_mapping s i -> rest = [a] /\ exists t', znth (s_db s') i = Some t' /\ t_events t' = evs /\ t_data t' = DBytes b').
Proof.
  intros R W H A Ht. destruct W as [d (t0 & Ht0 & V & D) -> ->|d m (t0 & Ht0 & V & D) -> ->];
    assert (t0 = t) by congruence; subst t0; clear Ht0.
  - apply write_ok in H as (s1 & s2 & H1 & H2 & ->); [|exact A]. apply tag_write_cases in H1. inversion H1; [lia | congruence|]. subst.
    assert (t0 = t) by congruence. subst t0. assert (b0 = b) by congruence. subst b0.
    exists evs, o. match goal with C : check_events _ _ _ _ _ _ _ = _ |- _ => rewrite C end.
    destruct (map_check_evout _ _ _ _ _ _ _ H2) as (ev & P1 & P2).
    exists (ev ++ [OResp fd MSG_TAG_WRITE []]). split; [reflexivity|]. split; [cbn; rewrite P1; cbn; rewrite <- !app_assoc; reflexivity|].
    split; [assumption|]. match goal with F : fits32 _ = true |- _ => split; [unfold fits32 in F; lia|] end. split; [apply zlen_splice; assumption|].
    split; [intros k K1 K2; rewrite znth_splice by assumption; replace ((off <=? k) && (k <? off + zlen d)) with false by lia; reflexivity|]. intros N.
    assert (s2 = committed s i t (splice off d b) evs o r).
    { eapply no_mapping_check; [|exact H2]. intros t1 Q. cbn in Q. rewrite znth_zset_eq in Q by (eapply znth_range; exact Ht). injection Q as <-. cbn. apply N; exact Ht. }
    subst s2. assert (ev = []). { cbn in P1. rewrite <- (app_nil_r (s_out s ++ o)) in P1 at 1. apply app_inv_head in P1. congruence. } subst ev.
    split; [reflexivity|]. eexists. split; [cbn; apply znth_zset_eq; eapply znth_range; exact Ht|]. split; reflexivity.
  - apply mask_ok in H as (s1 & s2 & H1 & H2 & ->); [|exact A]. apply tag_mask_write_cases in H1. inversion H1; [lia|]. subst.
    assert (t0 = t) by congruence. subst t0. assert (b0 = b) by congruence. subst b0.
    exists evs, o. match goal with C : check_events _ _ _ _ _ _ _ = _ |- _ => rewrite C end.
    destruct (map_check_evout _ _ _ _ _ _ _ H2) as (ev & P1 & P2).
    exists (ev ++ [OResp fd MSG_TAG_MWRITE []]). split; [reflexivity|]. split; [cbn; rewrite P1; cbn; rewrite <- !app_assoc; reflexivity|].
    split; [assumption|]. match goal with F : fits32 _ = true |- _ => split; [unfold fits32 in F; lia|] end.
    assert (Lm : zlen (mix (slice off (zlen d) b) d m) = zlen d).
    { match goal with Q : in_bounds off (zlen d) (zlen b) = true |- _ => assert (Zs := zlen_slice _ _ _ Q) end. rewrite zlen_mix; lia. }
    split; [apply zlen_splice; rewrite Lm; assumption|].
    split; [intros k K1 K2; rewrite znth_splice by (rewrite ?Lm; assumption); rewrite Lm; replace ((off <=? k) && (k <? off + zlen d)) with false by lia; reflexivity|]. intros N.
    match type of H2 with map_check _ _ _ _ ?X = _ => assert (s2 = X) end.
    { eapply no_mapping_check; [|exact H2]. intros t1 Q. cbn in Q. rewrite znth_zset_eq in Q by (eapply znth_range; exact Ht). injection Q as <-. cbn. apply N; exact Ht. }
    subst s2. assert (ev = []). { cbn in P1. rewrite <- (app_nil_r (s_out s ++ o)) in P1 at 1. apply app_inv_head in P1. congruence. } subst ev.
    split; [reflexivity|]. eexists. split; [cbn; apply znth_zset_eq; eapply znth_range; exact Ht|]. split; reflexivity.
Qed.

Lemma send_event_about mods i b e l : send_event mods i b e = Done l ->
  l = [] \/ exists m x, mod_by_uid mods (e_mod e) = Some m /\ l = [OEvent (m_fd m) (e_etype e) i (e_id e) x].
Proof.
  unfold send_event. destruct (mod_by_uid mods (e_mod e)) as [m|]; [|discriminate]. destruct (Z.testbit (e_opts e) 0).
  - destruct (DAX_MSGMAX <? _); [intros H; injection H as <-; auto|]. destruct b; [|discriminate]. destruct (_ <? _); [discriminate|].
    destruct (rd l0 (e_byte e) (e_size e)); cbn; [|discriminate]. intros H; injection H as <-. eauto.
  - intros H; injection H as <-. eauto.
Qed.
Lemma check_events_foreign E mods i b off n evs evs' o id : check_events E mods i b off n evs = Done (evs', o) ->
  ~ In id (map e_id evs) -> filter (about i id) o = [].
Proof.
  revert evs' o; induction evs as [|e evs IH]; intros evs' o H N; cbn [check_events] in H; [injection H as _ <-; reflexivity|].
  cbn in N. destruct (ev_overlap e off n).
  - apply rbind_done in H as [[t' h] [H1 H]]. apply rbind_done in H as [x [H2 H]]. apply rbind_done in H as [[y1 y2] [H3 H]].
    injection H as _ <-. cbn [fst snd]. rewrite filter_app, (IH _ _ H3) by tauto. rewrite app_nil_r.
    destruct h; [|injection H2 as <-; reflexivity]. apply send_event_about in H2 as [->|(m & z & _ & ->)]; [reflexivity|].
    cbn. replace (e_id e =? id) with false by lia. rewrite andb_false_r. reflexivity.
  - apply rbind_done in H as [[y1 y2] [H3 H]]. injection H as _ <-. apply (IH _ _ H3). tauto.
Qed.
(** the fate of one event in the check after a write *)
Lemma check_events_one E mods i b off n evs evs' o e : check_events E mods i b off n evs = Done (evs', o) ->
  NoDup (map e_id evs) -> In e evs ->
  (ev_overlap e off n = false /\ In e evs' /\ filter (about i (e_id e)) o = []) \/
  (ev_overlap e off n = true /\ exists test hit, event_hit E e b off n = Done (test, hit) /\ In (set_test e test) evs' /\
     if hit then send_event mods i (Some b) e = Done (filter (about i (e_id e)) o) else filter (about i (e_id e)) o = []).
Proof.
  revert evs' o; induction evs as [|x evs IH]; intros evs' o H N I; cbn [check_events] in H; [destruct I|].
  cbn in N. apply NoDup_cons_iff in N as [N1 N2]. destruct I as [->|I].
  - destruct (ev_overlap e off n).
    + right. split; [reflexivity|]. apply rbind_done in H as [[t' h] [H1 H]]. apply rbind_done in H as [z [H2 H]]. apply rbind_done in H as [[y1 y2] [H3 H]].
      injection H as <- <-. cbn [fst snd]. exists t', h. split; [exact H1|]. split; [left; reflexivity|].
      rewrite filter_app, (check_events_foreign _ _ _ _ _ _ _ _ _ _ H3 N1), app_nil_r.
      destruct h; [|injection H2 as <-; reflexivity]. rewrite H2. f_equal.
      apply send_event_about in H2 as [->|(m & w & _ & ->)]; [reflexivity|]. cbn. rewrite !Z.eqb_refl. reflexivity.
    + left. split; [reflexivity|]. apply rbind_done in H as [[y1 y2] [H3 H]]. injection H as <- <-. split; [left; reflexivity|].
      apply (check_events_foreign _ _ _ _ _ _ _ _ _ _ H3 N1).
  - assert (Ne : e_id x <> e_id e) by (intros Q; apply N1; rewrite Q; apply in_map; exact I).
    destruct (ev_overlap x off n).
    + apply rbind_done in H as [[t' h] [H1 H]]. apply rbind_done in H as [z [H2 H]]. apply rbind_done in H as [[y1 y2] [H3 H]].
      injection H as <- <-. cbn [fst snd].
      assert (Fz : filter (about i (e_id e)) z = []).
      { destruct h; [|injection H2 as <-; reflexivity]. apply send_event_about in H2 as [->|(m & w & _ & ->)]; [reflexivity|].
        cbn. replace (e_id x =? e_id e) with false by lia. rewrite andb_false_r. reflexivity. }
      rewrite filter_app, Fz. cbn [app]. destruct (IH _ _ H3 N2 I) as [(A & B & C)|(A & test & hit & B & C & D)].
      * left. split; [exact A|]. split; [right; exact B | exact C].
      * right. split; [exact A|]. exists test, hit. split; [exact B|]. split; [right; exact C | exact D].
    + apply rbind_done in H as [[y1 y2] [H3 H]]. injection H as <- <-. cbn [fst snd].
      destruct (IH _ _ H3 N2 I) as [(A & B & C)|(A & test & hit & B & C & D)].
      * left. split; [exact A|]. split; [right; exact B | exact C].
      * right. split; [exact A|]. exists test, hit. split; [exact B|]. split; [right; exact C | exact D].
Qed.
Lemma mod_uid_in E s u m : reachable E s -> (mod_by_uid (s_mods s) u = Some m <-> In m (s_mods s) /\ m_uid m = u).
Proof.
  intros R. assert (M := si_mods _ _ (reachable_sys _ _ R)). destruct M as (N & _). split.
  - intros H. apply find_some in H as [A B]. split; [exact A | lia].
  - intros [A B]. unfold mod_by_uid. induction (s_mods s) as [|y l IH]; [destruct A|]. cbn in *. apply NoDup_cons_iff in N as [N1 N2].
    destruct A as [->|A]; [replace (m_uid m =? u) with true by lia; reflexivity|].
    destruct (m_uid y =? u) eqn:Q; [|auto]. exfalso. apply N1. replace (m_uid y) with (m_uid m) by lia. apply in_map; exact A.
Qed.
Lemma overlap_meet e b off n : placed e b -> off + n <= 2147483647 -> in_bounds off n (zlen b) = true -> 0 < n ->
  (ev_overlap e off n = true <-> meet off n (e_byte e) (e_size e)).
Proof.
  intros (A & B & C & C') L D N. apply in_bounds_iff in D. unfold ev_overlap, u32, meet. rewrite !Z.mod_small by lia. split.
  - intros H. exists (Z.max off (e_byte e)). lia.
  - intros (k & K1 & K2). lia.
Qed.
(** ** one event, one write *)
Lemma one_event E s fd i off n b b' o a s' t e :
  reachable E s -> writing s fd i off n b b' o a -> step E s o = Done s' -> answered s s' a ->
  znth (s_db s) i = Some t -> In e (t_events t) -> placed e b -> 0 < n ->
  in_bounds off n (zlen b) = true /\ off + n <= 2147483647 /\ zlen b' = zlen b /\ (forall k, 0 <= k -> ~ off <= k < off + n -> znth b' k = znth b k) /\
  ((~ meet off n (e_byte e) (e_size e) /\ told s s' i e [] /\
      (no_mapping s i -> exists t', znth (s_db s') i = Some t' /\ In e (t_events t'))) \/
   (meet off n (e_byte e) (e_size e) /\ exists test hit, event_hit E e b' off n = Done (test, hit) /\
      (hit = false -> told s s' i e []) /\
      (hit = true -> exists m, registrant s e m /\ (sendable e -> told s s' i e [note m i e b']) /\ (~ sendable e -> told s s' i e [])) /\
      (no_mapping s i -> exists t', znth (s_db s') i = Some t' /\ In (set_test e test) (t_events t')))).
Proof.
  intros R W H A Ht He P N. destruct (writing_checks _ _ _ _ _ _ _ _ _ _ _ _ R W H A Ht) as (evs & out & rest & C & Q & B & L & Lb & Ou & M).
  split; [exact B|]. split; [exact L|]. split; [exact Lb|]. split; [exact Ou|].
  assert (Nd : NoDup (map e_id (t_events t))) by (eapply desc_NoDup, wf_ids, (reachable_ids _ _ R); exact Ht).
  assert (T : forall l, filter (about i (e_id e)) out = l -> told s s' i e l).
  { intros l Hl. exists out, rest. split; [exact Q|]. split; [exact Hl|]. intros Nm. destruct (M Nm) as [-> _]. exists a. split; [reflexivity|]. destruct W; exact (fun x => x). }
  destruct (check_events_one _ _ _ _ _ _ _ _ _ _ C Nd He) as [(X & Y & Z)|(X & test & hit & Y & Z & U)].
  - left. split; [rewrite <- (overlap_meet e b) by assumption; congruence|]. split; [apply T; exact Z|].
    intros Nm. destruct (M Nm) as (_ & t' & M1 & M2 & _). exists t'. rewrite M2. auto.
  - right. split; [rewrite <- (overlap_meet e b) by assumption; exact X|]. exists test, hit. split; [exact Y|].
    split; [intros ->; apply T; exact U|]. split.
    + intros ->. unfold send_event in U. destruct (mod_by_uid (s_mods s) (e_mod e)) as [m|] eqn:Mu; [|discriminate].
      apply (mod_uid_in _ _ _ _ R) in Mu. exists m. split; [exact Mu|]. unfold sendable, note. destruct P as (P1 & P2 & P3 & P4).
      destruct (Z.testbit (e_opts e) 0).
      * replace (u32 (e_size e + 16)) with (e_size e + 16) in U by (unfold u32; rewrite Z.mod_small; lia).
        unfold rd in U. rewrite (proj2 (in_bounds_iff _ _ _)) in U by lia. cbn [rbind] in U.
        replace (DAX_MSGMAX - 16 <? e_size e) with (DAX_MSGMAX <? e_size e + 16) in U by (unfold DAX_MSGMAX; lia).
        destruct (DAX_MSGMAX <? e_size e + 16) eqn:Mx; injection U as U; (split; [intros S | intros S]); apply T; rewrite <- U; try reflexivity; exfalso.
        -- specialize (S eq_refl). lia.
        -- apply S. intros _. lia.
      * injection U as U. split; [intros _; apply T; symmetry; exact U|]. intros S. exfalso. apply S. discriminate.
    + intros Nm. destruct (M Nm) as (_ & t' & M1 & M2 & _). exists t'. rewrite M2. auto.
Qed.

(** ** C23 *)
(** FULL STATEMENT (false, see [C23_refuted]): without [sendable]. *)
Theorem C23_write_event_partial : forall E s fd i off n b b' o a s' t e,
  reachable E s -> writing s fd i off n b b' o a -> step E s o = Done s' -> answered s s' a ->
  znth (s_db s) i = Some t -> In e (t_events t) -> e_etype e = EV_WRITE -> placed e b -> 0 < n -> sendable e ->
  (meet off n (e_byte e) (e_size e) -> exists m, registrant s e m /\ told s s' i e [note m i e b']) /\
  (~ meet off n (e_byte e) (e_size e) -> told s s' i e []).
Proof.
  intros E s fd i off n b b' o a s' t e R W H A Ht He Ty P N S.
  destruct (one_event _ _ _ _ _ _ _ _ _ _ _ _ _ R W H A Ht He P N) as (_ & _ & _ & _ & [(X & Y & _)|(X & test & hit & Y & _ & Z & _)]); [tauto|].
  split; [intros _ | tauto]. unfold event_hit in Y. rewrite Ty in Y. cbn in Y. injection Y as _ <-.
  destruct (Z eq_refl) as (m & M1 & M2 & _). exists m. auto.
Qed.

(** ** C24 *)
(** one write: the event fires exactly when the watched bytes differ from what it saw last, and then has seen the new ones *)
Theorem C24_change_event : forall E s fd i off n b b' o a s' t e,
  reachable E s -> writing s fd i off n b b' o a -> step E s o = Done s' -> answered s s' a ->
  znth (s_db s) i = Some t -> In e (t_events t) -> change_event e -> placed e b -> 0 < n -> sendable e -> saw e b ->
  (watched e b' <> watched e b -> exists m, registrant s e m /\ told s s' i e [note m i e b']) /\
  (watched e b' = watched e b -> told s s' i e []) /\
  (no_mapping s i -> exists t' e', znth (s_db s') i = Some t' /\ In e' (t_events t') /\ stat e' = stat e /\ saw e' b').
Proof.
  intros E s fd i off n b b' o a s' t e R W H A Ht He Ty P N Se S.
  destruct (one_event _ _ _ _ _ _ _ _ _ _ _ _ _ R W H A Ht He P N) as (B & F & L & O & [(X & Y & Z)|(X & test & hit & Y & Z1 & Z2 & Z3)]).
  - assert (Q := not_meet_watched _ _ _ _ _ P L O X). split; [congruence|]. split; [auto|].
    intros Nm. destruct (Z Nm) as (t' & T1 & T2). exists t', e. split; [exact T1|]. split; [exact T2|]. split; [reflexivity|]. unfold saw. rewrite Q. exact S.
  - destruct (hit_change _ _ _ _ _ _ _ _ Ty P L B F O S Y) as (Q1 & Q2). split; [|split].
    + intros Ne. apply Q2 in Ne. destruct (Z2 Ne) as (m & M1 & M2 & _). exists m. auto.
    + intros Eq. apply Z1. destruct hit; [exfalso; apply Q2; auto | reflexivity].
    + intros Nm. destruct (Z3 Nm) as (t' & T1 & T2). exists t', (set_test e test). split; [exact T1|]. split; [exact T2|]. split; [reflexivity | exact Q1].
Qed.

Lemma mix_idem o n m : mix (mix o n m) n m = mix o n m.
Proof.
  revert n m. induction o as [|x o IH]; intros n m; [reflexivity|]. destruct n as [|y n], m as [|z m]; try reflexivity. cbn [mix]. f_equal; [|apply IH].
  apply Z.bits_inj'. intros k Hk. repeat rewrite ?Z.lor_spec, ?Z.land_spec. destruct (Z.testbit y k), (Z.testbit z k), (Z.testbit x k), (Z.testbit (bnot z) k); reflexivity.
Qed.
Lemma splice_idem off d b : in_bounds off (zlen d) (zlen b) = true -> splice off d (splice off d b) = splice off d b.
Proof.
  intros B. assert (B' : in_bounds off (zlen d) (zlen (splice off d b)) = true) by (rewrite zlen_splice; exact B).
  apply znth_ext. intros k Hk. rewrite !znth_splice by (assumption || lia). destruct (_ && _); reflexivity.
Qed.
Lemma slice_own off n b x : in_bounds off n (zlen b) = true -> zlen x = n -> slice off n (splice off x b) = x.
Proof. intros B <-. apply slice_splice_same. exact B. Qed.
(** the same write once more *)
Theorem C24_repeat_silent : forall E s fd i off n b b' o a s1 s2 t e,
  reachable E s -> writing s fd i off n b b' o a -> step E s o = Done s1 -> answered s s1 a ->
  znth (s_db s) i = Some t -> In e (t_events t) -> change_event e -> placed e b -> 0 < n -> sendable e -> saw e b -> no_mapping s i ->
  step E s1 o = Done s2 -> answered s1 s2 a -> exists e', stat e' = stat e /\ told s1 s2 i e' [].
Proof.
  intros E s fd i off n b b' o a s1 s2 t e R W H A Ht He Ty P N Se S Nm H2 A2.
  assert (R1 : reachable E s1) by (eapply reachable_step; eassumption).
  destruct (one_event _ _ _ _ _ _ _ _ _ _ _ _ _ R W H A Ht He P N) as (B & _ & L & _).
  destruct (C24_change_event _ _ _ _ _ _ _ _ _ _ _ _ _ R W H A Ht He Ty P N Se S) as (_ & _ & Z). destruct (Z Nm) as (t' & e' & T1 & T2 & T3 & T4).
  assert (W1 : writing s1 fd i off n b' b' o a).
  { assert (Av : maps_avoid s i i) by (intros t0 l Q; rewrite (Nm _ Q); intros X; injection X as <-; constructor).
    inversion W; subst.
    - destruct (C04_write_stores _ _ _ _ _ _ _ _ R H0 Av H A) as (_ & St). apply wri_plain; [exact St | reflexivity | rewrite splice_idem by exact B; reflexivity].
    - destruct (C04_mask_stores _ _ _ _ _ _ _ _ _ R H0 Av H A) as (_ & Lm & St). apply wri_masked; [exact St | reflexivity|].
      assert (Lx : zlen (mix (slice off (zlen d) b) d m) = zlen d) by (rewrite zlen_mix; rewrite zlen_slice; auto).
      rewrite (slice_own off (zlen d) b _ B Lx), mix_idem, splice_idem by (rewrite Lx; exact B). reflexivity. }
  assert (St : forall x : event -> Prop, (forall y, x (stat y) <-> x y) -> x e -> x e') by (intros x X Y; apply X; rewrite T3; apply X; exact Y).
  assert (P' : placed e' b') by (apply (St (fun e => placed e b')); [intros; reflexivity | unfold placed in *; rewrite L; exact P]).
  assert (Ty' : change_event e') by (apply (St change_event); [intros; reflexivity | exact Ty]).
  assert (Se' : sendable e') by (apply (St sendable); [intros; reflexivity | exact Se]).
  exists e'. split; [exact T3|].
  apply (C24_change_event _ _ _ _ _ _ _ _ _ _ _ _ _ R1 W1 H2 A2 T1 T2 Ty' P' N Se' T4). reflexivity.
Qed.

(** over any history: [along P E s os]: [P] holds in [s] and after each of the requests [os] *)
Fixpoint along (P : server -> Prop) (E : env) (s : server) (os : list op) : Prop :=
  P s /\ match os with [] => True | o :: os => exists s1, step E s o = Done s1 /\ along P E s1 os end.
(** [e] is the event [id] of tag [i], a change event whose watched range lies inside the tag (holding [b])
    and whose remembered area has the size of that range *)
Definition watcher (s : server) (i id : Z) (e : event) (b : list Z) : Prop :=
  exists t, znth (s_db s) i = Some t /\ t_data t = DBytes b /\ In e (t_events t) /\ e_id e = id /\ change_event e /\ placed e b /\ regular e.
Lemma watcher_fun E s i id e b e' b' : reachable E s -> watcher s i id e b -> watcher s i id e' b' -> e' = e /\ b' = b.
Proof.
  intros R (t & A1 & A2 & A3 & A4 & _) (t' & B1 & B2 & B3 & B4 & _). assert (t' = t) by congruence. subst t'. split; [|congruence].
  assert (N : NoDup (map e_id (t_events t))) by (eapply desc_NoDup, wf_ids, (reachable_ids _ _ R); exact A1).
  clear - A3 B3 A4 B4 N. induction (t_events t) as [|x l IH]; [destruct A3|]. cbn in *. apply NoDup_cons_iff in N as [N1 N2].
  destruct A3 as [->|A3], B3 as [->|B3]; auto.
  - exfalso. apply N1. rewrite A4, <- B4. apply in_map. exact B3.
  - exfalso. apply N1. rewrite B4, <- A4. apply in_map. exact A3.
Qed.
Lemma watcher_step E s o s' i id e b : reachable E s -> step E s o = Done s' -> not_atomic i o ->
  (exists e0 b0, watcher s i id e0 b0 /\ saw e0 b0) -> watcher s' i id e b -> saw e b.
Proof.
  intros R H Na (e0 & b0 & W0 & S0) (t & A1 & A2 & A3 & A4 & A5 & A6 & A7).
  destruct (step_trw i _ _ _ _ (reachable_Inv _ _ R) Na H _ _ _ A1 A2 A3) as [G|(t1 & b1 & e1 & B1 & B2 & B3 & B4 & B5)]; [apply G; assumption|].
  destruct W0 as (t0 & C1 & C2 & C3 & C4 & C5 & C6 & C7). assert (t1 = t0) by congruence. subst t1. assert (b1 = b0) by congruence. subst b1.
  assert (e1 = e0).
  { assert (N : NoDup (map e_id (t_events t0))) by (eapply desc_NoDup, wf_ids, (reachable_ids _ _ R); exact C1).
    assert (Q := f_equal e_id B4). cbn in Q. clear - B3 C3 C4 A4 Q N. induction (t_events t0) as [|x l IH]; [destruct B3|]. cbn in *. apply NoDup_cons_iff in N as [N1 N2].
    destruct B3 as [->|B3], C3 as [->|C3]; auto.
    - exfalso. apply N1. replace (e_id e1) with (e_id e0) by lia. apply in_map. exact C3.
    - exfalso. apply N1. replace (e_id e0) with (e_id e1) by lia. apply in_map. exact B3. }
  subst e1. apply B5; [exact C6 | intros _ _ _; exact S0 | exact A5 | exact A6 | exact A7].
Qed.
(** as long as the event exists and its range stays inside the tag, whatever happens (except atomic operations on the tag,
    C36) it has always seen the current bytes *)
Theorem C24_always_saw : forall E i id os s s', reachable E s -> exec E s os = Done s' -> Forall (not_atomic i) os ->
  along (fun x => exists e b, watcher x i id e b) E s os ->
  (forall e b, watcher s i id e b -> saw e b) -> forall e b, watcher s' i id e b -> saw e b.
Proof.
  intros E i id os. induction os as [|o os IH]; intros s s' R H F A S e b W; cbn in H.
  - injection H as <-. auto.
  - apply rbind_done in H as [s1 [H1 H2]]. cbn in A. destruct A as ((e0 & b0 & W0) & s2 & A1 & A2). assert (s2 = s1) by congruence. subst s2.
    inversion F; subst. eapply (IH s1 s'); [eapply reachable_step; eassumption | exact H2 | assumption | exact A2 | | exact W].
    intros e1 b1 W1. apply (watcher_step E s o s1 i id e1 b1 R H1); [assumption | exists e0, b0; auto | exact W1].
Qed.

(** ** registering an event *)
Lemma event_add_cases E h ty ud m s s' r : event_add E h ty ud m s = Done (s', r) -> (s' = s /\ r < 0) \/
  exists t x, znth (s_db s) (h_index h) = Some t /\ r = t_nextev t /\
    set_event_data E (s_step s) (s_types s) ty (h_type h) (s32 (h_count h)) (s32 (h_byte h)) (t_data t) ud = Done x /\
    s' = upd_mod (m_uid m) (fun m => set_evcount m (m_evcount m + 1)) (set_tag s (h_index h)
      (set_attr (set_nextev (set_events t (mk_ev (t_nextev t) (s32 (h_byte h)) (h_bit h) (s32 (h_count h)) (h_size h) 0 (h_type h) ty (fst x) (snd x) (m_uid m) :: t_events t)) (t_nextev t + 1))
         (match t_events t with [] => set_flag (t_attr t) A_EVENT | _ => t_attr t end))).
Proof.
  intros H. unfold event_add in H. inv1 H. destruct (znth (s_db s) (h_index h)) as [t|] eqn:Ht; [|inv_all; left; split; [reflexivity | reflexivity]].
  destruct (_ && _); [inv_all; left; split; reflexivity|]. destruct (is_queue (t_type t)); [inv_all; left; split; reflexivity|].
  inv1 H. destruct (_ <? _); [inv_all; left; split; reflexivity|]. destruct (negb _); [inv_all; left; split; reflexivity|]. inv1 H. inv1 H. inv1 H.
  apply ret_done in H as [-> ->]. right. exists t, v0. auto.
Qed.
(** an accepted registration adds one event, under the answered id, with the requested range and owned by the requester; nothing else
    about the tag changes *)
Theorem C23_registered : forall E s fd h ty ud s' p,
  reachable E s -> step E s (OpEvAdd fd h ty ud) = Done s' -> answered s s' (OResp fd MSG_EVNT_ADD p) ->
  exists m t t' e, In m (s_mods s) /\ m_fd m = fd /\ znth (s_db s) (h_index h) = Some t /\ znth (s_db s') (h_index h) = Some t' /\
    t_events t' = e :: t_events t /\ t_data t' = t_data t /\ p = le_bytes 4 (e_id e) /\ e_id e = t_nextev t /\ t_nextev t' = t_nextev t + 1 /\
    registrant s e m /\ e_etype e = ty /\ e_dtype e = h_type h /\ e_byte e = s32 (h_byte h) /\ e_bit e = h_bit h /\
    e_count e = s32 (h_count h) /\ e_size e = h_size h /\
    (forall b, t_data t = DBytes b -> ty = EV_CHANGE \/ ty = EV_DEADBAND -> h_type h <> T_BOOL -> placed e b -> regular e -> saw e b).
Proof.
  intros E s fd h ty ud s' p R H A. apply step_inv in H as (s1 & u & H & ->). cbn [handle_op] in H. inv1 H. inv1 H.
  assert (Er : forall c x y, s1 = set_out x (s_out x ++ [OErr fd MSG_EVNT_ADD c]) -> evout s x -> y = set_step s1 (s_step s1 + 1) -> answered s y (OResp fd MSG_EVNT_ADD p) -> False).
  { intros c x y -> Ev -> An. assert (Q := answered_step _ _ _ (s_step (set_out x (s_out x ++ [OErr fd MSG_EVNT_ADD c])) + 1) (answered_err s x fd MSG_EVNT_ADD c Ev)).
    assert (Z := answered_fun _ _ _ _ An Q). discriminate. }
  unfold reply_int in H. destruct (find_mod s fd) as [m|] eqn:F.
  2:{ inv1 Hm. exfalso. cbn [Z.ltb Z.compare] in H. unfold reply_err, emit, modify in H. injection H as <- _. eapply (Er (-1) s); [reflexivity | apply evout_refl | reflexivity | exact A]. }
  apply event_add_cases in Hm as [[-> Hr]|(t & x & Ht & -> & Hx & ->)].
  - exfalso. replace (v <? 0) with true in H by lia. unfold reply_err, emit, modify in H. injection H as <- _. eapply (Er v s); [reflexivity | apply evout_refl | reflexivity | exact A].
  - set (sx := upd_mod _ _ _) in *. assert (Ev : evout s sx) by (apply evout_same; reflexivity).
    destruct (t_nextev t <? 0).
    { exfalso. unfold reply_err, emit, modify in H. injection H as <- _. eapply (Er (t_nextev t) sx); [reflexivity | exact Ev | reflexivity | exact A]. }
    unfold respond in H. replace (MSG_DATA_SIZE <? zlen (le_bytes 4 (t_nextev t))) with false in H by (rewrite zlen_le_bytes; reflexivity).
    unfold emit, modify in H. injection H as <- _.
    assert (Q := answered_step _ _ _ (s_step (set_out sx (s_out sx ++ [OResp fd MSG_EVNT_ADD (le_bytes 4 (t_nextev t))])) + 1) (answered_resp s sx fd MSG_EVNT_ADD (le_bytes 4 (t_nextev t)) Ev)).
    assert (Z := answered_fun _ _ _ _ A Q). apply (f_equal (fun y => match y with OResp _ _ z => z | _ => [] end)) in Z. cbv beta iota in Z.
    apply find_some in F as F'. destruct F' as [F1 F2].
    eexists m, t, _, _. split; [exact F1|]. split; [lia|]. split; [exact Ht|].
    split; [cbn; apply znth_zset_eq; eapply znth_range; exact Ht|]. cbn [t_events set_attr set_nextev set_events t_data t_nextev].
    split; [reflexivity|]. split; [reflexivity|]. cbn [e_id]. split; [exact Z|]. split; [reflexivity|]. split; [reflexivity|].
    split; [split; [exact F1 | reflexivity]|]. do 6 (split; [reflexivity|]).
    intros b Db T1 T2 P Rg. unfold regular in Rg. cbn [e_test e_size] in Rg. destruct P as (P1 & P2 & P3 & P4). cbn [e_byte e_size] in P1, P2, P3, P4.
    unfold saw, watched. cbn [e_test e_byte e_size]. rewrite Db in Hx.
    assert (exists n, (if n <? 0 then Undef UOob else if n =? 0 then Done [] else rd b (s32 (h_byte h)) n) = Done (snd x)) as (n & Hy).
    { unfold set_event_data in Hx. replace (h_type h =? T_BOOL) with false in Hx by lia. destruct T1 as [-> | ->]; cbn [Z.eqb EV_CHANGE EV_DEADBAND Pos.eqb] in Hx.
      - apply rbind_done in Hx as [sz [Hs Hx]]. destruct (negb (fits32 _)); [discriminate|]. apply rbind_done in Hx as [y [Hy Hx]]. injection Hx as <-. eauto.
      - apply rbind_done in Hx as [sz [Hs Hx]]. destruct (negb (fits32 _)); [discriminate|]. apply rbind_done in Hx as [d [Hd Hx]]. apply rbind_done in Hx as [y [Hy Hx]]. injection Hx as <-. eauto. }
    destruct (n <? 0) eqn:N0; [discriminate|]. destruct (n =? 0) eqn:N1.
    + injection Hy as Hy. rewrite <- Hy in Rg. unfold zlen in Rg. cbn in Rg. lia.
    + unfold rd in Hy. destruct (in_bounds _ _ _) eqn:Bd; [|discriminate]. injection Hy as Hy. rewrite <- Hy in *. rewrite (zlen_slice _ _ _ Bd) in Rg. rewrite Rg. reflexivity.
Qed.

(** ** C25 *)
(** watched bit [k] of the tag, and what the event remembers about it *)
Definition watched_bit (e : event) (b : list Z) (k : Z) : bool := bit b (8 * e_byte e + e_bit e + k).
Definition remembers (e : event) (k : Z) : bool := bit (e_test e) (e_bit e + k).
(** the condition a set ([want] = true) or reset ([want] = false) event looks for holds at watched bit [k] *)
Definition cond (want : bool) (e : event) (b : list Z) (k : Z) : Prop := watched_bit e b k = want.
Definition edge_event (want : bool) (e : event) : Prop :=
  e_etype e = (if want then EV_SET else EV_RESET) /\ 0 <= e_bit e < 8 /\ 0 <= e_count e.
Lemma hit_edge E want e b off n test h : edge_event want e -> 0 <= e_byte e -> event_hit E e b off n = Done (test, h) ->
  (h = true <-> exists k, 0 <= k < e_count e /\ cond want e b k /\ remembers e k = false) /\
  forall k, 0 <= k < e_count e -> (remembers (set_test e test) k = true <-> cond want e b k).
Proof.
  intros (T & B & C) By H.
  assert (G : forall f g, edge f g -> (forall x, g x = Bool.eqb x want) -> bits_loop f (Z.to_nat (e_count e)) (e_bit e) 0 (e_test e) b (e_byte e) false = Done (test, h) ->
     (h = true <-> exists k, 0 <= k < e_count e /\ cond want e b k /\ remembers e k = false) /\
     forall k, 0 <= k < e_count e -> (remembers (set_test e test) k = true <-> cond want e b k)).
  { intros f g Ef Eg L. eapply bits_loop_spec in L; [|exact Ef | lia | lia | lia]. rewrite Z2Nat.id in L by lia. destruct L as (_ & P2 & P3). split.
    - rewrite P3. unfold cond, watched_bit, remembers. split.
      + intros [Q|(q & Q1 & Q2 & Q3)]; [discriminate|]. exists (q - e_bit e). split; [lia|]. replace (8 * e_byte e + e_bit e + (q - e_bit e)) with (8 * e_byte e + q) by lia.
        replace (e_bit e + (q - e_bit e)) with q by lia. rewrite Eg in Q2. apply eqb_prop in Q2. auto.
      + intros (k & K1 & K2 & K3). right. exists (e_bit e + k). split; [lia|]. rewrite Eg. replace (8 * e_byte e + (e_bit e + k)) with (8 * e_byte e + e_bit e + k) by lia.
        rewrite K2. split; [apply eqb_reflx | exact K3].
    - intros k K. unfold remembers, cond, watched_bit. cbn [e_test set_test e_bit e_byte]. rewrite P2 by lia.
      replace ((8 * 0 + e_bit e <=? e_bit e + k) && (e_bit e + k <? 8 * 0 + e_bit e + e_count e)) with true by lia. rewrite Eg.
      replace (8 * e_byte e + (e_bit e + k)) with (8 * e_byte e + e_bit e + k) by lia. apply eqb_true_iff. }
  unfold event_hit in H. rewrite T in H. destruct want; cbn [Z.eqb EV_SET EV_RESET EV_CHANGE EV_WRITE Pos.eqb] in H.
  - eapply (G f_set); [exact f_set_edge | intros []; reflexivity | exact H].
  - eapply (G f_reset); [exact f_reset_edge | intros []; reflexivity | exact H].
Qed.
(** a set or reset event fires exactly when the write meets the watched bytes and one of the watched bits has the looked-for value now
    and did not have it when the event last looked; afterwards it remembers the present value of every watched bit *)
Theorem C25_edge_event : forall E s fd i off n b b' o a s' t e want,
  reachable E s -> writing s fd i off n b b' o a -> step E s o = Done s' -> answered s s' a ->
  znth (s_db s) i = Some t -> In e (t_events t) -> edge_event want e -> placed e b -> 0 < n -> sendable e ->
  (meet off n (e_byte e) (e_size e) ->
     ((exists k, 0 <= k < e_count e /\ cond want e b' k /\ remembers e k = false) -> exists m, registrant s e m /\ told s s' i e [note m i e b']) /\
     (~ (exists k, 0 <= k < e_count e /\ cond want e b' k /\ remembers e k = false) -> told s s' i e []) /\
     (no_mapping s i -> exists t' e', znth (s_db s') i = Some t' /\ In e' (t_events t') /\ stat e' = stat e /\
        forall k, 0 <= k < e_count e -> (remembers e' k = true <-> cond want e b' k))) /\
  (~ meet off n (e_byte e) (e_size e) -> told s s' i e [] /\ (no_mapping s i -> exists t', znth (s_db s') i = Some t' /\ In e (t_events t'))).
Proof.
  intros E s fd i off n b b' o a s' t e want R W H A Ht He Ty P N Se.
  destruct (one_event _ _ _ _ _ _ _ _ _ _ _ _ _ R W H A Ht He P N) as (_ & _ & _ & _ & [(X & Y & Z)|(X & test & hit & Y & Z1 & Z2 & Z3)]); [tauto|].
  split; [intros _ | tauto]. destruct (hit_edge _ _ _ _ _ _ _ _ Ty (proj1 P) Y) as (Q1 & Q2). split; [|split].
  - intros Ex. apply Q1 in Ex. destruct (Z2 Ex) as (m & M1 & M2 & _). eauto.
  - intros Nx. apply Z1. destruct hit; [exfalso; apply Nx, Q1; reflexivity | reflexivity].
  - intros Nm. destruct (Z3 Nm) as (t' & T1 & T2). exists t', (set_test e test). auto.
Qed.

(** ** C26 *)
(** the integer types with their width in bytes and whether they are signed.  TIME is missing (see [C26_time_refuted]). *)
Definition int_types : list (Z * Z * bool) :=
  [(T_BYTE, 1, false); (T_SINT, 1, true); (T_CHAR, 1, true); (T_WORD, 2, false); (T_UINT, 2, false); (T_INT, 2, true);
   (T_DWORD, 4, false); (T_UDINT, 4, false); (T_DINT, 4, true); (T_LWORD, 8, false); (T_ULINT, 8, false); (T_LINT, 8, true)].
(** the number a little-endian block of [w] bytes stands for *)
Definition number (w : Z) (signed : bool) (l : list Z) : Z :=
  if signed then (le_val l + 2 ^ (8 * w - 1)) mod 2 ^ (8 * w) - 2 ^ (8 * w - 1) else le_val l.
Definition elem (w : Z) (sg : bool) (e : event) (b : list Z) (k : Z) : Z := number w sg (slice (e_byte e + w * k) w b).
(** element [k] of the watched range is among the [n] bytes written at [off]; the write consists of whole elements *)
Definition rewritten (w : Z) (e : event) (off n k : Z) : Prop := 0 <= k /\ w * k < e_size e /\ off <= e_byte e + w * k < off + n.
Definition whole (w : Z) (e : event) (off n : Z) : Prop := (off - e_byte e) mod w = 0 /\ n mod w = 0 /\ e_size e mod w = 0.
Definition relation (ety x ref : Z) : Prop := if ety =? EV_EQUAL then x = ref else if ety =? EV_GREATER then ref < x else x < ref.
Definition compare_event (w : Z) (sg : bool) (e : event) : Prop :=
  In (e_dtype e, w, sg) int_types /\ (e_etype e = EV_EQUAL \/ e_etype e = EV_GREATER \/ e_etype e = EV_LESS).
(** element [k] satisfies the event's relation to its reference value *)
Definition meets_ref (w : Z) (sg : bool) (e : event) (b : list Z) (k : Z) : Prop :=
  relation (e_etype e) (elem w sg e b k) (number w sg (slice 0 w (e_data e))).
(** the event remembers that element [k] did so when it was last written *)
Definition did (e : event) (k : Z) : bool := bit (e_test e) k.

Lemma int_kind ty w sg : In (ty, w, sg) int_types -> vkind_of ty = Some (if sg then KS w else KU w) /\ typesize_bits ty / 8 = w /\ (w = 1 \/ w = 2 \/ w = 4 \/ w = 8).
Proof.
  unfold int_types. intros H. repeat (destruct H as [H|H]; [injection H as <- <- <-; split; [reflexivity|]; split; [reflexivity | lia]|]). destruct H.
Qed.
Lemma wrap_number w l : (w = 1 \/ w = 2 \/ w = 4 \/ w = 8) -> wrap_s w (le_val l) = number w true l.
Proof.
  intros H. unfold wrap_s, number, s8, s16, s32, s64. generalize (le_val l). intros z.
  destruct H as [->|[->|[->| ->]]]; cbn [Z.eqb Pos.eqb];
    [change (2 ^ (8 * 1 - 1)) with 128; change (2 ^ (8 * 1)) with 256 | change (2 ^ (8 * 2 - 1)) with 32768; change (2 ^ (8 * 2)) with 65536
    | change (2 ^ (8 * 4 - 1)) with 2147483648; change (2 ^ (8 * 4)) with 4294967296 | change (2 ^ (8 * 8 - 1)) with 9223372036854775808; change (2 ^ (8 * 8)) with 18446744073709551616];
    cbv zeta; match goal with |- (if ?c then _ else _) = _ => destruct c eqn:Q end; lia.
Qed.
Lemma int_kval ty w sg l : In (ty, w, sg) int_types -> kval (if sg then KS w else KU w) l = Some (number w sg l).
Proof. intros H. destruct (int_kind _ _ _ H) as (_ & _ & W). destruct sg; cbn [kval]; [rewrite wrap_number by exact W|]; reflexivity. Qed.
Lemma compare_spec ty w sg l1 l2 p2 c : In (ty, w, sg) int_types -> generic_compare ty l1 0 l2 p2 = Done c ->
  let x := number w sg (slice 0 w l1) in let y := number w sg (slice p2 w l2) in c = if x <? y then -1 else if y <? x then 1 else 0.
Proof.
  intros I H. destruct (int_kind _ _ _ I) as (K & _ & W). unfold generic_compare in H. rewrite K in H.
  apply rbind_done in H as [a [H1 H]]. apply rbind_done in H as [b [H2 H]]. rewrite !(int_kval _ _ _ _ I) in H. injection H as <-.
  assert (Kw : kwidth (if sg then KS w else KU w) = w) by (destruct sg; reflexivity). rewrite Kw in *. unfold rd in H1, H2.
  destruct (in_bounds 0 w (zlen l1)); [|discriminate]. destruct (in_bounds p2 w (zlen l2)); [|discriminate]. injection H1 as <-. injection H2 as <-. reflexivity.
Qed.
(** the elements the loops visit *)
Lemma whole_visit w e b off n : (w = 1 \/ w = 2 \/ w = 4 \/ w = 8) -> whole w e off n -> placed e b -> in_bounds off n (zlen b) = true -> off + n <= 2147483647 -> meet off n (e_byte e) (e_size e) ->
  exists k0 c, 0 <= k0 /\ 0 <= c /\ Z.max 0 (Z.quot (off - e_byte e) w) = k0 /\ Z.max off (e_byte e) = e_byte e + w * k0 /\ Z.max 0 (off - e_byte e) = w * k0 /\
    Z.of_nat (iters (ov_len (e_byte e) (e_size e) off n) w) = c /\ (forall k, rewritten w e off n k <-> k0 <= k < k0 + c) /\ w * k0 + w * c <= e_size e.
Proof.
  intros W (W1 & W2 & W3) (P1 & P2 & P3 & P4) B F (m & M1 & M2). apply in_bounds_iff in B.
  assert (Ol : ov_len (e_byte e) (e_size e) off n = Z.min (e_byte e + e_size e) (off + n) - Z.max off (e_byte e)).
  { clear W W1 W2 W3. unfold ov_len, u32. rewrite !Z.mod_small by lia. apply s32_small. lia. }
  assert (W0 : w <> 0) by (clear - W; lia).
  rewrite Ol. unfold iters, rewritten.
  exists (Z.max 0 ((off - e_byte e) / w)), ((Z.min (e_byte e + e_size e) (off + n) - Z.max off (e_byte e)) / w).
  assert (Q1 : off - e_byte e = w * ((off - e_byte e) / w)) by (apply Z_div_exact_full_2; [exact W0 | exact W1]).
  assert (Q2 : n = w * (n / w)) by (apply Z_div_exact_full_2; [exact W0 | exact W2]).
  assert (Q3 : e_size e = w * (e_size e / w)) by (apply Z_div_exact_full_2; [exact W0 | exact W3]).
  clear W1 W2 W3. set (a := (off - e_byte e) / w) in *. set (x := n / w) in *. set (y := e_size e / w) in *.
  assert (Em : Z.min (e_byte e + e_size e) (off + n) - Z.max off (e_byte e) = w * (Z.min y (a + x) - Z.max a 0)).
  { replace off with (e_byte e + w * a) by (clear - Q1; lia). rewrite Q2 at 1. rewrite Q3 at 1. destruct W as [->|[->|[->| ->]]]; lia. }
  assert (Pw : 0 < w * (Z.min y (a + x) - Z.max a 0)) by (rewrite <- Em; clear - M1 M2; lia).
  rewrite Em.
  assert (D : w * (Z.min y (a + x) - Z.max a 0) / w = Z.min y (a + x) - Z.max a 0) by (rewrite Z.mul_comm; apply Z.div_mul; exact W0). rewrite D.
  assert (Qq : Z.quot (off - e_byte e) w = a) by (rewrite Q1, Z.mul_comm; apply Z.quot_mul, W0). rewrite Qq. clear Qq D. clearbody a x y.
  assert (Pos : 0 < Z.min y (a + x) - Z.max a 0).
  { clear - Pw W. set (c := Z.min y (a + x) - Z.max a 0) in *. clearbody c. destruct W as [->|[->|[->| ->]]]; lia. }
  assert (It : (w * (Z.min y (a + x) - Z.max a 0) + w - 1) / w = Z.min y (a + x) - Z.max a 0).
  { clear - Pos W. set (c := Z.min y (a + x) - Z.max a 0) in *. clearbody c. destruct W as [->|[->|[->| ->]]]; lia. }
  clear Ol Em Pw M1 M2 m.
  rewrite It. split; [lia|]. split; [lia|]. split.
  { lia. }
  split; [destruct W as [->|[->|[->| ->]]]; lia|]. split; [destruct W as [->|[->|[->| ->]]]; lia|]. split; [lia|].
  split; [|destruct W as [->|[->|[->| ->]]]; lia]. intros k. split.
  - intros (K1 & K2 & K3). destruct W as [->|[->|[->| ->]]]; lia.
  - intros K. destruct W as [->|[->|[->| ->]]]; lia.
Qed.
Lemma hit_compare E w sg e b off n test h : compare_event w sg e -> placed e b -> in_bounds off n (zlen b) = true -> off + n <= 2147483647 ->
  meet off n (e_byte e) (e_size e) -> whole w e off n -> event_hit E e b off n = Done (test, h) ->
  (h = true <-> exists k, rewritten w e off n k /\ meets_ref w sg e b k /\ did e k = false) /\
  (forall k, rewritten w e off n k -> (did (set_test e test) k = true <-> meets_ref w sg e b k)) /\
  (forall k, 0 <= k -> ~ rewritten w e off n k -> did (set_test e test) k = did e k).
Proof.
  intros (I & Ty) P B F M Wh H. destruct (int_kind _ _ _ I) as (Kd & Inc & W).
  destruct (whole_visit _ _ _ _ _ W Wh P B F M) as (k0 & c & K0 & C0 & V1 & V2 & _ & V3 & V4 & _).
  unfold event_hit in H. rewrite Inc in H.
  assert (L : compare_loop (iters (ov_len (e_byte e) (e_size e) off n) w) e (if e_etype e =? EV_EQUAL then 0 else if e_etype e =? EV_GREATER then -1 else 1) w k0 (e_byte e + w * k0) (e_test e) b false = Done (test, h)).
  { rewrite <- V1, <- V2 at 1. destruct Ty as [Ty|[Ty|Ty]]; rewrite Ty in *; cbn [Z.eqb EV_SET EV_RESET EV_CHANGE EV_WRITE EV_EQUAL EV_GREATER EV_LESS Pos.eqb orb] in *; replace (w =? 0) with false in H by lia; rewrite V1 in *; exact H. }
  apply compare_loop_spec in L; [|lia | lia]. destruct L as (_ & cc & L1 & L2 & L3). rewrite V3 in *.
  assert (R : forall k, rewritten w e off n k -> (cc (k - k0) = (if e_etype e =? EV_EQUAL then 0 else if e_etype e =? EV_GREATER then -1 else 1) <-> meets_ref w sg e b k)).
  { intros k Rk. apply V4 in Rk. assert (G := L1 (k - k0) ltac:(lia)). replace (e_byte e + w * k0 + w * (k - k0)) with (e_byte e + w * k) in G by lia.
    apply (compare_spec _ _ _ _ _ _ _ I) in G. cbv zeta in G. unfold meets_ref, relation, elem.
    set (x := number w sg (slice 0 w (e_data e))) in *. set (y := number w sg (slice (e_byte e + w * k) w b)) in *. rewrite G.
    destruct Ty as [Ty|[Ty|Ty]]; rewrite Ty; cbn [Z.eqb EV_EQUAL EV_GREATER EV_LESS Pos.eqb];
      destruct (Z.ltb_spec x y); destruct (Z.ltb_spec y x); lia. }
  split; [|split].
  - rewrite L3. split.
    + intros [Q|(k & K1 & K2 & K3)]; [discriminate|]. exists (k0 + k). assert (Rk : rewritten w e off n (k0 + k)) by (apply V4; lia).
      split; [exact Rk|]. split; [apply R; [exact Rk|]; replace (k0 + k - k0) with k by lia; exact K2 | exact K3].
    + intros (k & K1 & K2 & K3). right. assert (Q := proj1 (V4 k) K1). exists (k - k0). split; [lia|]. split; [apply R; assumption|]. replace (k0 + (k - k0)) with k by lia. exact K3.
  - intros k Rk. assert (Q := proj1 (V4 k) Rk). unfold did. cbn [e_test set_test]. rewrite L2 by lia. replace ((k0 <=? k) && (k <? k0 + c)) with true by lia.
    rewrite <- (R k Rk). apply Z.eqb_eq.
  - intros k K Nr. unfold did. cbn [e_test set_test]. rewrite L2 by lia. destruct ((k0 <=? k) && (k <? k0 + c)) eqn:Q; [|reflexivity]. exfalso. apply Nr, V4. lia.
Qed.
(** FULL STATEMENT (false for TIME, see [C26_time_refuted]): the same with TIME among the integer types *)
Theorem C26_compare_event_partial : forall E s fd i off n b b' o a s' t e w sg,
  reachable E s -> writing s fd i off n b b' o a -> step E s o = Done s' -> answered s s' a ->
  znth (s_db s) i = Some t -> In e (t_events t) -> compare_event w sg e -> placed e b -> 0 < n -> whole w e off n -> sendable e ->
  ((exists k, rewritten w e off n k /\ meets_ref w sg e b' k /\ did e k = false) -> exists m, registrant s e m /\ told s s' i e [note m i e b']) /\
  (~ (exists k, rewritten w e off n k /\ meets_ref w sg e b' k /\ did e k = false) -> told s s' i e []) /\
  (no_mapping s i -> exists t' e', znth (s_db s') i = Some t' /\ In e' (t_events t') /\ stat e' = stat e /\
     (forall k, rewritten w e off n k -> (did e' k = true <-> meets_ref w sg e b' k)) /\
     (forall k, 0 <= k -> ~ rewritten w e off n k -> did e' k = did e k)).
Proof.
  intros E s fd i off n b b' o a s' t e w sg R W H A Ht He Ty P N Wh Se.
  destruct (one_event _ _ _ _ _ _ _ _ _ _ _ _ _ R W H A Ht He P N) as (B & F & L & _ & [(X & Y & Z)|(X & test & hit & Y & Z1 & Z2 & Z3)]).
  - assert (Nr : forall k, ~ rewritten w e off n k).
    { intros k (K1 & K2 & K3). apply X. exists (e_byte e + w * k). destruct (int_kind _ _ _ (proj1 Ty)) as (_ & _ & Ww). split; nia. }
    split; [intros (k & K & _); destruct (Nr _ K)|]. split; [auto|]. intros Nm. destruct (Z Nm) as (t' & T1 & T2). exists t', e.
    split; [exact T1|]. split; [exact T2|]. split; [reflexivity|]. split; [intros k K; destruct (Nr _ K) | reflexivity].
  - assert (P' : placed e b') by (unfold placed in *; rewrite L; exact P). rewrite <- L in B.
    destruct (hit_compare _ _ _ _ _ _ _ _ _ Ty P' B F X Wh Y) as (Q1 & Q2 & Q3). split; [|split].
    + intros Ex. apply Q1 in Ex. destruct (Z2 Ex) as (m & M1 & M2 & _). eauto.
    + intros Nx. apply Z1. destruct hit; [exfalso; apply Nx, Q1; reflexivity | reflexivity].
    + intros Nm. destruct (Z3 Nm) as (t' & T1 & T2). exists t', (set_test e test). auto 8.
Qed.

(** ** C27 *)
(** element [k] as the event remembers it: its value when the event last fired for it (or at registration, [C23_registered]) *)
Definition last (w : Z) (sg : bool) (e : event) (k : Z) : Z := number w sg (slice (w * k) w (e_test e)).
Definition band (w : Z) (sg : bool) (e : event) : Z := number w sg (slice 0 w (e_data e)).
Definition deadband_event (w : Z) (sg : bool) (e : event) : Prop := In (e_dtype e, w, sg) int_types /\ e_etype e = EV_DEADBAND.
(** the distance computed in the element type is the true one *)
Definition measurable (w : Z) (sg : bool) (a b : Z) : Prop :=
  if sg then (if w <=? 2 then - 2 ^ (8 * w - 1) <= a - b < 2 ^ (8 * w - 1) else True)
  else if w =? 4 then 0 <= a - b < 2 ^ 32 else if w =? 8 then - 2 ^ 63 <= a - b < 2 ^ 63 else True.
Definition moved (w : Z) (sg : bool) (e : event) (b : list Z) (k : Z) : Prop := band w sg e <= Z.abs (elem w sg e b k - last w sg e k).
Lemma wrap_small w z : (w = 1 \/ w = 2) -> - 2 ^ (8 * w - 1) <= z < 2 ^ (8 * w - 1) -> wrap_s w z = z.
Proof.
  intros W B. unfold wrap_s, s8, s16. destruct W as [-> | ->]; cbn [Z.eqb Pos.eqb];
    [change (2 ^ (8 * 1 - 1)) with 128 in B | change (2 ^ (8 * 2 - 1)) with 32768 in B]; cbv zeta; match goal with |- (if ?c then _ else _) = _ => destruct c eqn:Q end; lia.
Qed.
Lemma s64_small z : - 2 ^ 63 <= z < 2 ^ 63 -> s64 z = z.
Proof. change (2 ^ 63) with 9223372036854775808. unfold s64. cbv zeta. intros B. match goal with |- (if ?c then _ else _) = _ => destruct c eqn:Q end; lia. Qed.
Lemma deadband_spec E e w sg test pt data pd c : In (e_dtype e, w, sg) int_types -> generic_deadband E e test pt data pd = Done c ->
  let a := number w sg (slice pt w test) in let b := number w sg (slice pd w data) in measurable w sg a b ->
  c = (band w sg e <=? Z.abs (b - a)).
Proof.
  intros I H a b M. destruct (int_kind _ _ _ I) as (K & _ & W). unfold generic_deadband in H. rewrite K in H.
  apply rbind_done in H as [d [H1 H]]. apply rbind_done in H as [x [H2 H]]. apply rbind_done in H as [y [H3 H]].
  assert (Kw : kwidth (if sg then KS w else KU w) = w) by (destruct sg; reflexivity). rewrite Kw in *. unfold rd in H1, H2, H3.
  destruct (in_bounds 0 w _); [|discriminate]. destruct (in_bounds pt w _); [|discriminate]. destruct (in_bounds pd w _); [|discriminate].
  injection H1 as <-. injection H2 as <-. injection H3 as <-.
  assert (Kr : forall l, kraw (if sg then KS w else KU w) l = number w sg l) by (intros l; destruct sg; cbn [kraw]; [apply wrap_number; exact W | reflexivity]).
  rewrite !Kr in H. fold a b in H. change (number w sg (slice 0 w (e_data e))) with (band w sg e) in H.
  replace (Z.abs (b - a)) with (Z.abs (a - b)) by lia. clearbody a b. unfold measurable in M. destruct sg; cbn [db_arith] in H.
  - destruct (w <=? 2) eqn:W2.
    + rewrite wrap_small in H by (try exact M; lia). injection H as <-. reflexivity.
    + destruct (_ && _); [|discriminate]. injection H as <-. reflexivity.
  - destruct (w <=? 2) eqn:W2; [injection H as <-; reflexivity|]. destruct (w =? 4) eqn:W4.
    + change (2 ^ 32) with 4294967296 in M. injection H as <-. unfold u32. rewrite Z.mod_small by lia. rewrite (Z.abs_eq (a - b)) by lia. reflexivity.
    + replace (w =? 8) with true in M by lia. rewrite s64_small in H by exact M. cbv zeta in H. destruct (_ =? _) in H; [discriminate|]. injection H as <-. reflexivity.
Qed.
Lemma hit_deadband E w sg e b off n test h : deadband_event w sg e -> placed e b -> in_bounds off n (zlen b) = true -> off + n <= 2147483647 ->
  meet off n (e_byte e) (e_size e) -> whole w e off n -> (forall k, rewritten w e off n k -> measurable w sg (last w sg e k) (elem w sg e b k)) ->
  event_hit E e b off n = Done (test, h) ->
  (h = true <-> exists k, rewritten w e off n k /\ moved w sg e b k) /\
  (forall k, rewritten w e off n k -> moved w sg e b k -> last w sg (set_test e test) k = elem w sg e b k) /\
  (forall k, 0 <= k -> ~ (rewritten w e off n k /\ moved w sg e b k) -> last w sg (set_test e test) k = last w sg e k).
Proof.
  intros (I & Ty) P B F M Wh Me H. destruct (int_kind _ _ _ I) as (Kd & Inc & W).
  destruct (whole_visit _ _ _ _ _ W Wh P B F M) as (k0 & c & K0 & C0 & _ & V2 & V1 & V3 & V4 & _).
  unfold event_hit in H. rewrite Inc, Ty in H. cbn [Z.eqb EV_SET EV_RESET EV_CHANGE EV_WRITE EV_EQUAL EV_GREATER EV_LESS EV_DEADBAND Pos.eqb orb] in H.
  replace (w =? 0) with false in H by lia. rewrite V1, V2 in H. apply deadband_loop_spec in H; [|lia | nia | destruct P; nia].
  destruct H as (_ & cc & L1 & L2 & L3 & L4). rewrite V3 in *.
  assert (R : forall k, rewritten w e off n k -> (cc (k - k0) = true <-> moved w sg e b k)).
  { intros k Rk. assert (Q := proj1 (V4 k) Rk). assert (G := L1 (k - k0) ltac:(lia)).
    replace (e_byte e + w * k0 + w * (k - k0)) with (e_byte e + w * k) in G by lia. replace (w * k0 + w * (k - k0)) with (w * k) in G by lia.
    apply (deadband_spec _ _ _ _ _ _ _ _ _ I) in G; [|apply Me; exact Rk]. rewrite G. unfold moved. rewrite Z.leb_le. reflexivity. }
  split; [|split].
  - rewrite L4. split.
    + intros [Q|(k & K1 & K2)]; [discriminate|]. exists (k0 + k). assert (Rk : rewritten w e off n (k0 + k)) by (apply V4; lia).
      split; [exact Rk|]. apply R; [exact Rk|]. replace (k0 + k - k0) with k by lia. exact K2.
    + intros (k & K1 & K2). right. assert (Q := proj1 (V4 k) K1). exists (k - k0). split; [lia|]. apply R; assumption.
  - intros k Rk Mv. assert (Q := proj1 (V4 k) Rk). assert (G := L2 (k - k0) ltac:(lia)).
    replace (e_byte e + w * k0 + w * (k - k0)) with (e_byte e + w * k) in G by lia. replace (w * k0 + w * (k - k0)) with (w * k) in G by lia.
    rewrite (proj2 (R k Rk) Mv) in G. unfold last, elem. cbn [e_test set_test]. rewrite G. reflexivity.
  - intros k Kn Nr. unfold last. cbn [e_test set_test]. f_equal. destruct (Z_lt_le_dec k k0) as [A|A]; [apply L3; nia|]. destruct (Z_lt_le_dec k (k0 + c)) as [A'|A']; [|apply L3; nia].
    assert (Rk : rewritten w e off n k) by (apply V4; lia). assert (G := L2 (k - k0) ltac:(lia)). replace (w * k0 + w * (k - k0)) with (w * k) in G by lia.
    destruct (cc (k - k0)) eqn:Q; [|exact G]. exfalso. apply Nr. split; [exact Rk|]. apply R; assumption.
Qed.
(** FULL STATEMENT (false, see [C27_refuted]): without the hypothesis that all distances are [measurable] *)
Theorem C27_deadband_event_partial : forall E s fd i off n b b' o a s' t e w sg,
  reachable E s -> writing s fd i off n b b' o a -> step E s o = Done s' -> answered s s' a ->
  znth (s_db s) i = Some t -> In e (t_events t) -> deadband_event w sg e -> placed e b -> 0 < n -> whole w e off n -> sendable e ->
  (forall k, rewritten w e off n k -> measurable w sg (last w sg e k) (elem w sg e b' k)) ->
  ((exists k, rewritten w e off n k /\ moved w sg e b' k) -> exists m, registrant s e m /\ told s s' i e [note m i e b']) /\
  (~ (exists k, rewritten w e off n k /\ moved w sg e b' k) -> told s s' i e []) /\
  (no_mapping s i -> exists t' e', znth (s_db s') i = Some t' /\ In e' (t_events t') /\ stat e' = stat e /\
     (forall k, rewritten w e off n k -> moved w sg e b' k -> last w sg e' k = elem w sg e b' k) /\
     (forall k, 0 <= k -> ~ (rewritten w e off n k /\ moved w sg e b' k) -> last w sg e' k = last w sg e k)).
Proof.
  intros E s fd i off n b b' o a s' t e w sg R W H A Ht He Ty P N Wh Se Me.
  destruct (one_event _ _ _ _ _ _ _ _ _ _ _ _ _ R W H A Ht He P N) as (B & F & L & _ & [(X & Y & Z)|(X & test & hit & Y & Z1 & Z2 & Z3)]).
  - assert (Nr : forall k, ~ rewritten w e off n k).
    { intros k (K1 & K2 & K3). apply X. exists (e_byte e + w * k). destruct (int_kind _ _ _ (proj1 Ty)) as (_ & _ & Ww). split; nia. }
    split; [intros (k & K & _); destruct (Nr _ K)|]. split; [auto|]. intros Nm. destruct (Z Nm) as (t' & T1 & T2). exists t', e.
    split; [exact T1|]. split; [exact T2|]. split; [reflexivity|]. split; [intros k K; destruct (Nr _ K) | reflexivity].
  - assert (P' : placed e b') by (unfold placed in *; rewrite L; exact P). rewrite <- L in B.
    destruct (hit_deadband _ _ _ _ _ _ _ _ _ Ty P' B F X Wh Me Y) as (Q1 & Q2 & Q3). split; [|split].
    + intros Ex. apply Q1 in Ex. destruct (Z2 Ex) as (m & M1 & M2 & _). eauto.
    + intros Nx. apply Z1. destruct hit; [exfalso; apply Nx, Q1; reflexivity | reflexivity].
    + intros Nm. destruct (Z3 Nm) as (t' & T1 & T2). exists t', (set_test e test). auto 8.
Qed.

(** ** C28 *)
(** no two events of a tag have the same id *)
Theorem C28_ids_distinct : forall E s i t, reachable E s -> znth (s_db s) i = Some t -> NoDup (map e_id (t_events t)).
Proof. intros E s i t R H. eapply desc_NoDup, wf_ids, (reachable_ids _ _ R). exact H. Qed.
Lemma exec_nextev E os : forall s s' i t, reachable E s -> exec E s os = Done s' -> znth (s_db s) i = Some t ->
  exists t', znth (s_db s') i = Some t' /\ t_nextev t <= t_nextev t'.
Proof.
  induction os as [|o os IH]; intros s s' i t R H Ht; cbn in H; [injection H as <-; exists t; split; [exact Ht | lia]|].
  apply rbind_done in H as [s1 [H1 H2]]. destruct (er_tag _ _ _ (reachable_er _ _ _ _ R H1) _ _ Ht) as (t1 & T1 & T2).
  destruct (IH s1 s' i t1 (reachable_step _ _ _ _ R H1) H2 T1) as (t' & T3 & T4). exists t'. split; [exact T3|]. assert (Q := tv_ev _ _ _ _ _ _ T2). lia.
Qed.
(** the id of a new event is larger than the id of every event registered earlier on the tag, whatever happened in between *)
Theorem C28_never_reused : forall E s fd h ty ud s1 p os s2 fd' h' ty' ud' s3 p',
  reachable E s -> step E s (OpEvAdd fd h ty ud) = Done s1 -> answered s s1 (OResp fd MSG_EVNT_ADD p) ->
  exec E s1 os = Done s2 -> step E s2 (OpEvAdd fd' h' ty' ud') = Done s3 -> answered s2 s3 (OResp fd' MSG_EVNT_ADD p') -> h_index h' = h_index h ->
  exists id id', id < id' /\ p = le_bytes 4 id /\ p' = le_bytes 4 id' /\
    (exists t e, znth (s_db s1) (h_index h) = Some t /\ In e (t_events t) /\ e_id e = id) /\
    (exists t e, znth (s_db s3) (h_index h) = Some t /\ In e (t_events t) /\ e_id e = id').
Proof.
  intros E s fd h ty ud s1 p os s2 fd' h' ty' ud' s3 p' R H1 A1 X H2 A2 Hi.
  assert (R1 : reachable E s1) by (eapply reachable_step; eassumption). assert (R2 : reachable E s2) by (eapply reachable_exec; eassumption).
  destruct (C23_registered _ _ _ _ _ _ _ _ R H1 A1) as (m & t & t1 & e & _ & _ & _ & T1 & T2 & _ & T3 & T4 & T5 & _).
  destruct (C23_registered _ _ _ _ _ _ _ _ R2 H2 A2) as (m' & t2 & t3 & e' & _ & _ & U0 & U1 & U2 & _ & U3 & U4 & U5 & _).
  rewrite Hi in *. destruct (exec_nextev _ _ _ _ _ _ R1 X T1) as (t2' & V1 & V2). assert (t2' = t2) by congruence. subst t2'.
  exists (e_id e), (e_id e'). split; [lia|]. split; [exact T3|]. split; [exact U3|].
  split; [exists t1, e; rewrite T2; cbn; auto | exists t3, e'; rewrite U2; cbn; auto].
Qed.
(** whoever sends a request to delete an event or to change its options: the events of other modules stay *)
Theorem C28_only_owner : forall E s o s' i t e fd id, reachable E s -> step E s o = Done s' ->
  o = OpEvDel fd i id \/ (exists opts, o = OpEvOpt fd i id opts) ->
  znth (s_db s) i = Some t -> In e (t_events t) -> (forall m, In m (s_mods s) -> m_fd m = fd -> m_uid m <> e_mod e) ->
  exists t' e', znth (s_db s') i = Some t' /\ In e' (t_events t') /\ stat e' = stat e.
Proof.
  intros E s o s' i t e fd id R H O Ht He N.
  assert (S : spared s o i (e_mod e)).
  { assert (Q : forall m, find_mod s fd = Some m -> i = i -> e_mod e <> m_uid m).
    { intros m F _ Z. apply find_some in F as [F1 F2]. apply (N _ F1); [lia | symmetry; exact Z]. }
    destruct O as [->|(opts & ->)]; exact Q. }
  destruct (er_tag _ _ _ (reachable_er _ _ _ _ R H) _ _ Ht) as (t' & T1 & T2). destruct (tv_keep _ _ _ _ _ _ T2 _ He S) as (e' & E1 & E2). eauto.
Qed.
(** such a request for another module's event changes nothing at all *)
Theorem C28_foreign_no_effect : forall E s o s' i t e fd, reachable E s -> step E s o = Done s' ->
  o = OpEvDel fd i (e_id e) \/ (exists opts, o = OpEvOpt fd i (e_id e) opts) ->
  znth (s_db s) i = Some t -> In e (t_events t) -> (forall m, In m (s_mods s) -> m_fd m = fd -> m_uid m <> e_mod e) ->
  s_db s' = s_db s /\ s_mods s' = s_mods s.
Proof.
  intros E s o s' i t e fd R H O Ht He N. apply step_inv in H as (s1 & u & H & ->).
  assert (ND := C28_ids_distinct _ _ _ _ R Ht).
  assert (F : find (fun x => e_id x =? e_id e) (t_events t) = Some e).
  { clear - He ND. induction (t_events t) as [|x l IH]; [destruct He|]. cbn in *. apply NoDup_cons_iff in ND as [A B]. destruct He as [->|He]; [rewrite Z.eqb_refl; reflexivity|].
    destruct (Z.eqb_spec (e_id x) (e_id e)) as [Q|Q]; [|auto]. exfalso. apply A. rewrite Q. apply in_map, He. }
  assert (Ow : match find_mod s fd with Some m => e_mod e =? m_uid m | None => false end = false).
  { destruct (find_mod s fd) as [m|] eqn:Q; [|reflexivity]. apply find_some in Q as [Q1 Q2]. assert (Z := N _ Q1). lia. }
  destruct O as [->|(opts & ->)]; cbn [handle_op] in H; inv1 H; inv1 H.
  - assert (s0 = s).
    { unfold event_del in Hm. inv1 Hm. rewrite Ht in Hm. destruct (t_events t) as [|x r]; [destruct He|]. cbn [find] in F.
      destruct (e_id x =? e_id e) eqn:Q; [injection F as ->; rewrite Ow in Hm; cbn [negb] in Hm; apply ret_done in Hm as [-> _]; reflexivity|].
      rewrite F, Ow in Hm. cbn [negb] in Hm. apply ret_done in Hm as [-> _]; reflexivity. }
    subst s0. assert (Q : s_db s1 = s_db s /\ s_mods s1 = s_mods s); [|exact Q]. inv1 H; [unfold respond in H | unfold reply_err in H]; inv_all; auto.
  - assert (s0 = s).
    { unfold event_opt in Hm. inv1 Hm. rewrite Ht, F, Ow in Hm. apply ret_done in Hm as [-> _]; reflexivity. }
    subst s0. assert (Q : s_db s1 = s_db s /\ s_mods s1 = s_mods s); [|exact Q]. inv1 H; [unfold respond in H | unfold reply_err in H]; inv_all; auto.
Qed.

(** ** Examples and counterexamples *)
(** demo with a write event (id 1, data sent along) and a change event (id 2) on foo, an edge event on bar, an equal event
    (reference 513) and a deadband event (band 10) on baz *)
Definition ev_ops : list op := demo_ops ++
  [ OpEvAdd 5 (mk_h 13 0 0 10 40 T_DINT) EV_WRITE []; OpEvOpt 5 13 1 1; OpEvAdd 6 (mk_h 13 4 0 2 8 T_DINT) EV_CHANGE [];
    OpEvAdd 5 (mk_h 14 0 0 8 1 T_BOOL) EV_SET []; OpEvAdd 5 (mk_h 15 0 0 4 8 T_INT) EV_EQUAL [1; 2]; OpEvAdd 6 (mk_h 15 0 0 4 8 T_INT) EV_DEADBAND [10; 0] ].
Definition evd : server := after_ops env0 ev_ops.
Lemma evd_reachable : reachable env0 evd.
Proof. apply after_reachable. vm_compute. reflexivity. Qed.
Definition tag_of (s : server) (i : Z) : tag := nth (Z.to_nat i) (s_db s) (mk_tag 0 0 0 None 0 0 0 [] None DNull None None 0).
Definition bytes_of (s : server) (i : Z) : list Z := match t_data (tag_of s i) with DBytes b => b | _ => [] end.
Definition ev_of (s : server) (i : Z) (k : nat) : event := nth k (t_events (tag_of s i)) (mk_ev 0 0 0 0 0 0 0 0 [] [] 0).
Definition next_of (s : server) (o : op) : server := match step env0 s o with Done s' => s' | Undef _ => s end.
(** all hypotheses of the event theorems hold for this write *)
Definition case_of (s : server) (fd i off : Z) (d : list Z) (k : nat) : Prop :=
  let o := OpWrite fd i off d in let b := bytes_of s i in let b' := splice off d b in
  writing s fd i off (zlen d) b b' o (OResp fd MSG_TAG_WRITE []) /\ step env0 s o = Done (next_of s o) /\
  answered s (next_of s o) (OResp fd MSG_TAG_WRITE []) /\ znth (s_db s) i = Some (tag_of s i) /\
  In (ev_of s i k) (t_events (tag_of s i)) /\ placed (ev_of s i k) b /\ 0 < zlen d.
Lemma answered_check s s' l a : s_out s' = s_out s ++ l ++ [a] -> Forall is_event l -> answered s s' a.
Proof. intros H F. exists l. auto. Qed.
Ltac case_tac l := unfold case_of; cbv zeta;
  split; [constructor; [eexists; split; [vm_compute; reflexivity | split; vm_compute; reflexivity] | reflexivity | reflexivity]|];
  split; [vm_compute; reflexivity|]; split; [apply (answered_check _ _ l); [vm_compute; reflexivity | repeat constructor]|]; split; [vm_compute; reflexivity|];
  split; [vm_compute; tauto|]; split; [unfold placed; vm_compute; intuition discriminate | vm_compute; reflexivity].
Example C23_ex : case_of evd 6 13 8 [9; 9; 9; 9] 1 /\ e_etype (ev_of evd 13 1) = EV_WRITE /\ sendable (ev_of evd 13 1) /\
  meet 8 4 (e_byte (ev_of evd 13 1)) (e_size (ev_of evd 13 1)).
Proof.
  split; [case_tac [OEvent 6 EV_CHANGE 13 2 None; OEvent 5 EV_WRITE 13 1 (Some (splice 8 [9;9;9;9] (bytes_of evd 13)))]|]. split; [vm_compute; reflexivity|].
  split; [intros _; vm_compute; discriminate|]. exists 8. vm_compute. intuition discriminate.
Qed.
Example C24_ex : case_of evd 6 13 8 [9; 9; 9; 9] 0 /\ change_event (ev_of evd 13 0) /\ sendable (ev_of evd 13 0) /\ saw (ev_of evd 13 0) (bytes_of evd 13) /\
  regular (ev_of evd 13 0) /\ no_mapping evd 13 /\ not_atomic 13 (OpWrite 6 13 8 [9; 9; 9; 9]).
Proof.
  split; [case_tac [OEvent 6 EV_CHANGE 13 2 None; OEvent 5 EV_WRITE 13 1 (Some (splice 8 [9;9;9;9] (bytes_of evd 13)))]|].
  split; [split; vm_compute; [reflexivity | discriminate]|]. split; [intros _; vm_compute; discriminate|]. split; [vm_compute; reflexivity|].
  split; [vm_compute; reflexivity|]. split; [intros t; vm_compute; intros H; injection H as <-; reflexivity | exact Logic.I].
Qed.
Example C25_ex : case_of evd 6 14 0 [64] 0 /\ edge_event true (ev_of evd 14 0) /\ remembers (ev_of evd 14 0) 6 = false /\
  cond true (ev_of evd 14 0) (splice 0 [64] (bytes_of evd 14)) 6.
Proof.
  split; [case_tac [OEvent 5 EV_SET 14 1 None]|]. split; [vm_compute; intuition discriminate|]. split; vm_compute; reflexivity.
Qed.
Example C26_ex : case_of evd 6 15 2 [1; 2] 1 /\ compare_event 2 true (ev_of evd 15 1) /\ whole 2 (ev_of evd 15 1) 2 2 /\
  rewritten 2 (ev_of evd 15 1) 2 2 1 /\ did (ev_of evd 15 1) 1 = false /\ meets_ref 2 true (ev_of evd 15 1) (splice 2 [1; 2] (bytes_of evd 15)) 1.
Proof.
  split; [case_tac [OEvent 6 EV_DEADBAND 15 2 None; OEvent 5 EV_EQUAL 15 1 None]|]. split; [vm_compute; auto 20|]. split; [vm_compute; auto|].
  split; [vm_compute; intuition discriminate|]. split; vm_compute; reflexivity.
Qed.
Example C27_ex : case_of evd 6 15 2 [11; 0] 0 /\ deadband_event 2 true (ev_of evd 15 0) /\ whole 2 (ev_of evd 15 0) 2 2 /\
  (forall k, rewritten 2 (ev_of evd 15 0) 2 2 k -> measurable 2 true (last 2 true (ev_of evd 15 0) k) (elem 2 true (ev_of evd 15 0) (splice 2 [11; 0] (bytes_of evd 15)) k)) /\
  moved 2 true (ev_of evd 15 0) (splice 2 [11; 0] (bytes_of evd 15)) 1.
Proof.
  split; [case_tac [OEvent 6 EV_DEADBAND 15 2 None]|]. split; [vm_compute; auto 20|]. split; [vm_compute; auto|].
  split; [|vm_compute; discriminate]. intros k (K1 & K2 & K3). change (e_byte (ev_of evd 15 0)) with 0 in K3. assert (k = 1) as -> by lia. vm_compute. intuition discriminate.
Qed.
Example C28_ex : exists s1 s2 s3 t e, step env0 evd (OpEvAdd 6 (mk_h 13 0 0 1 4 T_DINT) EV_WRITE []) = Done s1 /\
  answered evd s1 (OResp 6 MSG_EVNT_ADD (le_bytes 4 3)) /\ exec env0 s1 [OpEvDel 6 13 2; OpTagDel 5 13] = Done s2 /\
  step env0 s2 (OpEvAdd 5 (mk_h 13 0 0 0 0 T_DINT) EV_WRITE []) = Done s3 /\ answered s2 s3 (OResp 5 MSG_EVNT_ADD (le_bytes 4 4)) /\
  znth (s_db evd) 13 = Some t /\ In e (t_events t) /\ e_id e = 1 /\ (forall m, In m (s_mods evd) -> m_fd m = 6 -> m_uid m <> e_mod e).
Proof.
  eexists _, _, _, _, _. split; [vm_compute; reflexivity|]. split; [apply (answered_check _ _ []); [vm_compute; reflexivity | constructor]|]. split; [vm_compute; reflexivity|].
  split; [vm_compute; reflexivity|]. split; [apply (answered_check _ _ []); [vm_compute; reflexivity | constructor]|]. split; [vm_compute; reflexivity|].
  split; [right; left; reflexivity|]. split; [reflexivity|]. intros m H. vm_compute in H. destruct H as [<-|[<-|[]]]; vm_compute; intuition discriminate.
Qed.

Lemma told_none s s' i e l l' : s_out s' = s_out s ++ l -> existsb (about i (e_id e)) l = false -> told s s' i e l' -> l' = [].
Proof.
  intros H N (notes & rest & A & B & _). rewrite H in A. apply app_inv_head in A. subst l l'.
  rewrite existsb_app in N. apply Bool.orb_false_iff in N as [N _]. clear H.
  induction notes as [|x y IH]; [reflexivity|]. cbn in *. apply Bool.orb_false_iff in N as [N1 N2]. rewrite N1. auto.
Qed.
Lemma tag_of_check s i : in_bounds i 1 (zlen (s_db s)) = true -> znth (s_db s) i = Some (tag_of s i).
Proof.
  unfold in_bounds, zlen. intros H. unfold znth, tag_of, zlen. replace ((0 <=? i) && (i <? Z.of_nat (length (s_db s)))) with true by lia. apply nth_error_nth'. lia.
Qed.
Lemma bytes_of_check s i : match t_data (tag_of s i) with DBytes _ => true | _ => false end = true -> t_data (tag_of s i) = DBytes (bytes_of s i).
Proof. unfold bytes_of. destruct (t_data (tag_of s i)); try discriminate. reflexivity. Qed.
Lemma next_of_check s o : match step env0 s o with Done _ => true | Undef _ => false end = true -> step env0 s o = Done (next_of s o).
Proof. unfold next_of. destruct (step env0 s o); [reflexivity | discriminate]. Qed.
Lemma out_check s s' (l : list out) : s_out s' = s_out s ++ l -> s_out s' = s_out s ++ l.
Proof. exact (fun H => H). Qed.
(** a write event that asks for the data but watches more than 4080 bytes is never reported *)
Definition big_ops : list op := demo_ops ++ [OpTagAdd 5 (str "big") T_BYTE 5000 0; OpEvAdd 5 (mk_h 16 0 0 5000 5000 T_BYTE) EV_WRITE []; OpEvOpt 5 16 1 1].
Theorem C23_refuted : exists s, reachable env0 s /\ case_of s 6 16 0 [9] 0 /\ e_etype (ev_of s 16 0) = EV_WRITE /\
  meet 0 1 (e_byte (ev_of s 16 0)) (e_size (ev_of s 16 0)) /\
  ~ exists x l, told s (next_of s (OpWrite 6 16 0 [9])) 16 (ev_of s 16 0) (x :: l).
Proof.
  exists (after_ops env0 big_ops). split; [apply after_reachable; vm_compute; reflexivity|].
  split.
  { unfold case_of; cbv zeta.
    assert (T : znth (s_db (after_ops env0 big_ops)) 16 = Some (tag_of (after_ops env0 big_ops) 16)) by (apply tag_of_check; vm_compute; reflexivity).
    assert (B : t_data (tag_of (after_ops env0 big_ops) 16) = DBytes (bytes_of (after_ops env0 big_ops) 16)) by (apply bytes_of_check; vm_compute; reflexivity).
    split; [constructor; [exists (tag_of (after_ops env0 big_ops) 16); split; [exact T | split; [vm_compute; reflexivity | exact B]] | reflexivity | reflexivity]|].
    split; [apply next_of_check; vm_compute; reflexivity|]. split; [apply (answered_check _ _ []); [vm_compute; reflexivity | constructor]|]. split; [exact T|].
    split; [apply nth_In; vm_compute; auto|]. split; [unfold placed; repeat split; apply Z.leb_le || apply Z.ltb_lt; vm_compute; reflexivity | reflexivity]. }
  split; [vm_compute; reflexivity|].
  split; [exists 0; split; [lia|]; split; [apply Z.leb_le | apply Z.ltb_lt]; vm_compute; reflexivity|]. intros (x & l & T).
  assert (Q : x :: l = []); [|discriminate]. eapply told_none; [| |exact T]; [apply (out_check _ _ [OResp 6 MSG_TAG_WRITE []]); vm_compute; reflexivity | vm_compute; reflexivity].
Qed.
(** a write of no bytes strictly inside the watched range is reported *)
Theorem C23_empty_write_refuted : exists s s' t e m, reachable env0 s /\ step env0 s (OpWrite 6 13 8 []) = Done s' /\
  znth (s_db s) 13 = Some t /\ In e (t_events t) /\ e_etype e = EV_WRITE /\ ~ meet 8 0 (e_byte e) (e_size e) /\ registrant s e m /\
  In (note m 13 e (bytes_of s 13)) (s_out s') /\ ~ In (note m 13 e (bytes_of s 13)) (s_out s).
Proof.
  exists evd, (next_of evd (OpWrite 6 13 8 [])), (tag_of evd 13), (ev_of evd 13 1), (nth 1 (s_mods evd) (mk_mod 0 [] 0 0 0 [] 0)).
  split; [apply evd_reachable|]. split; [vm_compute; reflexivity|]. split; [vm_compute; reflexivity|]. split; [vm_compute; auto|]. split; [vm_compute; reflexivity|].
  split; [intros (k & K & _); lia|]. split; [split; [vm_compute; auto | vm_compute; reflexivity]|]. split; [vm_compute; intuition reflexivity|]. vm_compute. intuition discriminate.
Qed.
(** an edge event on bits 4..11 of a BOOL tag gets one byte to remember twelve bits: the next write overruns it *)
Definition edge_ops : list op := demo_ops ++ [OpEvAdd 5 (mk_h 14 0 4 8 2 T_BOOL) EV_SET []].
Theorem C25_refuted : exists s t e, reachable env0 s /\ znth (s_db s) 14 = Some t /\ In e (t_events t) /\ edge_event true e /\ placed e (bytes_of s 14) /\
  e_bit e + e_count e <= 12 /\ writing s 6 14 0 1 (bytes_of s 14) (splice 0 [0] (bytes_of s 14)) (OpWrite 6 14 0 [0]) (OResp 6 MSG_TAG_WRITE []) /\
  step env0 s (OpWrite 6 14 0 [0]) = Undef UOob.
Proof.
  exists (after_ops env0 edge_ops), (tag_of (after_ops env0 edge_ops) 14), (ev_of (after_ops env0 edge_ops) 14 0). split; [apply after_reachable; vm_compute; reflexivity|].
  split; [vm_compute; reflexivity|]. split; [vm_compute; auto|]. split; [vm_compute; intuition discriminate|]. split; [unfold placed; vm_compute; intuition discriminate|]. split; [vm_compute; discriminate|].
  split; [constructor; [eexists; split; [vm_compute; reflexivity | split; vm_compute; reflexivity] | reflexivity | reflexivity]|]. vm_compute; reflexivity.
Qed.
(** TIME is a 64-bit unsigned type, but only its low half is compared: 2^32 + 5 counts as equal to 5 *)
Definition time_ops : list op := demo_ops ++ [OpTagAdd 5 (str "when") T_TIME 1 0; OpEvAdd 5 (mk_h 16 0 0 1 8 T_TIME) EV_EQUAL [5; 0; 0; 0; 0; 0; 0; 0]].
Theorem C26_time_refuted : exists s, reachable env0 s /\ case_of s 6 16 0 [5; 0; 0; 0; 1; 0; 0; 0] 0 /\ e_dtype (ev_of s 16 0) = T_TIME /\ e_etype (ev_of s 16 0) = EV_EQUAL /\
  elem 8 false (ev_of s 16 0) [5; 0; 0; 0; 1; 0; 0; 0] 0 = 2 ^ 32 + 5 /\ number 8 false (e_data (ev_of s 16 0)) = 5 /\
  In (OEvent 5 EV_EQUAL 16 1 None) (s_out (next_of s (OpWrite 6 16 0 [5; 0; 0; 0; 1; 0; 0; 0]))) /\ ~ In (OEvent 5 EV_EQUAL 16 1 None) (s_out s).
Proof.
  exists (after_ops env0 time_ops). split; [apply after_reachable; vm_compute; reflexivity|]. split; [case_tac [OEvent 5 EV_EQUAL 16 1 None]|].
  split; [vm_compute; reflexivity|]. split; [vm_compute; reflexivity|]. split; [vm_compute; reflexivity|]. split; [vm_compute; reflexivity|]. split; [vm_compute; tauto|].
  vm_compute. intuition discriminate.
Qed.
(** UDINT: from 5 to 10 counts as a distance of 2^32 - 5; INT: from -30000 to 30000 counts as a distance of 5536 *)
Definition dead_ops : list op := demo_ops ++
  [OpTagAdd 5 (str "cnt") T_UDINT 1 0; OpWrite 5 16 0 [5; 0; 0; 0]; OpEvAdd 5 (mk_h 16 0 0 1 4 T_UDINT) EV_DEADBAND [100; 0; 0; 0];
   OpWrite 5 15 0 [208; 138]; OpEvAdd 5 (mk_h 15 0 0 1 2 T_INT) EV_DEADBAND [112; 23]].
Theorem C27_refuted : exists s, reachable env0 s /\
  (case_of s 6 16 0 [10; 0; 0; 0] 0 /\ deadband_event 4 false (ev_of s 16 0) /\ band 4 false (ev_of s 16 0) = 100 /\ last 4 false (ev_of s 16 0) 0 = 5 /\
   elem 4 false (ev_of s 16 0) [10; 0; 0; 0] 0 = 10 /\ s_out (next_of s (OpWrite 6 16 0 [10; 0; 0; 0])) = s_out s ++ [OEvent 5 EV_DEADBAND 16 1 None; OResp 6 MSG_TAG_WRITE []]) /\
  (case_of s 6 15 0 [48; 117] 0 /\ deadband_event 2 true (ev_of s 15 0) /\ band 2 true (ev_of s 15 0) = 6000 /\ last 2 true (ev_of s 15 0) 0 = -30000 /\
   elem 2 true (ev_of s 15 0) [48; 117] 0 = 30000 /\ s_out (next_of s (OpWrite 6 15 0 [48; 117])) = s_out s ++ [OResp 6 MSG_TAG_WRITE []]).
Proof.
  exists (after_ops env0 dead_ops). split; [apply after_reachable; vm_compute; reflexivity|]. split.
  - split; [case_tac [OEvent 5 EV_DEADBAND 16 1 None]|]. split; [vm_compute; auto 20|]. split; [vm_compute; reflexivity|]. split; [vm_compute; reflexivity|]. split; vm_compute; reflexivity.
  - split; [case_tac (@nil out)|]. split; [vm_compute; auto 20|]. split; [vm_compute; reflexivity|]. split; [vm_compute; reflexivity|]. split; vm_compute; reflexivity.
Qed.
