(** * Frame: exactly what the elementary operations do *)
From Verif Require Import Base Const Types State Events Atomic Server Lib SearchProofs Shape Inv Reach Spec.

Lemma after_done s o : after s o = set_step (set_out s (s_out s ++ o)) (s_step s + 1).
Proof. reflexivity. Qed.

(** a notification that fits into a message *)
Definition fit_event (o : out) : Prop :=
  match o with OEvent _ _ _ _ (Some x) => zlen x <= DAX_MSGMAX - 16 | OEvent _ _ _ _ None => True | _ => False end.
Lemma fit_is_event l : Forall fit_event l -> Forall is_event l.
Proof. apply Forall_impl. intros [?|?|? ? ? ? [?|]]; cbn; auto. Qed.
Lemma send_event_fit mods i b e o : send_event mods i b e = Done o -> Forall fit_event o.
Proof.
  unfold send_event. intros H. destruct (mod_by_uid mods (e_mod e)); [|discriminate]. destruct (Z.testbit (e_opts e) 0); [|injection H as <-; repeat constructor].
  destruct (_ <? _); [injection H as <-; constructor|]. destruct b as [b|]; [|discriminate]. destruct (DAX_MSGMAX - 16 <? e_size e) eqn:Q; [discriminate|].
  apply rbind_done in H as (x & H1 & H). injection H as <-. constructor; [|constructor]. cbn [fit_event].
  unfold rd in H1. destruct (in_bounds _ _ _) eqn:B; [|discriminate]. injection H1 as <-. rewrite zlen_slice by exact B. lia.
Qed.
Lemma check_events_fit E mods i b off n evs r : check_events E mods i b off n evs = Done r -> Forall fit_event (snd r).
Proof.
  revert r; induction evs as [|e evs IH]; intros r H; cbn [check_events] in H; [injection H as <-; constructor|].
  destruct (ev_overlap e off n).
  - apply rbind_done in H as [[t' h] [H1 H]]. apply rbind_done in H as [o [H2 H]]. apply rbind_done in H as [y [H3 H]].
    injection H as <-. cbn. apply Forall_app; split; [|apply IH; exact H3].
    destruct h; [|injection H2 as <-; constructor]. eapply send_event_fit; eassumption.
  - apply rbind_done in H as [y [H3 H]]. injection H as <-. cbn. apply IH; exact H3.
Qed.
Lemma del_events_fit mods i b evs r : del_events mods i b evs = Done r -> Forall fit_event r.
Proof.
  revert r; induction evs as [|e evs IH]; intros r H; cbn [del_events] in H; [injection H as <-; constructor|].
  apply rbind_done in H as [o [H2 H]]. apply rbind_done in H as [y [H3 H]]. injection H as <-.
  apply Forall_app; split; [|apply IH; exact H3].
  destruct (e_etype e =? EV_DELETED); [|injection H2 as <-; constructor]. eapply send_event_fit; eassumption.
Qed.
Lemma check_events_out E mods i b off n evs r : check_events E mods i b off n evs = Done r -> Forall is_event (snd r).
Proof. intros H. apply fit_is_event. eapply check_events_fit; eassumption. Qed.
Lemma del_events_out mods i b evs r : del_events mods i b evs = Done r -> Forall is_event r.
Proof. intros H. apply fit_is_event. eapply del_events_fit; eassumption. Qed.

(** the state after new bytes [b] have been stored in tag [i] *)
Definition committed (s : server) (i : Z) (t : tag) (b : list Z) (evs : list event) (o : list out) (r : rdb) : server :=
  set_ret (set_out (set_tag s i (set_events (set_data t (DBytes b)) evs)) (s_out s ++ o)) r.
Lemma set_ret_same s : set_ret s (s_ret s) = s.
Proof. destruct s; reflexivity. Qed.
Lemma commit_spec E i t b off n s s' u : commit E i t b off n s = Done (s', u) ->
  exists evs o r, check_events E (s_mods s) i b off n (t_events t) = Done (evs, o) /\
    s' = committed s i t b evs o r /\ (has (t_attr t) A_RETAIN = false -> r = s_ret s).
Proof.
  unfold commit. intros H. inv1 H. destruct v as [evs o]. cbn [fst snd] in *.
  destruct (has (t_attr t) A_RETAIN) eqn:R.
  - inv_all. exists evs, o, v. split; [exact Hr|]. split; [reflexivity | discriminate].
  - injection H as <- _. exists evs, o, (s_ret s). split; [exact Hr|]. split; [|auto].
    unfold committed. destruct s; reflexivity.
Qed.

Definition special_ok (s : server) (fd i : Z) (t : tag) (off n : Z) : Prop :=
  has (t_attr t) A_SPECIAL = true -> special_write s fd i t off n = 0.
Inductive write_result (E : env) (fd i off : Z) (d : list Z) (s : server) : server -> Z -> Prop :=
| wr_err r : r < 0 -> write_result E fd i off d s s r
| wr_queue t q q' evs o : znth (s_db s) i = Some t -> has (t_attr t) A_VIRTUAL = true -> t_data t = DQueue q ->
    off = 0 -> zlen d = q_size q -> queue_write E (s_step s) q d = Done q' ->
    check_events E (s_mods s) i [] off (zlen d) (t_events t) = Done (evs, o) ->
    write_result E fd i off d s (set_out (set_tag s i (set_events (set_data t (DQueue q')) evs)) (s_out s ++ o)) 0
| wr_bytes t b evs o r : znth (s_db s) i = Some t -> has (t_attr t) A_VIRTUAL = false -> t_data t = DBytes b ->
    fits32 (off + zlen d) = true -> in_bounds off (zlen d) (zlen b) = true ->
    special_ok s fd i t off (zlen d) ->
    check_events E (s_mods s) i (splice off d b) off (zlen d) (t_events t) = Done (evs, o) ->
    (has (t_attr t) A_RETAIN = false -> r = s_ret s) ->
    write_result E fd i off d s (committed s i t (splice off d b) evs o r) 0.
Lemma special_write_neg s fd i t off n : special_write s fd i t off n <= 0.
Proof.
  unfold special_write, E_NOTFOUND, E_READONLY.
  destruct (t_type t =? module_type); [|lia]. destruct ((off =? 77) && (n =? 1)); [lia|].
  destruct (find_mod s fd); [|lia]. destruct (negb (m_tagidx m =? i)); [lia|]. destruct (off <? 12); lia.
Qed.
Lemma tag_write_cases E fd i off d s s' r : tag_write E fd i off d s = Done (s', r) -> write_result E fd i off d s s' r.
Proof.
  unfold tag_write. destruct (znth (s_db s) i) as [t|] eqn:Ht; [|intros H; injection H as <- <-; apply wr_err; reflexivity].
  destruct (has (t_attr t) A_VIRTUAL) eqn:V.
  - destruct (t_data t) eqn:D; try discriminate; intros H.
    + destruct (negb (off =? 0) || negb (zlen d =? q_size q)) eqn:G; [injection H as <- <-; apply wr_err; reflexivity|].
      inv1 H. inv1 H. destruct v0 as [evs o]. injection H as <- <-.
      assert (off = 0) by lia. assert (zlen d = q_size q) by lia.
      eapply wr_queue; eassumption.
    + injection H as <- <-; apply wr_err; reflexivity.
    + injection H as <- <-; apply wr_err; reflexivity.
  - destruct (negb (fits32 (off + zlen d))) eqn:F; [discriminate|]. apply negb_false_iff in F.
    intros H. inv1 H. destruct (v <? off + zlen d) eqn:G; [injection H as <- <-; apply wr_err; reflexivity|].
    destruct (t_data t) eqn:D; try discriminate; [injection H as <- <-; apply wr_err; reflexivity|].
    cbv zeta in H. set (sp := if has (t_attr t) A_SPECIAL then _ else _) in H.
    assert (Hsp : sp <= 0) by (unfold sp; destruct (has (t_attr t) A_SPECIAL); [apply special_write_neg | lia]).
    destruct (negb (sp =? 0)) eqn:SP; [injection H as <- <-; apply wr_err; lia|].
    destruct (negb (in_bounds off (zlen d) (zlen b))) eqn:B; [discriminate|]. apply negb_false_iff in B.
    destruct (commit E i t (splice off d b) off (zlen d) s) as [[s1 u]|] eqn:C; [|discriminate].
    injection H as <- <-. destruct (commit_spec _ _ _ _ _ _ _ _ _ C) as (evs & o & x & H1 & -> & H2).
    eapply wr_bytes; try eassumption. unfold special_ok. intros S. unfold sp in SP. rewrite S in SP. lia.
Qed.
Inductive mask_result (E : env) (fd i off : Z) (d m : list Z) (s : server) : server -> Z -> Prop :=
| mr_err r : r < 0 -> mask_result E fd i off d m s s r
| mr_bytes t b evs o r : znth (s_db s) i = Some t -> has (t_attr t) A_VIRTUAL = false -> t_data t = DBytes b ->
    fits32 (off + zlen d) = true -> in_bounds off (zlen d) (zlen b) = true -> zlen d <= zlen m ->
    special_ok s fd i t off (zlen d) ->
    check_events E (s_mods s) i (splice off (mix (slice off (zlen d) b) d m) b) off (zlen d) (t_events t) = Done (evs, o) ->
    (has (t_attr t) A_RETAIN = false -> r = s_ret s) ->
    mask_result E fd i off d m s (committed s i t (splice off (mix (slice off (zlen d) b) d m) b) evs o r) 0.
Lemma attr_at_znth E s i t : znth (s_db s) i = Some t -> attr_at E s i = Done (t_attr t).
Proof. intros H. unfold attr_at. rewrite H. reflexivity. Qed.
Lemma tag_mask_write_cases E fd i off d m s s' r :
  tag_mask_write E fd i off d m s = Done (s', r) -> mask_result E fd i off d m s s' r.
Proof.
  unfold tag_mask_write. intros H. inv1 H.
  destruct (has v A_VIRTUAL) eqn:V; [injection H as <- <-; apply mr_err; reflexivity|].
  destruct (znth (s_db s) i) as [t|] eqn:Ht; [|injection H as <- <-; apply mr_err; reflexivity].
  rewrite (attr_at_znth _ _ _ _ Ht) in Hr. injection Hr as <-.
  destruct (negb (fits32 (off + zlen d))) eqn:F; [discriminate|]. apply negb_false_iff in F.
  inv1 H. destruct (v <? off + zlen d) eqn:G; [injection H as <- <-; apply mr_err; reflexivity|].
  destruct (t_data t) eqn:D; try discriminate; [injection H as <- <-; apply mr_err; reflexivity|].
  cbv zeta in H. set (sp := if has (t_attr t) A_SPECIAL then _ else _) in H.
  assert (Hsp : sp <= 0) by (unfold sp; destruct (has (t_attr t) A_SPECIAL); [apply special_write_neg | lia]).
  destruct (negb (sp =? 0)) eqn:SP; [injection H as <- <-; apply mr_err; lia|].
  destruct (negb (in_bounds off (zlen d) (zlen b)) || (zlen m <? zlen d)) eqn:B; [discriminate|].
  apply orb_false_iff in B as [B1 B2]. apply negb_false_iff in B1.
  match type of H with match ?c with _ => _ end = _ => destruct c as [[s1 u]|] eqn:C; [|discriminate] end.
  injection H as <- <-. destruct (commit_spec _ _ _ _ _ _ _ _ _ C) as (evs & o & x & H1 & -> & H2).
  eapply mr_bytes; try eassumption; [lia|]. unfold special_ok. intros S. unfold sp in SP. rewrite S in SP. lia.
Qed.

(** ** everything but one tag *)
Definition others (i : Z) (s s' : server) : Prop := forall j, j <> i -> znth (s_db s') j = znth (s_db s) j.
Lemma others_refl i s : others i s s.
Proof. intros j _; reflexivity. Qed.
Lemma others_trans i a b c : others i a b -> others i b c -> others i a c.
Proof. intros H1 H2 j Hj. rewrite H2, H1 by assumption. reflexivity. Qed.
Lemma others_set_tag i s t : others i s (set_tag s i t).
Proof. intros j Hj. cbn. apply znth_zset_ne. congruence. Qed.
Lemma tag_write_others E fd i off d : pres (others i) (tag_write E fd i off d).
Proof.
  intros s s' a H. apply tag_write_cases in H. destruct H; try apply others_refl; intros j Hj; cbn; apply znth_zset_ne; congruence.
Qed.
Lemma tag_mask_write_others E fd i off d m : pres (others i) (tag_mask_write E fd i off d m).
Proof.
  intros s s' a H. apply tag_mask_write_cases in H. destruct H; try apply others_refl; intros j Hj; cbn; apply znth_zset_ne; congruence.
Qed.
Lemma sys_write_others E i d : pres (others i) (sys_write E i d).
Proof.
  intros s s' a H. unfold sys_write in H. inv_all; try apply others_refl; eapply tag_write_others; eassumption.
Qed.

(** ** the identity part of a tag *)
Definition tcore (t : tag) :=
  (t_name t, t_type t, t_count t, t_fd t,
   (has (t_attr t) A_READONLY, has (t_attr t) A_VIRTUAL, has (t_attr t) A_RETAIN, has (t_attr t) A_SPECIAL, has (t_attr t) A_OWNED)).
Definition core_at (s : server) (i : Z) := option_map tcore (znth (s_db s) i).
Lemma tag_shape_core t t' : tag_shape t t' -> tcore t' = tcore t.
Proof. intros [A B C D _ (F & G & H & I & J)]. unfold tcore. congruence. Qed.
Lemma shape_core s s' i : shape s s' -> core_at s' i = core_at s i.
Proof.
  intros S. unfold core_at. destruct (znth (s_db s) i) as [t|] eqn:Z.
  - destruct (shape_tag _ _ _ _ S Z) as [t' [Z' T]]. rewrite Z'. cbn. f_equal. apply tag_shape_core; assumption.
  - apply znth_none in Z. rewrite (proj2 (znth_none (s_db s') i)) by (rewrite (sh_len _ _ S); exact Z). reflexivity.
Qed.
Definition name_at (s : server) (i : Z) : option name :=
  match znth (s_db s) i with Some t => t_name t | None => None end.
Lemma shape_name s s' i : shape s s' -> name_at s' i = name_at s i.
Proof.
  intros S. apply shape_core with (i := i) in S. unfold core_at, name_at in *.
  destruct (znth (s_db s') i), (znth (s_db s) i); cbn in S; try discriminate; [|reflexivity].
  unfold tcore in S. congruence.
Qed.
Lemma named_iff s i n : name_at s i = Some n <-> exists t, named s i n t.
Proof.
  unfold name_at, named. destruct (znth (s_db s) i) as [t|].
  - split; [intros H; exists t; auto | intros [u [H1 H2]]; congruence].
  - split; [discriminate | intros [u [H1 H2]]; discriminate].
Qed.

(** ** deleting *)
Lemma tag_del_effect E i s s' r : tag_del E i s = Done (s', r) ->
  (r < 0 /\ s' = s) \/
  (r = 0 /\ (exists t nm, znth (s_db s) i = Some t /\ t_name t = Some nm /\ t_data t <> DNull) /\
   (exists t', znth (s_db s') i = Some t' /\ t_name t' = None /\ t_data t' = DNull) /\
   (forall j, j <> i -> core_at s' j = core_at s j) /\
   (forall j, j <> i -> j <> IX_DELETED -> j <> IX_TAGCOUNT -> znth (s_db s') j = znth (s_db s) j) /\
   zlen (s_db s') = zlen (s_db s) /\ s_types s' = s_types s /\ s_mods s' = s_mods s).
Proof.
  intros H. apply tag_del_cases in H.
  destruct H as [r Hr | t nm o ix s1 s3 s' t1 v u Ht Hn Hd Ho Hix Hs1 Hw Ht1 Hw2]; [left; auto|].
  right. split; [reflexivity|]. split; [eauto|].
  assert (Sh := tag_write_shape _ _ _ _ _ _ _ _ Hw). assert (Sh2 := sys_write_shape _ _ _ _ _ _ Hw2).
  assert (R := znth_range _ _ _ Ht1).
  assert (L1 : zlen (s_db s1) = zlen (s_db s)) by (subst s1; cbn; apply zset_zlen).
  split.
  { set (s4 := set_tagcount _ _) in *. assert (Z4 : znth (s_db s4) i = Some (dead_tag t1)) by (cbn; apply znth_zset_eq; exact R).
    destruct (shape_tag _ _ _ _ Sh2 Z4) as [t' [Z' T']]. exists t'. split; [exact Z'|].
    destruct T' as [_ _ A _ B _]. cbn in A, B. rewrite A. split; [reflexivity|]. destruct (t_data t'); cbn in B; tauto. }
  assert (M1 : forall j, j <> i -> znth (s_db s1) j = znth (s_db s) j).
  { intros j Hj. subst s1. cbn. apply znth_zset_ne. congruence. }
  split.
  { intros j Hj. rewrite (shape_core _ _ j Sh2). unfold core_at at 1. cbn. rewrite znth_zset_ne by congruence.
    fold (core_at s3 j). rewrite (shape_core _ _ j Sh). unfold core_at. rewrite M1 by assumption. reflexivity. }
  split.
  { intros j H1 H2 H3. rewrite (sys_write_others _ _ _ _ _ _ Hw2) by assumption. cbn. rewrite znth_zset_ne by congruence.
    rewrite (tag_write_others _ _ _ _ _ _ _ _ Hw) by assumption. apply M1; assumption. }
  split; [rewrite (sh_len _ _ Sh2); cbn; rewrite zset_zlen, (sh_len _ _ Sh); exact L1|].
  split; [rewrite (sh_types _ _ Sh2); cbn; rewrite (sh_types _ _ Sh); subst s1; reflexivity|].
  assert (M : forall x y, shape x y -> True) by auto. clear M.
  assert (K : forall fd k off d x y r, tag_write E fd k off d x = Done (y, r) -> s_mods y = s_mods x).
  { intros fd k off d x y r0 H. apply tag_write_cases in H. destruct H; reflexivity. }
  assert (K2 : s_mods s' = s_mods s3).
  { unfold sys_write in Hw2. inv1 Hw2; [|injection Hw2 as <-; reflexivity]. destruct (t_data t0) eqn:D; try (injection Hw2 as <-; reflexivity).
    all: match type of Hw2 with match ?c with _ => _ end = _ => destruct c as [[y r0]|] eqn:C; [|discriminate] end;
         injection Hw2 as <-; apply K in C; exact C. }
  rewrite K2. apply K in Hw. rewrite Hw. subst s1. reflexivity.
Qed.
