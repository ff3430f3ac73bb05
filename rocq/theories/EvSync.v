(** * EvSync: a change event always remembers the bytes it watches *)
From Verif Require Import Base Const Types State Events Atomic Server Lib SearchProofs Shape Inv Reach Spec Frame Effects Out DataFrame WRel ModInv IdInv Prop_Tags Prop_Data EvSpec EvLoops.

Lemma watched_znth e b k : placed e b -> 0 <= k -> znth (watched e b) k = if k <? e_size e then znth b (e_byte e + k) else None.
Proof.
  intros (A & B & C & D) K. unfold watched. destruct (Z.ltb_spec k (e_size e)); [apply znth_slice; lia|].
  apply znth_none. right. rewrite zlen_slice; [assumption|]. apply in_bounds_iff. lia.
Qed.
Lemma oz_dec (a b : option Z) : {a = b} + {a <> b}.
Proof. decide equality. apply Z.eq_dec. Defined.
Lemma hit_change E e b b' off n test h : change_event e -> placed e b -> zlen b' = zlen b -> in_bounds off n (zlen b) = true -> off + n <= 2147483647 ->
  (forall k, 0 <= k -> ~ off <= k < off + n -> znth b' k = znth b k) -> saw e b ->
  event_hit E e b' off n = Done (test, h) -> test = watched e b' /\ (h = true <-> watched e b' <> watched e b).
Proof.
  intros [T1 T2] P L B F O S H. assert (P' : placed e b') by (unfold placed in *; rewrite L; exact P).
  destruct P as (A1 & A2 & A3 & A4). apply in_bounds_iff in B. unfold event_hit in H. rewrite T1 in H. cbn [Z.eqb EV_CHANGE EV_WRITE Pos.eqb] in H.
  replace (e_dtype e =? T_BOOL) with false in H by lia.
  assert (Ol : ov_len (e_byte e) (e_size e) off n = Z.min (e_byte e + e_size e) (off + n) - Z.max off (e_byte e)).
  { unfold ov_len, u32. rewrite !Z.mod_small by lia. apply s32_small. lia. }
  rewrite Ol in H. apply change_loop_spec in H; [|lia|lia]. destruct H as (Q1 & Q2 & Q3).
  set (pt := Z.max 0 (off - e_byte e)) in *. set (pd := Z.max off (e_byte e)) in *. set (len := Z.of_nat (Z.to_nat (Z.min (e_byte e + e_size e) (off + n) - pd))) in *.
  assert (Pd : pd = e_byte e + pt) by lia.
  assert (Pb : placed e b) by (unfold placed; auto).
  split.
  - apply znth_ext. intros k K. rewrite Q2, watched_znth by assumption. destruct ((pt <=? k) && (k <? pt + len)) eqn:R.
    + replace (k <? e_size e) with true by lia. f_equal. lia.
    + rewrite S, watched_znth by assumption. destruct (Z.ltb_spec k (e_size e)); [|reflexivity]. symmetry. apply O; lia.
  - rewrite Q3. split.
    + intros [Q|(k & K1 & K2)]; [discriminate|]. intros Eq. apply K2. rewrite S, <- Eq, watched_znth by (assumption || lia).
      replace (pt + k <? e_size e) with true by lia. f_equal. lia.
    + intros Ne. right. destruct (list_eq_dec Z.eq_dec (slice pt len (e_test e)) (slice pd len b')) as [Eq|D].
      * exfalso. apply Ne. apply znth_ext. intros k K. rewrite !watched_znth by assumption. destruct (Z.ltb_spec k (e_size e)); [|reflexivity].
        destruct ((pt <=? k) && (k <? pt + len)) eqn:R; [|apply O; lia].
        apply (f_equal (fun l => znth l (k - pt))) in Eq. rewrite !znth_slice in Eq by lia. rewrite S in Eq.
        replace (pt + (k - pt)) with k in Eq by lia. rewrite watched_znth in Eq by assumption. replace (k <? e_size e) with true in Eq by lia.
        rewrite Eq. f_equal. lia.
      * destruct (Forall_Exists_dec (fun k => znth (e_test e) (pt + k) = znth b' (pd + k)) (fun k => oz_dec _ _) (map Z.of_nat (seq 0 (Z.to_nat len)))) as [Fa|Ex].
        -- exfalso. apply D. apply znth_ext. intros k K. destruct (Z_lt_le_dec k len).
           ++ rewrite !znth_slice by lia. rewrite Forall_forall in Fa. apply Fa. apply in_map_iff. exists (Z.to_nat k). split; [lia|]. apply in_seq. lia.
           ++ unfold slice. rewrite !(proj2 (znth_none _ _)); [reflexivity | |]; right; rewrite zlen_firstn; lia.
        -- apply Exists_exists in Ex as (k & K1 & K2). apply in_map_iff in K1 as (j & <- & K1). apply in_seq in K1. exists (Z.of_nat j). split; [lia | exact K2].
Qed.
Lemma not_meet_watched e b b' off n : placed e b -> zlen b' = zlen b ->
  (forall k, 0 <= k -> ~ off <= k < off + n -> znth b' k = znth b k) -> ~ meet off n (e_byte e) (e_size e) -> watched e b' = watched e b.
Proof.
  intros P L O M. assert (P' : placed e b') by (unfold placed in *; rewrite L; exact P).
  apply znth_ext. intros k K. rewrite !watched_znth by assumption. destruct (Z.ltb_spec k (e_size e)); [|reflexivity].
  destruct P as (A1 & _). apply O; [lia|]. intros R. apply M. exists (e_byte e + k). split; lia.
Qed.

(** ** one change of the server *)
(** the remembered area has the size of the watched range *)
Definition regular (e : event) : Prop := zlen (e_test e) = e_size e.
Definition good (e : event) (b : list Z) : Prop := change_event e -> placed e b -> regular e -> saw e b.
Definition same_ev (e e' : event) : Prop := set_opts (stat e') 0 = set_opts (stat e) 0.
Definition came (s : server) (i : Z) (e' : event) (b' : list Z) : Prop :=
  good e' b' \/ exists t b e, znth (s_db s) i = Some t /\ t_data t = DBytes b /\ In e (t_events t) /\ zlen b = zlen b' /\ same_ev e e' /\ (good e b -> good e' b').
Definition tr (i : Z) (s s' : server) : Prop :=
  forall t' b' e', znth (s_db s') i = Some t' -> t_data t' = DBytes b' -> In e' (t_events t') -> came s i e' b'.
Lemma same_ev_trans a b c : same_ev a b -> same_ev b c -> same_ev a c.
Proof. unfold same_ev. congruence. Qed.
Lemma tr_refl i s : tr i s s.
Proof. intros t b e A B C. right. exists t, b, e. unfold same_ev. auto 8. Qed.
Lemma tr_trans i a b c : tr i a b -> tr i b c -> tr i a c.
Proof.
  intros H1 H2 t b2 e A B C. destruct (H2 _ _ _ A B C) as [G|(t1 & b1 & e1 & A1 & B1 & C1 & L1 & S1 & G1)]; [left; exact G|].
  destruct (H1 _ _ _ A1 B1 C1) as [G|(t0 & b0 & e0 & A0 & B0 & C0 & L0 & S0 & G0)]; [left; auto|].
  right. exists t0, b0, e0. repeat (split; [first [assumption | congruence | eapply same_ev_trans; eassumption]|]). auto.
Qed.
Lemma tr_same i s s' : s_db s' = s_db s -> tr i s s'.
Proof. intros H t b e A B C. rewrite H in A. apply (tr_refl i s t b e A B C). Qed.
Lemma tr_set_tag i j s t t' : znth (s_db s) j = Some t ->
  (i = j -> forall b' e', t_data t' = DBytes b' -> In e' (t_events t') -> came s i e' b') -> tr i s (set_tag s j t').
Proof.
  intros Ht H u b e A B C. cbn in A. rewrite znth_zset in A. destruct ((j =? i) && (0 <=? j) && (j <? zlen (s_db s))) eqn:Q.
  - injection A as <-. apply H; [lia | assumption | assumption].
  - apply (tr_refl i s u b e A B C).
Qed.
Lemma came_keep s i t e b : znth (s_db s) i = Some t -> t_data t = DBytes b -> In e (t_events t) -> came s i e b.
Proof. intros A B C. right. exists t, b, e. unfold same_ev. auto 8. Qed.
Lemma tr_set_plain i j s t t' : znth (s_db s) j = Some t -> t_data t' = t_data t -> t_events t' = t_events t -> tr i s (set_tag s j t').
Proof.
  intros Ht D E. eapply tr_set_tag; [exact Ht|]. intros -> b e B C. eapply came_keep; [exact Ht | congruence | congruence].
Qed.
Lemma check_events_in E mods i b off n evs evs' o e' : check_events E mods i b off n evs = Done (evs', o) -> In e' evs' ->
  exists e, In e evs /\ ((ev_overlap e off n = false /\ e' = e) \/ (ev_overlap e off n = true /\ exists test hit, event_hit E e b off n = Done (test, hit) /\ e' = set_test e test)).
Proof.
  revert evs' o; induction evs as [|x evs IH]; intros evs' o H I; cbn [check_events] in H; [injection H as <- _; destruct I|].
  destruct (ev_overlap x off n) eqn:Ov.
  - apply rbind_done in H as [[t' h] [H1 H]]. apply rbind_done in H as [z [H2 H]]. apply rbind_done in H as [[y1 y2] [H3 H]].
    injection H as <- _. destruct I as [<-|I]; [exists x; split; [left; reflexivity|]; right; eauto 8|].
    destruct (IH _ _ H3 I) as (e & A & B). exists e. split; [right; exact A | exact B].
  - apply rbind_done in H as [[y1 y2] [H3 H]]. injection H as <- _. destruct I as [<-|I]; [exists x; split; [left; reflexivity | auto]|].
    destruct (IH _ _ H3 I) as (e & A & B). exists e. split; [right; exact A | exact B].
Qed.
Lemma hit_change_len E e b off n test h : change_event e -> 0 <= off -> event_hit E e b off n = Done (test, h) -> zlen test = zlen (e_test e).
Proof.
  intros [T1 T2] O H. unfold event_hit in H. rewrite T1 in H. cbn [Z.eqb EV_CHANGE EV_WRITE Pos.eqb] in H.
  replace (e_dtype e =? T_BOOL) with false in H by lia. apply change_loop_spec in H; [|lia|lia]. apply H.
Qed.
Lemma checked_came E s i t b b' off n evs o e' : znth (s_db s) i = Some t -> t_data t = DBytes b ->
  check_events E (s_mods s) i b' off n (t_events t) = Done (evs, o) -> zlen b' = zlen b -> in_bounds off n (zlen b) = true -> off + n <= 2147483647 ->
  (forall k, 0 <= k -> ~ off <= k < off + n -> znth b' k = znth b k) -> In e' evs -> came s i e' b'.
Proof.
  intros Ht D C L B F O I. destruct (check_events_in _ _ _ _ _ _ _ _ _ _ C I) as (e & A & Q). right. exists t, b, e.
  split; [exact Ht|]. split; [exact D|]. split; [exact A|]. split; [congruence|].
  split; [unfold same_ev; destruct Q as [[_ ->]|(_ & test & hit & _ & ->)]; reflexivity|].
  intros G Ty P R. apply in_bounds_iff in B as B'. destruct Q as [[Ov ->]|(_ & test & hit & Hh & ->)].
  - assert (P' : placed e b) by (unfold placed in *; rewrite <- L; exact P). unfold saw. rewrite G by assumption. symmetry. eapply not_meet_watched; [exact P' | exact L | exact O|].
    intros (k & K1 & K2). destruct P as (P1 & P2 & P3 & P4). unfold ev_overlap, u32 in Ov. rewrite !Z.mod_small in Ov by lia. lia.
  - assert (P' : placed e b) by (unfold placed in *; rewrite <- L; exact P). assert (Ty' : change_event e) by exact Ty.
    assert (Z := hit_change_len _ _ _ _ _ _ _ Ty' (proj1 B') Hh). unfold regular in R. cbn in R.
    assert (S : saw e b) by (apply G; [exact Ty' | exact P' | unfold regular; congruence]).
    destruct (hit_change _ _ _ _ _ _ _ _ Ty' P' L B F O S Hh) as [-> _]. reflexivity.
Qed.
Lemma committed_tr i s j t b evs o r : tr i s (set_tag s j (set_events (set_data t (DBytes b)) evs)) -> tr i s (committed s j t b evs o r).
Proof. intros H. eapply tr_trans; [exact H | apply tr_same; reflexivity]. Qed.
Lemma tag_write_tr i E fd j off d : pres (tr i) (tag_write E fd j off d).
Proof.
  intros s s' a H. apply tag_write_cases in H. destruct H as [r Hr | t q q' evs o Ht V D Ho Hl Hq Hc | t b evs o r Ht V D F B Sp Hc Hr].
  - apply tr_refl.
  - eapply tr_trans with (b := set_tag s j (set_events (set_data t (DQueue q')) evs)); [|apply tr_same; reflexivity].
    eapply tr_set_tag; [exact Ht|]. intros _ b e Q. discriminate.
  - apply committed_tr. eapply tr_set_tag; [exact Ht|]. intros -> b' e' Q1 Q2. cbn in Q1, Q2. injection Q1 as <-. eapply checked_came; try eassumption.
    + apply zlen_splice; assumption.
    + unfold fits32 in F. lia.
    + intros k K1 K2. rewrite znth_splice by assumption. replace ((off <=? k) && (k <? off + zlen d)) with false by lia. reflexivity.
Qed.
Lemma tag_mask_write_tr i E fd j off d m : pres (tr i) (tag_mask_write E fd j off d m).
Proof.
  intros s s' a H. apply tag_mask_write_cases in H. destruct H as [r Hr | t b evs o r Ht V D F B Lm Sp Hc Hr].
  - apply tr_refl.
  - assert (Zl : zlen (mix (slice off (zlen d) b) d m) = zlen d) by (assert (Zs := zlen_slice _ _ _ B); rewrite zlen_mix; lia).
    apply committed_tr. eapply tr_set_tag; [exact Ht|]. intros -> b' e' Q1 Q2. cbn in Q1, Q2. injection Q1 as <-. eapply checked_came; try eassumption.
    + apply zlen_splice; rewrite Zl; assumption.
    + unfold fits32 in F. lia.
    + intros k K1 K2. rewrite znth_splice by (rewrite ?Zl; assumption). rewrite Zl. replace ((off <=? k) && (k <? off + zlen d)) with false by lia. reflexivity.
Qed.
Lemma sys_write_tr i E j d : pres (tr i) (sys_write E j d).
Proof. intros s s' a H. unfold sys_write in H. inv_all; try apply tr_refl; eapply tag_write_tr; eassumption. Qed.
Lemma tag_read_tr i E fd j off n c : pres (tr i) (tag_read E fd j off n c).
Proof. intros s s' a H. unfold tag_read in H. inv_all; try apply tr_refl. eapply tr_set_tag; [eassumption|]. intros _ b e Q. discriminate. Qed.
Lemma map_del_tr i a b : pres (tr i) (map_del a b).
Proof. intros s s' r H. unfold map_del in H. inv_all; try apply tr_refl; (eapply tr_set_plain; [eassumption | reflexivity | reflexivity]). Qed.
Create HintDb tr.
#[export] Hint Resolve tag_write_tr tag_mask_write_tr sys_write_tr tag_read_tr map_del_tr : tr.
Ltac tr_step :=
  match goal with
  | |- tr _ ?s ?s => apply tr_refl
  | |- tr ?i _ (set_out ?Y _) => apply (tr_trans i _ Y); [| apply tr_same; reflexivity]
  | |- tr ?i _ (set_ret ?Y _) => apply (tr_trans i _ Y); [| apply tr_same; reflexivity]
  | |- tr ?i _ (set_ovi ?Y _) => apply (tr_trans i _ Y); [| apply tr_same; reflexivity]
  | |- tr ?i _ (set_ovs ?Y _) => apply (tr_trans i _ Y); [| apply tr_same; reflexivity]
  | |- tr ?i _ (upd_mod _ _ ?Y) => apply (tr_trans i _ Y); [| apply tr_same; reflexivity]
  | H : ?m ?Y = Done (?X, _) |- tr ?i _ ?X =>
      eapply (tr_trans i _ Y); [| let P := fresh in assert (P : pres (tr i) m) by (auto with tr); exact (P _ _ _ H)]
  | H : znth (s_db ?Y) ?j = Some ?t |- tr ?i _ (set_tag ?Y ?j ?t') =>
      apply (tr_trans i _ Y); [| apply (tr_set_plain i j Y t t'); [exact H | reflexivity | reflexivity]]
  | |- tr _ _ (set_tag (set_tag _ ?i _) ?i _) => rewrite set_tag_set_tag
  end.
Ltac trs := repeat tr_step.
Ltac tr_tac := let s := fresh "s" in let s' := fresh "s'" in let a := fresh "a" in let H := fresh "H" in
  intros s s' a H; inv_all; trs.
Lemma map_fire_tr i E m : pres (tr i) (map_fire E m).
Proof. unfold map_fire. tr_tac. Qed.
#[export] Hint Resolve map_fire_tr : tr.
Lemma map_loop_tr i E l o w : pres (tr i) (map_loop E l o w).
Proof. induction l; cbn [map_loop]; tr_tac. Qed.
#[export] Hint Resolve map_loop_tr : tr.
Lemma map_check_tr i E j o w : pres (tr i) (map_check E j o w).
Proof. unfold map_check. tr_tac. Qed.
Lemma group_read_loop_tr i E hs o b : pres (tr i) (group_read_loop E hs o b).
Proof. revert o b; induction hs; intros o b; cbn [group_read_loop]; tr_tac. Qed.
Lemma group_write_loop_tr i E hs o b : pres (tr i) (group_write_loop E hs o b).
Proof. revert o; induction hs; intros o; cbn [group_write_loop]; tr_tac. Qed.
#[export] Hint Resolve map_check_tr group_read_loop_tr group_write_loop_tr : tr.
Lemma group_read_tr i E m g : pres (tr i) (group_read E m g).
Proof. unfold group_read. tr_tac. Qed.
Lemma group_write_tr i E m g p : pres (tr i) (group_write E m g p).
Proof. unfold group_write. tr_tac. Qed.
Lemma override_get_tr i a b c : pres (tr i) (override_get a b c).
Proof. unfold override_get. tr_tac. Qed.
Lemma respond_tr i a b c : pres (tr i) (respond a b c).
Proof. unfold respond. tr_tac. Qed.
Lemma reply_err_tr i a b c : pres (tr i) (reply_err a b c).
Proof. unfold reply_err. tr_tac. Qed.
#[export] Hint Resolve group_read_tr group_write_tr override_get_tr respond_tr reply_err_tr : tr.
Lemma reply_int_tr i a b c : pres (tr i) (reply_int a b c).
Proof. unfold reply_int. tr_tac. Qed.
Lemma reply_status_tr i a b c : pres (tr i) (reply_status a b c).
Proof. unfold reply_status. tr_tac. Qed.
#[export] Hint Resolve reply_int_tr reply_status_tr : tr.
Lemma h_tag_get_tr i E fd r : pres (tr i) (h_tag_get E fd r).
Proof. unfold h_tag_get. tr_tac. Qed.
Lemma h_read_tr i E a b c d : pres (tr i) (h_read E a b c d).
Proof. unfold h_read. tr_tac. Qed.
Lemma h_write_tr i E a b c d : pres (tr i) (h_write E a b c d).
Proof. unfold h_write. tr_tac. Qed.
Lemma h_mask_tr i E a b c d m : pres (tr i) (h_mask E a b c d m).
Proof. unfold h_mask. tr_tac. Qed.
Lemma h_cdt_get_tr i a b : pres (tr i) (h_cdt_get a b).
Proof. unfold h_cdt_get. tr_tac. Qed.
#[export] Hint Resolve h_tag_get_tr h_read_tr h_write_tr h_mask_tr h_cdt_get_tr : tr.
Lemma atomic_op_tr i E h o d : h_index h <> i -> pres (tr i) (atomic_op E h o d).
Proof.
  intros Ne s s' a H. unfold atomic_op in H. inv_all; trs.
  match goal with C : commit _ _ _ _ _ _ _ = Done _ |- _ => destruct (commit_spec _ _ _ _ _ _ _ _ _ C) as (evs & o1 & r & _ & -> & _) end.
  apply committed_tr. eapply tr_set_tag; [eassumption|]. congruence.
Qed.
Lemma h_atomic_tr i E a h c d : h_index h <> i -> pres (tr i) (h_atomic E a h c d).
Proof.
  intros Ne s s' u H. unfold h_atomic in H. inv1 H. inv1 H. inv1 H. eapply tr_trans with (b := s0).
  - clear H. destruct (_ && _); [inv_all; apply tr_refl|]. eapply atomic_op_tr; eassumption.
  - clear Hm. inv_all; trs.
Qed.

(** ** requests that change the tag table; growing a tag may bring a range back that had been cut off *)
Definition grown (s : server) (i : Z) (e' : event) (b' : list Z) : Prop :=
  good e' b' \/ exists t b e, znth (s_db s) i = Some t /\ t_data t = DBytes b /\ In e (t_events t) /\ same_ev e e' /\ (placed e b -> good e b -> good e' b').
Definition trw (i : Z) (s s' : server) : Prop :=
  forall t' b' e', znth (s_db s') i = Some t' -> t_data t' = DBytes b' -> In e' (t_events t') -> grown s i e' b'.
Lemma tr_trw i s s' : tr i s s' -> trw i s s'.
Proof. intros H t b e A B C. destruct (H _ _ _ A B C) as [G|(t1 & b1 & e1 & A1 & B1 & C1 & L1 & S1 & G1)]; [left; exact G|]. right. exists t1, b1, e1. auto 8. Qed.
Lemma trw_tr i a b c : trw i a b -> tr i b c -> trw i a c.
Proof.
  intros H1 H2 t b2 e A B C. destruct (H2 _ _ _ A B C) as [G|(t1 & b1 & e1 & A1 & B1 & C1 & L1 & S1 & G1)]; [left; exact G|].
  destruct (H1 _ _ _ A1 B1 C1) as [G|(t0 & b0 & e0 & A0 & B0 & C0 & S0 & G0)]; [left; auto|].
  right. exists t0, b0, e0. repeat (split; [first [assumption | eapply same_ev_trans; eassumption]|]). auto.
Qed.
Lemma set_attribute_tr i E j a : pres (tr i) (set_attribute E j a).
Proof. intros s s' u H. destruct (set_attribute_spec _ _ _ _ _ _ H) as (t & r & f & x & Ht & _ & ->). trs. Qed.
#[export] Hint Resolve set_attribute_tr : tr.
Lemma znth_firstn_app {A} (b j : list A) n k : 0 <= k -> k < zlen b -> k < n -> znth (firstn (Z.to_nat n) b ++ j) k = znth b k.
Proof. intros A1 A2 A3. rewrite znth_app1 by (rewrite zlen_firstn; lia). apply znth_firstn. exact A3. Qed.
Lemma regrow_good E st b size d b' e e' : regrow E st (DBytes b) size = (d, true) -> d = DBytes b' -> e' = e -> placed e b -> good e b -> good e' b'.
Proof.
  unfold regrow. destruct (Z.eqb_spec size 0); [discriminate|]. intros Q ->  -> P G Ty P' R. injection Q as <-. unfold saw. rewrite G by assumption.
  apply znth_ext. intros k K. rewrite !watched_znth by assumption. destruct (Z.ltb_spec k (e_size e)); [|reflexivity]. symmetry.
  destruct P as (A1 & A2 & A3 & A4), P' as (B1 & B2 & B3 & B4). rewrite zlen_app, zlen_firstn in B3.
  assert (J := zlen_jbytes E st 100 (size - zlen b)).
  rewrite J in B3. assert (0 <= zlen b) by apply zlen_nonneg. apply znth_firstn_app; lia.
Qed.
Lemma tag_add_trw i E fd nm type count attr s s' r : Inv s -> 0 <= count -> tag_add E fd nm type count attr s = Done (s', r) -> tr i s s' \/ (1 < count /\ trw i s s').
Proof.
  intros I Hc H. apply tag_add_cases in H; [|exact I | lia].
  assert (D : forall s0, (s0 = s \/ exists z, s0 = set_dbsize s z) -> tr i s s0).
  { intros s0 [->|[z ->]]; [apply tr_refl | apply tr_same; reflexivity]. }
  destruct H as [s' r Hr S1 | n t s0 s' u S1 Ht Hnm Hty Hct How Hsa
    | n t s0 d size s1 s' u v S1 Ht Hnm Hty Hct How Hns Hrg Hsa Htw
    | n t s0 d S1 Ht Hnm Hty Hct Hrg Hns
    | s0 s1 s3 s4 s' ix size u v w x S1 Hno Hck Hvn Hcp Hns Hix Hw1 Hw2 Hsa Hw3].
  - left. apply D; exact S1.
  - left. eapply tr_trans; [apply D; exact S1 | eapply set_attribute_tr; exact Hsa].
  - destruct (set_dbsize_db _ _ S1) as (Edb & _). assert (Ct := it_count _ _ (iv_tags _ I _ _ Ht)). right. split; [lia|].
    eapply trw_tr; [|eapply tag_write_tr; exact Htw]. eapply trw_tr; [|eapply set_attribute_tr; exact Hsa].
    intros t' b' e' A B C. cbn in A. rewrite Edb, znth_zset in A. destruct ((n =? i) && (0 <=? n) && (n <? zlen (s_db s))) eqn:Q.
    + injection A as <-. cbn in B, C. assert (n = i) by lia. subst n.
      destruct (t_data t) as [|b| | | |] eqn:Dt; try (unfold regrow in Hrg; destruct (size =? 0); [discriminate|]; inversion Hrg; subst d; discriminate).
      * right. exists t, b, e'. repeat (split; [first [assumption | reflexivity]|]). intros P G. eapply regrow_good; [exact Hrg | exact B | reflexivity | exact P | exact G].
      * unfold regrow in Hrg. destruct (size =? 0); [discriminate|]. destruct (size <? 24); inversion Hrg; subst d; discriminate.
    + exact (tr_trw _ _ _ (tr_refl i s) _ _ _ A B C).
  - destruct (set_dbsize_db _ _ S1) as (Edb & _). rewrite <- Edb in Ht. left. eapply tr_trans; [apply D; exact S1|].
    eapply tr_set_tag; [exact Ht|]. intros _ b e B _. cbn in B. unfold regrow in Hrg. rewrite Z.eqb_refl in Hrg. inversion Hrg. subst d. discriminate.
  - left. eapply tr_trans; [apply D; exact S1|].
    eapply tr_trans; [eapply sys_write_tr; exact Hw1|].
    eapply tr_trans; [|eapply tag_write_tr; exact Hw3].
    eapply tr_trans; [|eapply set_attribute_tr; exact Hsa].
    eapply tr_trans; [|eapply sys_write_tr; exact Hw2].
    intros t' b' e' A B C. cbn in A. assert (Q := znth_range _ _ _ A). rewrite zlen_app in Q. unfold zlen in Q at 2. cbn in Q.
    destruct (Z_lt_le_dec i (zlen (s_db s1))) as [L|L].
    + rewrite znth_app1 in A by exact L. eapply came_keep; eassumption.
    + assert (i = zlen (s_db s1)) by lia. subst i. rewrite znth_last in A. injection A as <-. destruct C.
Qed.
Lemma tag_del_tr i E j : pres (tr i) (tag_del E j).
Proof.
  intros s s' r H. apply tag_del_cases in H. destruct H as [r Hr | t nm o ix s1 s3 s' t1 v u Ht Hn Hd Ho Hix Hs1 Hw Ht1 Hw2]; [apply tr_refl|].
  eapply tr_trans; [|eapply sys_write_tr; exact Hw2].
  eapply tr_trans with (b := s3).
  2:{ eapply tr_trans with (b := set_tag s3 j (dead_tag t1)); [|apply tr_same; reflexivity]. eapply tr_set_tag; [exact Ht1|]. intros _ b e Q. discriminate. }
  eapply tr_trans; [|eapply tag_write_tr; exact Hw]. subst s1.
  eapply tr_trans with (b := set_tag (set_out s (s_out s ++ o)) j (set_maps (set_events t []) (Some []))); [|apply tr_same; reflexivity].
  eapply tr_trans with (b := set_out s (s_out s ++ o)); [apply tr_same; reflexivity|].
  eapply tr_set_tag; [exact Ht|]. intros _ b e _ [].
Qed.
Lemma event_add_tr i E h ty ud m : pres (tr i) (event_add E h ty ud m).
Proof.
  intros s s' r H. unfold event_add in H. inv1 H. destruct (znth (s_db s) (h_index h)) as [t|] eqn:Ht; [|inv_all; apply tr_refl].
  destruct (_ && _); [inv_all; apply tr_refl|]. destruct (is_queue (t_type t)); [inv_all; apply tr_refl|].
  inv1 H. destruct (_ <? _); [inv_all; apply tr_refl|]. destruct (negb _); [inv_all; apply tr_refl|]. inv1 H. inv1 H. inv1 H.
  apply ret_done in H as [-> _]. tr_step. eapply tr_set_tag; [exact Ht|]. intros -> b e B C. cbn in B, C.
  destruct C as [<-|C]; [left | eapply came_keep; eassumption].
  intros [T1 T2] P R. cbn in T1, T2. unfold regular in R. cbn [e_test e_size] in R. destruct P as (P1 & P2 & P3 & P4). cbn [e_byte e_size] in P1, P2, P3, P4.
  unfold saw, watched. cbn [e_test e_byte e_size]. subst ty. rewrite B in *.
  unfold set_event_data in Hr0. rewrite Z.eqb_refl in Hr0. replace (h_type h =? T_BOOL) with false in Hr0 by lia.
  apply rbind_done in Hr0 as [sz [Hs Hr0]]. destruct (negb (fits32 _)); [discriminate|]. apply rbind_done in Hr0 as [x [Hx Hr0]]. injection Hr0 as <-.
  cbn [snd] in *. set (n := sz * s32 (h_count h)) in *. destruct (n <? 0) eqn:N0; [discriminate|]. destruct (n =? 0) eqn:N1.
  - injection Hx as <-. cbn in R. unfold zlen in R. cbn in R. lia.
  - unfold rd in Hx. destruct (in_bounds _ _ _) eqn:Bd; [|discriminate]. injection Hx as <-. rewrite (zlen_slice _ _ _ Bd) in R. rewrite R. reflexivity.
Qed.
Lemma tr_events i j s t evs a : znth (s_db s) j = Some t -> (forall e', In e' evs -> exists e, In e (t_events t) /\ stat e' = set_opts (stat e) (e_opts e') /\ e_test e' = e_test e) ->
  tr i s (set_tag s j (set_attr (set_events t evs) a)).
Proof.
  intros Ht S. eapply tr_set_tag; [exact Ht|]. intros -> b e' B C. cbn in B, C. destruct (S _ C) as (e & E1 & E2 & E3). right. exists t, b, e.
  split; [exact Ht|]. split; [exact B|]. split; [exact E1|]. split; [reflexivity|]. split; [unfold same_ev; rewrite E2; reflexivity|].
  intros G Ty P R. assert (X1 := f_equal e_byte E2). assert (X2 := f_equal e_size E2). assert (X3 := f_equal e_etype E2). assert (X4 := f_equal e_dtype E2). cbn in X1, X2, X3, X4.
  unfold saw, watched, placed, change_event, regular in *. rewrite X1, X2 in *. rewrite X3, X4, E3 in *. apply G; assumption.
Qed.
Lemma event_del_tr i E j id mo : pres (tr i) (event_del E j id mo).
Proof.
  intros s s' r H. unfold event_del in H. inv1 H. destruct (znth (s_db s) j) as [t|] eqn:Ht; [|inv_all; apply tr_refl].
  assert (Fin : forall evs res, subl evs (t_events t) ->
    (put_tag j (set_attr (set_events t evs) (match evs with [] => clr_flag (t_attr t) A_EVENT | _ :: _ => t_attr t end)) ;;;
        match mo with
        | None => undef UNull
        | Some m => modify (upd_mod (m_uid m) (fun m => set_evcount m (m_evcount m - 1))) ;;; ret res
        end) s = Done (s', r) -> tr i s s').
  { intros evs res Sb Q. inv1 Q. destruct mo as [m|]; [|discriminate]. inv1 Q. apply ret_done in Q as [-> _]. tr_step.
    eapply tr_events; [exact Ht|]. intros e He. exists e. split; [eapply subl_in; eassumption|]. split; [destruct e; reflexivity | reflexivity]. }
  cbv zeta in H. destruct (t_events t) as [|e l] eqn:Ev; [inv_all; apply tr_refl|].
  destruct (e_id e =? id) eqn:Ei.
  - destruct (negb _) eqn:O; [inv_all; apply tr_refl|]. destruct (en_strict E); [discriminate|]. destruct (existsb _ l); [discriminate|].
    eapply Fin; [apply sub_drop, subl_refl | exact H].
  - destruct (find (fun x => e_id x =? id) l) as [x|] eqn:Fx.
    + destruct (negb _) eqn:O; [inv_all; apply tr_refl|]. eapply Fin; [apply sub_keep, remove_ev_subl | exact H].
    + eapply Fin; [apply subl_refl | exact H].
Qed.
Lemma upd_opts_in id o l e' : In e' (upd_opts id o l) -> exists e, In e l /\ stat e' = set_opts (stat e) (e_opts e') /\ e_test e' = e_test e.
Proof.
  induction l as [|x l IH]; cbn; [intros []|]. destruct (e_id x =? id); cbn; intros [<-|H].
  - exists x. split; [left; reflexivity|]. split; reflexivity.
  - exists e'. split; [right; exact H|]. split; [destruct e'; reflexivity | reflexivity].
  - exists x. split; [left; reflexivity|]. split; [destruct x; reflexivity | reflexivity].
  - destruct (IH H) as (e & A & B). exists e. split; [right; exact A | exact B].
Qed.
Lemma event_opt_tr i j id opts mo : pres (tr i) (event_opt j id opts mo).
Proof.
  intros s s' r H. unfold event_opt in H. inv1 H. destruct (znth (s_db s) j) as [t|] eqn:Ht; [|inv_all; apply tr_refl].
  destruct (find (fun x => e_id x =? id) (t_events t)) as [x|] eqn:Fx; [|inv_all; apply tr_refl].
  destruct (match mo with Some m => e_mod x =? m_uid m | None => false end) eqn:O; [|inv_all; apply tr_refl].
  inv1 H. apply ret_done in H as [-> _]. fold (upd_opts id opts) in *.
  replace (set_events t (upd_opts id opts (t_events t))) with (set_attr (set_events t (upd_opts id opts (t_events t))) (t_attr t)) by (destruct t; reflexivity).
  eapply tr_events; [exact Ht|]. intros e He. eapply upd_opts_in; exact He.
Qed.
#[export] Hint Resolve tag_del_tr event_add_tr event_del_tr event_opt_tr : tr.
Lemma cleanup_tag_tr i E n uid l : pres (tr i) (cleanup_tag E n uid l).
Proof. induction l as [|e l IH]; cbn [cleanup_tag]; tr_tac. Qed.
#[export] Hint Resolve cleanup_tag_tr : tr.
Lemma cleanup_loop_tr i E k uid : pres (tr i) (cleanup_loop E k uid).
Proof. induction k as [|k IH]; cbn [cleanup_loop]; tr_tac. Qed.
#[export] Hint Resolve cleanup_loop_tr : tr.
Lemma del_owned_loop_tr i E fd : forall k n, pres (tr i) (del_owned_loop E fd k n).
Proof. induction k as [|k IH]; intros n; cbn [del_owned_loop]; unfold del_owned; tr_tac. Qed.
#[export] Hint Resolve del_owned_loop_tr : tr.
Lemma module_unregister_tr i E fd : pres (tr i) (module_unregister E fd).
Proof.
  intros s s' u H. unfold module_unregister in H. inv1 H. destruct (find_mod s fd) as [m|] eqn:F; [|inv_all; apply tr_refl].
  inv1 H. inv1 H. inv1 H. inv1 H. unfold modify in H. injection H as <- _.
  eapply tr_trans; [eapply cleanup_loop_tr; exact Hm|]. eapply tr_trans; [eapply del_owned_loop_tr; exact Hm0|].
  eapply tr_trans; [eapply tag_del_tr; exact Hm1|]. apply tr_same; reflexivity.
Qed.
Lemma module_register_tr i E nm fd s s' u : Inv s -> module_register E nm fd s = Done (s', u) -> tr i s s'.
Proof.
  intros I H. unfold module_register in H. inv1 H. inv1 H. inv1 H. inv1 H.
  assert (G : Inv s0 /\ tr i s s0).
  { clear H. destruct (find_mod s fd) as [m|] eqn:F; [|inv_all; split; [exact I | apply tr_refl]].
    split; [eapply module_unregister_good; eassumption|]. eapply module_unregister_tr; exact Hm. }
  destruct G as (I0 & R0). eapply tr_trans; [exact R0|]. clear R0 Hm. set (s1 := set_nextuid _ _) in H.
  eapply tr_trans with (b := s1); [apply tr_same; reflexivity|].
  destruct (existsb (fun y => name_eqb y nm) (en_excl E)); [inv_all; apply tr_refl|].
  inv1 H. inv1 H. destruct v0 as [tn uuid]. inv1 H. inv1 H. inv1 H. destruct (v0 <? 0) eqn:Neg; [discriminate|].
  assert (I2 : Inv (set_moduuid s1 uuid)) by (destruct I0; constructor; assumption).
  eapply tr_trans with (b := set_moduuid s1 uuid); [apply tr_same; reflexivity|].
  eapply tr_trans with (b := s2). { apply (tag_add_trw i) in Hm; [|exact I2 | lia]. destruct Hm as [Q|[Q _]]; [exact Q | lia]. }
  inv1 H. inv1 H. inv1 H. inv1 H. inv1 H. inv1 H.
  eapply tr_trans with (b := upd_mod (s_nextuid s0) (fun m => set_tagidx m v0) s2); [apply tr_same; reflexivity|].
  eapply tr_trans; [eapply tag_write_tr; exact Hm0|].
  eapply tr_trans; [eapply tag_write_tr; exact Hm1|].
  apply bind_done in H as (s9 & v9 & H9 & H). apply ret_done in H as [-> _].
  eapply tr_trans; [|eapply tag_write_tr; exact H9]. tr_step. tr_step.
Qed.
Lemma map_add_tr i src dst : pres (tr i) (map_add src dst).
Proof. unfold map_add. tr_tac. Qed.
Lemma override_add_tr i E j off d m : pres (tr i) (override_add E j off d m).
Proof. unfold override_add. tr_tac. Qed.
Lemma override_del_tr i E j off m : pres (tr i) (override_del E j off m).
Proof. unfold override_del. tr_tac. Qed.
Lemma override_set_tr i E j f : pres (tr i) (override_set E j f).
Proof. unfold override_set. tr_tac. Qed.
#[export] Hint Resolve module_unregister_tr map_add_tr override_add_tr override_del_tr override_set_tr : tr.

(** a request that is not an atomic operation on tag [i] *)
Definition not_atomic (i : Z) (o : op) : Prop := match o with OpAtomic _ h _ _ => h_index h <> i | _ => True end.
Lemma handle_op_trw i E o s s' u : Inv s -> not_atomic i o -> handle_op E o s = Done (s', u) -> trw i s s'.
Proof.
  intros I Na H. destruct o; cbn [handle_op] in H.
  1:{ apply tr_trw. inv1 H. inv1 H. inv1 H. eapply tr_trans; [eapply module_register_tr; [exact I | exact Hm]|]. clear Hm I Na. trs. }
  all: try solve [apply tr_trw; unfold with_mod in H; first [match type of H with ?m _ = _ => let P := fresh in assert (P : pres (tr i) m) by (auto with tr); exact (P _ _ _ H) end | inv_all; trs]].
  - inv1 H. apply trw_tr with (b := s0); [|eapply reply_int_tr; exact H].
    destruct (nthb nm 0 =? 95); [clear H; inv_all; apply tr_trw, tr_refl|]. apply (tag_add_trw i) in Hm; [|exact I | unfold u32; apply Z.mod_pos_bound; lia].
    destruct Hm as [Q|[_ Q]]; [apply tr_trw; exact Q | exact Q].
  - apply tr_trw. unfold h_tag_del in H. inv1 H. inv1 H. inv1 H. eapply tr_trans with (b := s0); [|inv1 H; [eapply respond_tr | eapply reply_err_tr]; exact H]. clear H.
    destruct v as [[[[[a b] c] d] nm]|]; [|inv_all; apply tr_refl]. destruct (nthb nm 0 =? 95); [inv_all; apply tr_refl|].
    eapply tag_del_tr. exact Hm.
  - apply tr_trw. unfold h_cdt_create in H. inv1 H. inv1 H. destruct v as [[ts ty] err]. inv1 H.
    eapply tr_trans with (b := set_types s ts); [apply tr_same; reflexivity|]. inv1 H; [eapply reply_err_tr | eapply respond_tr]; eassumption.
  - apply tr_trw. unfold with_mod in H. inv1 H. destruct (find_mod s fd) as [m|]; [|discriminate]. inv1 H. eapply tr_trans; [|eapply reply_int_tr; exact H]. clear H.
    unfold group_add in Hm. destruct (_ <? _); [inv_all; apply tr_refl|]. destruct (group_slot _ _) as [[g sz] k]. inv_all; trs.
  - apply tr_trw. unfold with_mod in H. inv1 H. destruct (find_mod s fd) as [m|]; [|discriminate]. inv1 H. eapply tr_trans; [|eapply reply_int_tr; exact H]. clear H.
    unfold group_del in Hm. inv_all; trs.
  - apply tr_trw. eapply h_atomic_tr; [|exact H]. exact Na.
  - apply tr_trw. unfold modify in H. injection H as <- _. apply tr_same; reflexivity.
Qed.
Lemma step_trw i E o s s' : Inv s -> not_atomic i o -> step E s o = Done s' -> trw i s s'.
Proof.
  intros I Na H. unfold step in H. destruct (handle_op E o s) as [[s1 u]|] eqn:Q; [|discriminate]. injection H as <-.
  eapply trw_tr; [eapply handle_op_trw; eassumption | apply tr_same; reflexivity].
Qed.
