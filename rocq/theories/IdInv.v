(** * IdInv: event and mapping ids in all reachable states, and which requests remove events *)
From Verif Require Import Base Const Types State Events Atomic Server Lib SearchProofs Shape Inv Reach Spec Frame Effects Out DataFrame WRel ModInv.

(** ids in descending order, all below [n] *)
Fixpoint desc (l : list Z) (n : Z) : Prop := match l with [] => True | x :: r => x < n /\ desc r x end.
Lemma desc_le l n n' : desc l n -> n <= n' -> desc l n'.
Proof. destruct l; cbn; [auto|]. intros [A B] C. split; [lia | exact B]. Qed.
Lemma desc_lt l n x : desc l n -> In x l -> x < n.
Proof.
  revert n; induction l as [|y l IH]; cbn; intros n A H; [destruct H|]. destruct A as [A B]. destruct H as [<-|H]; [exact A|]. assert (Q := IH _ B H). lia.
Qed.
Lemma desc_subl l l' n : subl l' l -> desc l n -> desc l' n.
Proof.
  intros S. revert n; induction S; intros n H; cbn in *; [exact H | split; [apply H | apply IHS; apply H]|].
  apply IHS. eapply desc_le; [apply H | lia].
Qed.
Lemma desc_NoDup l n : desc l n -> NoDup l.
Proof.
  revert n; induction l as [|x l IH]; intros n H; cbn in *; [constructor|]. destruct H as [H1 H2]. constructor; [|eapply IH; exact H2].
  intros Q. assert (Z := desc_lt _ _ _ H2 Q). lia.
Qed.
Lemma subl_map {A B} (f : A -> B) a b : subl a b -> subl (map f a) (map f b).
Proof. induction 1; cbn; constructor; assumption. Qed.
Lemma NoDup_subl {A} (a b : list A) : subl a b -> NoDup b -> NoDup a.
Proof.
  induction 1; intros N; [constructor | |]; apply NoDup_cons_iff in N as [N1 N2]; [|auto].
  constructor; [|auto]. intros Q. apply N1. eapply subl_in; eassumption.
Qed.
Definition ends (m : dmap) : handle * handle := (m_src m, m_dst m).
(** the mask of a mapping is the one [map_add] computes *)
Definition mask_made (m : dmap) : Prop :=
  if h_type (m_src m) =? T_BOOL
  then exists x, m_mask m = Some x /\ mask_loop (Z.to_nat (h_count (m_src m))) (h_bit (m_dst m)) 0 (zeros (h_size (m_src m))) = Done x
  else m_mask m = None.
Definition wfmap (i nxt : Z) (l : list dmap) : Prop :=
  desc (map m_id l) nxt /\ NoDup (map ends l) /\ forall m, In m l -> h_index (m_src m) = i /\ mask_made m.
(** [U] bounds the module ids in use *)
Record wft (i U : Z) (t : tag) : Prop := {
  wf_ids : desc (map e_id (t_events t)) (t_nextev t);
  wf_mod : forall e, In e (t_events t) -> e_mod e < U;
  wf_maps : forall l, t_maps t = Some l -> wfmap i (t_nextmap t) l }.
Lemma wfmap_subl i n l l' : subl l' l -> wfmap i n l -> wfmap i n l'.
Proof.
  intros S (A & B & C). split; [eapply desc_subl; [apply subl_map; exact S | exact A]|].
  split; [eapply NoDup_subl; [apply subl_map; exact S | exact B]|]. intros m H. apply C. eapply subl_in; eassumption.
Qed.
Lemma wft_fresh i U t : t_events t = [] -> (t_maps t = Some [] \/ t_maps t = None) -> wft i U t.
Proof.
  intros E M. constructor; rewrite ?E; [exact Logic.I | intros e []|]. intros l H. destruct M as [M|M]; rewrite M in H; [|discriminate].
  injection H as <-. split; [exact Logic.I|]. split; [constructor | intros m []].
Qed.

(** what a change does to the events and mappings of one tag; [K] tells the owners (module ids) whose
    events it leaves alone *)
Record tev (K : Z -> Prop) (i U U' : Z) (t t' : tag) : Prop := {
  tv_ev : t_nextev t <= t_nextev t';
  tv_map : t_nextmap t <= t_nextmap t';
  tv_wf : wft i U t -> wft i U' t';
  tv_keep : forall e, In e (t_events t) -> K (e_mod e) -> exists e', In e' (t_events t') /\ stat e' = stat e }.
Record er (K : Z -> Z -> Prop) (s s' : server) : Prop := {
  er_len : zlen (s_db s) <= zlen (s_db s');
  er_uid : s_nextuid s <= s_nextuid s';
  er_tag : forall i t, znth (s_db s) i = Some t -> exists t', znth (s_db s') i = Some t' /\ tev (K i) i (s_nextuid s) (s_nextuid s') t t';
  er_new : forall i t', zlen (s_db s) <= i -> znth (s_db s') i = Some t' -> wft i (s_nextuid s') t' }.
Lemma stat_mod e e' : stat e' = stat e -> e_mod e' = e_mod e.
Proof. intros H. apply (f_equal e_mod) in H. exact H. Qed.
Lemma stat_id e e' : stat e' = stat e -> e_id e' = e_id e.
Proof. intros H. apply (f_equal e_id) in H. exact H. Qed.
Lemma wft_le i U U' t : U <= U' -> wft i U t -> wft i U' t.
Proof. intros L [A B C]. constructor; [exact A | | exact C]. intros e H. apply B in H. lia. Qed.
Lemma tev_refl K i U U' t : U <= U' -> tev K i U U' t t.
Proof. intros L. constructor; [lia | lia | apply wft_le; exact L | eauto]. Qed.
Lemma tev_trans K i U1 U2 U3 a b c : tev K i U1 U2 a b -> tev K i U2 U3 b c -> tev K i U1 U3 a c.
Proof.
  intros [A1 A2 A3 A4] [B1 B2 B3 B4]. constructor; [lia | lia | auto|].
  intros e H Ke. destruct (A4 _ H Ke) as (e1 & P1 & P2). destruct (B4 _ P1) as (e2 & Q1 & Q2); [rewrite (stat_mod _ _ P2); exact Ke|].
  exists e2. split; [exact Q1 | congruence].
Qed.
Lemma er_refl K s : er K s s.
Proof.
  constructor; [lia | lia | |].
  - intros i t H. exists t. split; [exact H | apply tev_refl; lia].
  - intros i t L H. apply znth_range in H. lia.
Qed.
Lemma er_trans K a b c : er K a b -> er K b c -> er K a c.
Proof.
  intros [A1 A2 A3 A4] [B1 B2 B3 B4]. constructor; [lia | lia | |].
  - intros i t H. destruct (A3 _ _ H) as (t1 & P & Q). destruct (B3 _ _ P) as (t2 & P2 & Q2). exists t2. split; [exact P2 | eapply tev_trans; eassumption].
  - intros i t L H. destruct (Z_lt_le_dec i (zlen (s_db b))).
    + destruct (znth_some (s_db b) i) as [t1 H1]; [apply znth_range in H; lia|]. destruct (B3 _ _ H1) as (t2 & P2 & Q2). assert (t2 = t) by congruence. subst t2.
      apply Q2. eapply A4; eassumption.
    + eapply B4; eassumption.
Qed.
Lemma er_same K s s' : s_db s' = s_db s -> s_nextuid s <= s_nextuid s' -> er K s s'.
Proof.
  intros A B. constructor; [rewrite A; lia | exact B | |].
  - intros i t H. exists t. rewrite A. split; [exact H | apply tev_refl; exact B].
  - intros i t L H. apply znth_range in H. rewrite A in H. lia.
Qed.
Lemma er_set_tag K s i t t' : znth (s_db s) i = Some t -> tev (K i) i (s_nextuid s) (s_nextuid s) t t' -> er K s (set_tag s i t').
Proof.
  intros Ht W. constructor; [cbn; rewrite zset_zlen; lia | cbn; lia | |].
  - intros j u Hu. cbn. rewrite znth_zset. destruct ((i =? j) && (0 <=? i) && (i <? zlen (s_db s))) eqn:B.
    + assert (i = j) by lia. subst j. assert (u = t) by congruence. subst u. exists t'. split; [reflexivity | exact W].
    + exists u. split; [exact Hu | apply tev_refl; lia].
  - intros j u L H. apply znth_range in H. cbn in H. rewrite zset_zlen in H. lia.
Qed.
Lemma tev_same K i U t t' : t_events t' = t_events t -> t_nextev t' = t_nextev t -> t_nextmap t' = t_nextmap t -> t_maps t' = t_maps t -> tev K i U U t t'.
Proof.
  intros A B C D. constructor; [lia | lia | |].
  - intros [P Q R]. constructor; rewrite ?A, ?B, ?C, ?D; assumption.
  - intros e H _. exists e. rewrite A. auto.
Qed.
Lemma tev_wtg K i U t t' : wtg t t' -> tev K i U U t t'.
Proof.
  intros W. assert (Ids : map e_id (t_events t') = map e_id (t_events t)).
  { assert (Q := f_equal (map e_id) (wg_events _ _ W)). rewrite !map_map in Q. exact Q. }
  constructor; [rewrite (wg_nextev _ _ W); lia | rewrite (wg_nextmap _ _ W); lia | |].
  - intros [P Q R]. constructor.
    + rewrite Ids, (wg_nextev _ _ W). exact P.
    + intros e He. assert (Z : In (stat e) (map stat (t_events t))) by (rewrite <- (wg_events _ _ W); apply in_map; exact He).
      apply in_map_iff in Z as (e0 & Z1 & Z2). rewrite (stat_mod _ _ (eq_sym Z1)). auto.
    + intros l Hl. assert (M := wg_maps _ _ W). rewrite Hl in M. destruct (t_maps t) as [l0|]; cbn in M; [|destruct M].
      rewrite (wg_nextmap _ _ W). eapply wfmap_subl; [exact M | apply R; reflexivity].
  - intros e He _. assert (Z : In (stat e) (map stat (t_events t'))) by (rewrite (wg_events _ _ W); apply in_map; exact He).
    apply in_map_iff in Z as (e0 & Z1 & Z2). exists e0. auto.
Qed.
Lemma er_wrel K s s' : wrel s s' -> er K s s'.
Proof.
  intros W. assert (R := wr_rest _ _ W). unfold srest in R. assert (U : s_nextuid s' = s_nextuid s) by congruence.
  constructor; [rewrite (wr_len _ _ W); lia | lia | |].
  - intros i t H. destruct (wr_tag _ _ W _ _ H) as (t' & A & B). exists t'. split; [exact A|]. rewrite U. apply tev_wtg. exact B.
  - intros i t L H. apply znth_range in H. rewrite (wr_len _ _ W) in H. lia.
Qed.
Ltac er_step :=
  match goal with
  | |- er _ ?s ?s => apply er_refl
  | |- er _ _ (set_out ?Y _) => apply (er_trans _ _ Y); [| apply er_same; [reflexivity | cbn; lia]]
  | |- er _ _ (set_ret ?Y _) => apply (er_trans _ _ Y); [| apply er_same; [reflexivity | cbn; lia]]
  | |- er _ _ (set_ovi ?Y _) => apply (er_trans _ _ Y); [| apply er_same; [reflexivity | cbn; lia]]
  | |- er _ _ (set_ovs ?Y _) => apply (er_trans _ _ Y); [| apply er_same; [reflexivity | cbn; lia]]
  | |- er _ _ (upd_mod _ _ ?Y) => apply (er_trans _ _ Y); [| apply er_same; [reflexivity | cbn; lia]]
  | H : sys_write _ _ _ ?Y = Done (?X, _) |- er _ _ ?X => apply (er_trans _ _ Y); [| apply er_wrel; exact (sys_write_wrel _ _ _ _ _ _ H)]
  | H : znth (s_db ?Y) ?i = Some ?t |- er _ _ (set_tag ?Y ?i ?t') =>
      apply (er_trans _ _ Y); [| apply (er_set_tag _ _ _ t); [exact H | apply tev_same; reflexivity]]
  | |- er _ _ (set_tag (set_tag _ ?i _) ?i _) => rewrite set_tag_set_tag
  end.
Lemma set_attribute_er K E i a : pres (er K) (set_attribute E i a).
Proof.
  intros s s' u H. destruct (set_attribute_spec _ _ _ _ _ _ H) as (t & r & f & x & Ht & _ & ->). repeat er_step.
Qed.
Lemma tag_add_er K E fd nm type count attr s s' r : Inv s -> 0 <= count -> tag_add E fd nm type count attr s = Done (s', r) -> er K s s'.
Proof.
  intros I Hc H. apply tag_add_cases in H; [|exact I | lia].
  assert (D : forall s0, (s0 = s \/ exists z, s0 = set_dbsize s z) -> er K s s0).
  { intros s0 [->|[z ->]]; [apply er_refl | apply er_same; [reflexivity | cbn; lia]]. }
  destruct H as [s' r Hr S1 | n t s0 s' u S1 Ht Hnm Hty Hct How Hsa
    | n t s0 d size s1 s' u v S1 Ht Hnm Hty Hct How Hns Hrg Hsa Htw
    | n t s0 d S1 Ht Hnm Hty Hct Hrg Hns
    | s0 s1 s3 s4 s' ix size u v w x S1 Hno Hck Hvn Hcp Hns Hix Hw1 Hw2 Hsa Hw3].
  - apply D; exact S1.
  - eapply er_trans; [apply D; exact S1 | eapply set_attribute_er; exact Hsa].
  - destruct (set_dbsize_db _ _ S1) as (Edb & _). rewrite <- Edb in Ht. eapply er_trans; [apply D; exact S1|].
    eapply er_trans; [|apply er_wrel; eapply tag_write_wrel; exact Htw]. eapply er_trans; [|eapply set_attribute_er; exact Hsa]. er_step. er_step.
  - destruct (set_dbsize_db _ _ S1) as (Edb & _). rewrite <- Edb in Ht. eapply er_trans; [apply D; exact S1|]. er_step. er_step.
  - eapply er_trans; [apply D; exact S1|].
    eapply er_trans; [apply er_wrel; eapply sys_write_wrel; exact Hw1|].
    eapply er_trans; [|apply er_wrel; eapply tag_write_wrel; exact Hw3].
    eapply er_trans; [|eapply set_attribute_er; exact Hsa].
    eapply er_trans; [|apply er_wrel; eapply sys_write_wrel; exact Hw2].
    constructor; [cbn; rewrite zlen_app; unfold zlen; cbn; lia | cbn; lia | |].
    + intros j t Ht. exists t. cbn. rewrite znth_app1 by (apply znth_range in Ht; lia). split; [exact Ht | apply tev_refl; lia].
    + intros j t L Ht. cbn in Ht. assert (Q := znth_range _ _ _ Ht). rewrite zlen_app in Q. unfold zlen in Q at 2. cbn in Q. assert (j = zlen (s_db s1)) by lia. subst j.
      rewrite znth_last in Ht. injection Ht as <-. apply wft_fresh; [reflexivity|]. cbn. destruct (_ || _); auto.
Qed.
Lemma tag_del_er K E i s s' r : (forall u, ~ K i u) -> tag_del E i s = Done (s', r) -> er K s s'.
Proof.
  intros NK H. apply tag_del_cases in H. destruct H as [r Hr | t nm o ix s1 s3 s' t1 v u Ht Hn Hd Ho Hix Hs1 Hw Ht1 Hw2]; [apply er_refl|].
  eapply er_trans; [|apply er_wrel; eapply sys_write_wrel; exact Hw2].
  eapply er_trans with (b := s3); [|eapply er_trans with (b := set_tag s3 i (dead_tag t1)); [er_step; er_step | apply er_same; [reflexivity | cbn; lia]]].
  eapply er_trans; [|apply er_wrel; eapply tag_write_wrel; exact Hw]. subst s1.
  eapply er_trans with (b := set_tag (set_out s (s_out s ++ o)) i (set_maps (set_events t []) (Some []))); [|apply er_same; [reflexivity | cbn; lia]].
  eapply er_trans with (b := set_out s (s_out s ++ o)); [apply er_same; [reflexivity | cbn; lia]|].
  eapply er_set_tag; [exact Ht|]. constructor; [cbn; lia | cbn; lia | intros _; apply wft_fresh; cbn; auto|].
  intros e He Ke. destruct (NK _ Ke).
Qed.

(** ** events *)
Lemma event_add_er K E h ty ud m s s' r : m_uid m < s_nextuid s -> event_add E h ty ud m s = Done (s', r) -> er K s s'.
Proof.
  intros U H. unfold event_add in H. inv1 H. destruct (znth (s_db s) (h_index h)) as [t|] eqn:Ht; [|inv_all; apply er_refl].
  destruct (_ && _); [inv_all; apply er_refl|]. destruct (is_queue (t_type t)); [inv_all; apply er_refl|].
  inv1 H. destruct (_ <? _); [inv_all; apply er_refl|]. destruct (negb _); [inv_all; apply er_refl|]. inv1 H. inv1 H. inv1 H.
  apply ret_done in H as [-> _]. er_step. eapply er_set_tag; [exact Ht|]. constructor; [cbn; lia | cbn; lia | |].
  - intros [A B C]. constructor; cbn.
    + split; [lia | exact A].
    + intros e [<-|He]; [exact U | auto].
    + exact C.
  - intros e He _. exists e. cbn. auto.
Qed.
Lemma remove_ev_subl id l : subl (remove_ev id l) l.
Proof. induction l as [|e l IH]; cbn; [constructor|]. destruct (e_id e =? id); [apply sub_drop, subl_refl | constructor; exact IH]. Qed.
Lemma remove_ev_keep id l x e : find (fun x => e_id x =? id) l = Some x -> In e l -> e = x \/ In e (remove_ev id l).
Proof.
  induction l as [|y l IH]; cbn; intros F H; [destruct H|]. destruct (e_id y =? id).
  - injection F as ->. destruct H as [->|H]; auto.
  - destruct H as [->|H]; [right; left; reflexivity|]. destruct (IH F H); [auto | right; right; assumption].
Qed.
Lemma wft_events i U t evs a : subl evs (t_events t) -> wft i U t -> wft i U (set_attr (set_events t evs) a).
Proof.
  intros S [A B C]. constructor; cbn; [eapply desc_subl; [apply subl_map; exact S | exact A] | | exact C].
  intros e He. apply B. eapply subl_in; eassumption.
Qed.
Lemma event_del_er K E i id mo s s' r : (forall m, mo = Some m -> ~ K i (m_uid m)) -> event_del E i id mo s = Done (s', r) -> er K s s'.
Proof.
  intros NK H. unfold event_del in H. inv1 H. destruct (znth (s_db s) i) as [t|] eqn:Ht; [|inv_all; apply er_refl].
  assert (Fin : forall evs res, subl evs (t_events t) ->
    (forall e, In e (t_events t) -> In e evs \/ exists m, mo = Some m /\ e_mod e = m_uid m) ->
    (put_tag i (set_attr (set_events t evs) (match evs with [] => clr_flag (t_attr t) A_EVENT | _ :: _ => t_attr t end)) ;;;
        match mo with
        | None => undef UNull
        | Some m => modify (upd_mod (m_uid m) (fun m => set_evcount m (m_evcount m - 1))) ;;; ret res
        end) s = Done (s', r) -> er K s s').
  { intros evs res Sb Kp Q. inv1 Q. destruct mo as [m|]; [|discriminate]. inv1 Q. apply ret_done in Q as [-> _]. er_step.
    eapply er_set_tag; [exact Ht|]. constructor; [cbn; lia | cbn; lia | apply wft_events; exact Sb|].
    intros e He Ke. destruct (Kp _ He) as [Q|(m1 & Q1 & Q2)]; [exists e; auto|]. injection Q1 as <-. rewrite Q2 in Ke. destruct (NK m eq_refl Ke). }
  cbv zeta in H. destruct (t_events t) as [|e l] eqn:Ev; [inv_all; apply er_refl|].
  assert (Ow : forall x, negb match mo with Some m => e_mod x =? m_uid m | None => false end = false -> exists m, mo = Some m /\ e_mod x = m_uid m).
  { intros x Q. destruct mo as [m|]; [|discriminate]. exists m. split; [reflexivity | lia]. }
  destruct (e_id e =? id) eqn:Ei.
  - destruct (negb _) eqn:O; [inv_all; apply er_refl|]. destruct (en_strict E); [discriminate|]. destruct (existsb _ l); [discriminate|].
    eapply Fin; [apply sub_drop, subl_refl | | exact H]. intros x [<-|Hx]; [right; apply Ow; exact O | auto].
  - destruct (find (fun x => e_id x =? id) l) as [x|] eqn:Fx.
    + destruct (negb _) eqn:O; [inv_all; apply er_refl|]. eapply Fin; [apply sub_keep, remove_ev_subl | | exact H].
      intros y [<-|Hy]; [left; left; reflexivity|]. destruct (remove_ev_keep _ _ _ _ Fx Hy) as [->|Q]; [right; apply Ow; exact O | left; right; exact Q].
    + eapply Fin; [apply subl_refl | auto | exact H].
Qed.
Definition upd_opts (id opts : Z) : list event -> list event :=
  fix go l := match l with [] => [] | x :: r => if e_id x =? id then set_opts x opts :: r else x :: go r end.
Lemma upd_opts_ids id o l : map e_id (upd_opts id o l) = map e_id l.
Proof. induction l as [|x l IH]; cbn; [reflexivity|]. destruct (e_id x =? id); cbn; [reflexivity | f_equal; exact IH]. Qed.
Lemma upd_opts_mods id o l : map e_mod (upd_opts id o l) = map e_mod l.
Proof. induction l as [|x l IH]; cbn; [reflexivity|]. destruct (e_id x =? id); cbn; [reflexivity | f_equal; exact IH]. Qed.
Lemma upd_opts_keep id o l x e : find (fun x => e_id x =? id) l = Some x -> In e l -> e = x \/ In e (upd_opts id o l).
Proof.
  induction l as [|y l IH]; cbn; intros F H; [destruct H|]. destruct (e_id y =? id).
  - injection F as ->. destruct H as [->|H]; [auto | right; right; exact H].
  - destruct H as [->|H]; [right; left; reflexivity|]. destruct (IH F H); [auto | right; right; assumption].
Qed.
Lemma event_opt_er K i id opts mo s s' r : (forall m, mo = Some m -> ~ K i (m_uid m)) -> event_opt i id opts mo s = Done (s', r) -> er K s s'.
Proof.
  intros NK H. unfold event_opt in H. inv1 H. destruct (znth (s_db s) i) as [t|] eqn:Ht; [|inv_all; apply er_refl].
  destruct (find (fun x => e_id x =? id) (t_events t)) as [x|] eqn:Fx; [|inv_all; apply er_refl].
  destruct (match mo with Some m => e_mod x =? m_uid m | None => false end) eqn:O; [|inv_all; apply er_refl].
  destruct mo as [m|]; [|discriminate]. inv1 H. apply ret_done in H as [-> _]. fold (upd_opts id opts) in *.
  eapply er_set_tag; [exact Ht|]. constructor; [cbn; lia | cbn; lia | |].
  - intros [A B C]. constructor; cbn; [fold (upd_opts id opts); rewrite upd_opts_ids; exact A | | exact C].
    fold (upd_opts id opts). intros e He. apply (in_map e_mod) in He. rewrite upd_opts_mods in He. apply in_map_iff in He as (y & Y1 & Y2). rewrite <- Y1. auto.
  - intros e He Ke. cbn. fold (upd_opts id opts). destruct (upd_opts_keep _ opts _ _ _ Fx He) as [->|Q]; [|exists e; auto].
    exfalso. apply (NK m eq_refl). replace (m_uid m) with (e_mod x) by lia. exact Ke.
Qed.
Lemma mod_by_uid_uid l u m : mod_by_uid l u = Some m -> m_uid m = u.
Proof. intros H. apply find_some in H as [_ H]. lia. Qed.
Lemma cleanup_tag_er K E n uid l : (~ K n uid) -> pres (er K) (cleanup_tag E n uid l).
Proof.
  intros NK. induction l as [|e l IH]; intros s s' a H; cbn [cleanup_tag] in H; [inv_all; apply er_refl|].
  inv1 H. eapply er_trans; [|eapply IH; exact H].
  destruct (e_mod e =? uid); [|inv_all; apply er_refl]. destruct (en_strict E); [discriminate|].
  inv1 Hm. inv1 Hm. inv1 Hm. eapply event_del_er; [|eassumption]. intros m Q. rewrite (mod_by_uid_uid _ _ _ Q). exact NK.
Qed.
Lemma cleanup_loop_er K E k uid : (forall i, ~ K i uid) -> pres (er K) (cleanup_loop E k uid).
Proof.
  intros NK. induction k as [|k IH]; intros s s' a H; cbn [cleanup_loop] in H; [inv_all; apply er_refl|].
  inv1 H. destruct (mod_by_uid (s_mods s) uid); [|inv_all; apply er_refl].
  destruct (0 <? m_evcount m); [|inv_all; apply er_refl].
  inv1 H. inv1 H. eapply er_trans; [eapply cleanup_tag_er; [apply NK | eassumption] | eapply IH; eassumption].
Qed.

(** ** disconnecting and connecting *)
Lemma del_owned_loop_er K E fd : forall k n s s' u, Inv s -> (forall j, tag_owned s fd j = true -> forall u, ~ K j u) ->
  del_owned_loop E fd k n s = Done (s', u) -> er K s s'.
Proof.
  induction k as [|k IH]; intros n s s' u I NK H; cbn [del_owned_loop] in H; [inv_all; apply er_refl|].
  inv1 H. unfold del_owned in Hm. inv1 Hm. destruct (tag_owned s fd n) eqn:Ow.
  - apply bind_done in Hm as (s1 & v1 & H1 & H2). apply ret_done in H2 as [-> _].
    assert (I1 := tag_del_Inv _ _ _ _ _ I H1). destruct (tag_del_kept _ _ _ _ _ H1) as (K1 & K2 & _).
    eapply er_trans; [eapply tag_del_er; [apply NK; exact Ow | exact H1]|]. eapply IH; [exact I1 | | exact H].
    intros j Hj. destruct (Z.eq_dec j n) as [->|Hne]; [apply NK; exact Ow|]. apply NK. rewrite <- Hj. symmetry. apply core_owned. apply K1. exact Hne.
  - apply ret_done in Hm as [-> _]. eapply IH; eassumption.
Qed.
Lemma module_unregister_er K E fd s s' u : Inv s -> 
  (forall m, find_mod s fd = Some m -> forall j u, (u = m_uid m \/ tag_owned s fd j = true \/ j = m_tagidx m) -> ~ K j u) ->
  module_unregister E fd s = Done (s', u) -> er K s s'.
Proof.
  intros I NK H. unfold module_unregister in H. inv1 H. destruct (find_mod s fd) as [m|] eqn:F; [|inv_all; apply er_refl].
  specialize (NK m eq_refl). inv1 H. inv1 H. inv1 H. inv1 H. unfold modify in H. injection H as <- _.
  assert (R1 := cleanup_loop_evrel _ _ _ _ _ _ Hm).
  assert (I0 : Inv s0).
  { destruct R1 as (A1 & A2 & A3 & A4 & _ & _ & A6). eapply Inv_wshape; [exact I|]. constructor; auto.
    - exists []. rewrite app_nil_r. exact A2.
    - intros i t Hi. destruct (A6 _ _ Hi) as [t' [Z' (e & a & -> & C)]]. exists (set_attr (set_events t e) a).
      split; [exact Z'|]. constructor; cbn; auto using data_shape_refl. intros _. apply core_dead; exact C. }
  assert (Ow : forall j, tag_owned s0 fd j = tag_owned s fd j) by (intros j; apply core_owned, evrel_core; exact R1).
  eapply er_trans; [eapply cleanup_loop_er; [|exact Hm]; intros i; apply NK; tauto|].
  eapply er_trans; [eapply del_owned_loop_er; [exact I0 | | exact Hm0]; intros j Hj u0; apply NK; rewrite Ow in Hj; tauto|].
  eapply er_trans; [eapply tag_del_er; [|exact Hm1]; intros u0; apply NK; tauto|]. apply er_same; [reflexivity | cbn; lia].
Qed.
Lemma module_register_er K E nm fd s s' u : Inv s ->
  (forall m, find_mod s fd = Some m -> forall j u, (u = m_uid m \/ tag_owned s fd j = true \/ j = m_tagidx m) -> ~ K j u) ->
  module_register E nm fd s = Done (s', u) -> er K s s'.
Proof.
  intros I NK H. unfold module_register in H. inv1 H. inv1 H. inv1 H. inv1 H.
  assert (G : Inv s0 /\ er K s s0).
  { clear H. destruct (find_mod s fd) as [m|] eqn:F; [|inv_all; split; [exact I | apply er_refl]].
    assert (Fd : m_fd m = fd) by (apply find_some in F; destruct F; lia). rewrite Fd in Hm.
    split; [eapply module_unregister_good; eassumption|]. eapply module_unregister_er; [exact I | rewrite F; exact NK | exact Hm]. }
  destruct G as (I0 & R0). eapply er_trans; [exact R0|]. clear R0 Hm NK. set (s1 := set_nextuid _ _) in H.
  eapply er_trans with (b := s1); [apply er_same; [reflexivity | cbn; lia]|].
  destruct (existsb (fun y => name_eqb y nm) (en_excl E)); [inv_all; apply er_refl|].
  inv1 H. inv1 H. destruct v0 as [tn uuid]. inv1 H. inv1 H. inv1 H. destruct (v0 <? 0) eqn:Neg; [discriminate|].
  assert (I2 : Inv (set_moduuid s1 uuid)) by (destruct I0; constructor; assumption).
  eapply er_trans with (b := set_moduuid s1 uuid); [apply er_same; [reflexivity | cbn; lia]|].
  eapply er_trans; [eapply tag_add_er; [exact I2 | | exact Hm]; lia|].
  inv1 H. inv1 H. inv1 H. inv1 H. inv1 H. inv1 H.
  eapply er_trans with (b := upd_mod (s_nextuid s0) (fun m => set_tagidx m v0) s2); [apply er_same; [reflexivity | cbn; lia]|].
  eapply er_trans; [apply er_wrel; eapply tag_write_wrel; exact Hm0|].
  eapply er_trans; [apply er_wrel; eapply tag_write_wrel; exact Hm1|].
  apply bind_done in H as (s9 & v9 & H9 & H). apply ret_done in H as [-> _].
  eapply er_trans; [|apply er_wrel; eapply tag_write_wrel; exact H9]. er_step. er_step.
Qed.

(** ** mappings and overrides *)
Lemma handle_eqb_iff a b : handle_eqb a b = true <-> a = b.
Proof.
  unfold handle_eqb. split.
  - intros H. destruct a, b; cbn in *. f_equal; lia.
  - intros ->. rewrite !Z.eqb_refl. reflexivity.
Qed.
Lemma map_add_er K src dst : pres (er K) (map_add src dst).
Proof.
  intros s s' r H. unfold map_add in H. inv1 H. destruct (znth (s_db s) (h_index src)) as [t|] eqn:Ht; [|inv_all; apply er_refl].
  destruct (znth (s_db s) (h_index dst)) as [td|]; [|inv_all; apply er_refl].
  destruct (_ || _); [inv_all; apply er_refl|]. destruct (has (t_attr td) A_READONLY); [inv_all; apply er_refl|].
  inv1 H. destruct (_ <? _); [inv_all; apply er_refl|]. inv1 H. destruct (_ <? _); [inv_all; apply er_refl|]. destruct (_ <? _); [inv_all; apply er_refl|].
  destruct (t_maps t) as [l|] eqn:Ml; [|discriminate]. destruct (find _ l) as [m|] eqn:Fn; [inv_all; apply er_refl|].
  inv1 H. inv1 H. apply ret_done in H as [-> _]. eapply er_set_tag; [exact Ht|]. constructor; [cbn; lia | cbn; lia | |].
  - intros [A B C]. destruct (C _ Ml) as (C1 & C2 & C3). constructor; cbn; [exact A | exact B|]. intros l' Q. injection Q as <-.
    split; [cbn; split; [lia | exact C1]|]. split; [|intros m [<-|Hmm]; [split; [reflexivity|] | auto]].
    2: { unfold mask_made. cbn [m_src m_dst m_mask]. destruct (h_type src =? T_BOOL); [|congruence].
         destruct (mask_loop _ _ _ _) as [x|] eqn:Qx; [|discriminate]. exists x. split; [|reflexivity]. cbn in Hr1. congruence. }
    cbn. constructor; [|exact C2]. intros Q. apply in_map_iff in Q as (m & Q1 & Q2). assert (N := find_none _ _ Fn _ Q2). cbn in N.
    unfold ends in Q1. cbn in Q1. injection Q1 as Q1 Q3. rewrite Q1, Q3 in N. rewrite (proj2 (handle_eqb_iff _ _) eq_refl), (proj2 (handle_eqb_iff _ _) eq_refl) in N. discriminate.
  - intros e He _. exists e. auto.
Qed.
Lemma override_add_er K E i off d m : pres (er K) (override_add E i off d m).
Proof. intros s s' r H. unfold override_add in H. inv_all; repeat er_step. Qed.
Lemma override_del_er K E i off m : pres (er K) (override_del E i off m).
Proof. intros s s' r H. unfold override_del in H. inv_all; repeat er_step. Qed.
Lemma override_set_er K E i f : pres (er K) (override_set E i f).
Proof. intros s s' r H. unfold override_set in H. inv_all; repeat er_step. Qed.

(** ** all requests *)
(** the events at tag [i] of module [u] that request [o] cannot touch: it does not come from the module
    itself, does not delete the tag and does not end the connection owning the tag *)
Definition spared (s : server) (o : op) (i u : Z) : Prop :=
  match o with
  | OpRegister fd _ | OpDisconnect fd =>
      forall m, find_mod s fd = Some m -> u <> m_uid m /\ tag_owned s fd i = false /\ i <> m_tagidx m
  | OpTagDel _ idx => i <> idx
  | OpEvDel fd idx _ | OpEvOpt fd idx _ _ => forall m, find_mod s fd = Some m -> i = idx -> u <> m_uid m
  | _ => True
  end.
Lemma er_respond K fd c p : pres (er K) (respond fd c p).
Proof. intros s s' a H. unfold respond in H. inv_all; repeat er_step. Qed.
Lemma er_reply_err K fd c p : pres (er K) (reply_err fd c p).
Proof. intros s s' a H. unfold reply_err in H. inv_all; repeat er_step. Qed.
Lemma er_reply_int K fd c p : pres (er K) (reply_int fd c p).
Proof. intros s s' a H. unfold reply_int in H. destruct (_ : bool) in H; [eapply er_reply_err | eapply er_respond]; exact H. Qed.
Lemma handle_op_er E o s s' u : Inv s -> SysInv E s -> handle_op E o s = Done (s', u) -> er (spared s o) s s'.
Proof.
  intros I S H. destruct (data_op o) eqn:Do; [apply er_wrel; eapply handle_op_wrel; eassumption|].
  destruct o; try discriminate Do; clear Do; cbn [handle_op] in H.
  - inv1 H. inv1 H. inv1 H. eapply er_trans; [eapply module_register_er; [exact I | | exact Hm]|].
    + intros m F j u0 Q Sp. cbn in Sp. destruct (Sp _ F) as (A & B & C). destruct Q as [Q|[Q|Q]]; congruence.
    + eapply er_trans; [apply er_wrel; eapply tag_read_wrel; exact Hm0 | eapply er_respond; exact H].
  - eapply module_unregister_er; [exact I | | exact H].
    intros m F j u0 Q Sp. cbn in Sp. destruct (Sp _ F) as (A & B & C). destruct Q as [Q|[Q|Q]]; congruence.
  - inv1 H. eapply er_trans with (b := s0); [|eapply er_reply_int; exact H].
    destruct (nthb nm 0 =? 95); [clear H; inv_all; apply er_refl|]. eapply tag_add_er; [exact I | | exact Hm]. unfold u32; apply Z.mod_pos_bound; lia.
  - unfold h_tag_del in H. inv1 H. inv1 H. inv1 H. eapply er_trans with (b := s0); [|inv1 H; [eapply er_respond | eapply er_reply_err]; exact H]. clear H.
    destruct v as [[[[[a b] c] d] nm]|]; [|inv_all; apply er_refl]. destruct (nthb nm 0 =? 95); [inv_all; apply er_refl|].
    eapply tag_del_er; [|exact Hm]. cbn. intros; lia.
  - inv1 H. inv1 H. eapply er_trans with (b := s0); [|eapply er_reply_int; exact H]. clear H.
    destruct (find_mod s fd) as [m|] eqn:F; [|inv_all; apply er_refl]. eapply event_add_er; [|exact Hm].
    apply find_some in F as [F _]. apply (si_mods _ _ S). exact F.
  - inv1 H. inv1 H. eapply er_trans with (b := s0); [|inv1 H; [eapply er_respond | eapply er_reply_err]; exact H]. clear H.
    eapply event_del_er; [|exact Hm]. intros m F Q. cbn in Q. apply (Q _ F eq_refl eq_refl).
  - inv1 H. inv1 H. eapply er_trans with (b := s0); [|inv1 H; [eapply er_respond | eapply er_reply_err]; exact H]. clear H.
    eapply event_opt_er; [|exact Hm]. intros m F Q. cbn in Q. apply (Q _ F eq_refl eq_refl).
  - unfold h_cdt_create in H. inv1 H. inv1 H. destruct v as [[ts ty] err]. inv1 H.
    eapply er_trans with (b := set_types s ts); [apply er_same; [reflexivity | cbn; lia]|]. inv1 H; [eapply er_reply_err | eapply er_respond]; eassumption.
  - inv1 H. eapply er_trans; [eapply map_add_er; exact Hm | eapply er_reply_int; exact H].
  - unfold with_mod in H. inv1 H. destruct (find_mod s fd) as [m|]; [|discriminate]. inv1 H. eapply er_trans; [|eapply er_reply_int; exact H]. clear H.
    unfold group_add in Hm. destruct (_ <? _); [inv_all; apply er_refl|]. destruct (group_slot _ _) as [[g sz] k]. inv_all; repeat er_step.
  - unfold with_mod in H. inv1 H. destruct (find_mod s fd) as [m|]; [|discriminate]. inv1 H. eapply er_trans; [|eapply er_reply_int; exact H]. clear H.
    unfold group_del in Hm. inv_all; repeat er_step.
  - inv1 H. eapply er_trans; [eapply override_add_er; exact Hm|]. unfold reply_status in H. destruct (negb _); [eapply er_reply_err | eapply er_respond]; exact H.
  - inv1 H. eapply er_trans; [eapply override_del_er; exact Hm|]. unfold reply_status in H. destruct (negb _); [eapply er_reply_err | eapply er_respond]; exact H.
  - inv1 H. eapply er_trans; [eapply override_set_er; exact Hm|]. unfold reply_status in H. destruct (negb _); [eapply er_reply_err | eapply er_respond]; exact H.
  - unfold modify in H. injection H as <- _. apply er_same; [reflexivity | cbn; lia].
Qed.
Lemma step_er E s o s' : Inv s -> SysInv E s -> step E s o = Done s' -> er (spared s o) s s'.
Proof.
  intros I S H. unfold step in H. destruct (handle_op E o s) as [[s1 u]|] eqn:Q; [|discriminate]. injection H as <-.
  eapply er_trans; [eapply handle_op_er; eassumption | apply er_same; [reflexivity | cbn; lia]].
Qed.

(** ** the invariant *)
Definition IdInv (s : server) : Prop := forall i t, znth (s_db s) i = Some t -> wft i (s_nextuid s) t.
Lemma IdInv_er K s s' : er K s s' -> IdInv s -> IdInv s'.
Proof.
  intros R I i t' H. destruct (Z_lt_le_dec i (zlen (s_db s))) as [L|L]; [|eapply (er_new _ _ _ R); eassumption].
  destruct (znth_some (s_db s) i) as [t Ht]; [apply znth_range in H; lia|]. destruct (er_tag _ _ _ R _ _ Ht) as (t1 & A & B).
  assert (t1 = t') by congruence. subst t1. apply B. apply I. exact Ht.
Qed.
Lemma exec_ids E os : forall s s', Inv s -> SysInv E s -> IdInv s -> exec E s os = Done s' -> IdInv s'.
Proof.
  induction os as [|o os IH]; intros s s' I S D H; cbn in H; [injection H as <-; exact D|].
  apply rbind_done in H as [s1 [H1 H2]]. eapply IH; [eapply step_good; eassumption | eapply step_sys; eassumption | | exact H2].
  eapply IdInv_er; [eapply step_er; eassumption | exact D].
Qed.
Lemma init_ids E now r : exists s, init_tagbase E (empty_server now r) = Done (s, tt) /\ IdInv s.
Proof.
  assert (H : (match init_tagbase E (empty_server now r) with
     | Done (s, _) => Some (map (fun t => (t_events t, t_maps t)) (s_db s)) | Undef _ => None end) = Some (repeat ([], Some []) 11)) by (vm_compute; reflexivity).
  destruct (init_tagbase E (empty_server now r)) as [[s []]|]; [|discriminate]. exists s. split; [reflexivity|]. apply (f_equal (fun x => match x with Some y => y | None => [] end)) in H. cbv beta iota in H.
  intros i t Ht. assert (Q : In (t_events t, t_maps t) (repeat ([], Some []) 11)).
  { rewrite <- H. apply (in_map (fun t => (t_events t, t_maps t))). eapply znth_In. exact Ht. }
  apply repeat_spec in Q. injection Q as Q1 Q2. apply wft_fresh; auto.
Qed.
Lemma restore_types_er K l : pres (er K) (restore_types l).
Proof.
  induction l as [|d l IH]; intros s s' a H; cbn [restore_types] in H; [inv_all; apply er_refl|].
  inv1 H. eapply er_trans; [|eapply IH; exact H]. unfold make_type in Hm. inv1 Hm. inv1 Hm. destruct v0 as [[ts ty] err].
  clear H. inv_all; apply er_same; try reflexivity; cbn; lia.
Qed.
Lemma restore_tag_er K E row s s' u : Inv s -> restore_tag E row s = Done (s', u) -> er K s s'.
Proof.
  intros I H. unfold restore_tag in H. inv1 H. inv1 H.
  assert (Hc : 0 <= u32 (rr_count row)) by (unfold u32; apply Z.mod_pos_bound; lia).
  eapply er_trans with (b := s0); [eapply tag_add_er; [exact I | exact Hc | exact Hm]|]. clear Hm. inv_all; repeat er_step.
Qed.
Lemma restore_tags_er K E l : forall s s' u, Inv s -> restore_tags E l s = Done (s', u) -> er K s s'.
Proof.
  induction l as [|d l IH]; intros s s' u I H; cbn [restore_tags] in H; [inv_all; apply er_refl|].
  inv1 H. eapply er_trans; [eapply restore_tag_er; eassumption|]. eapply IH; [eapply restore_tag_good; eassumption | exact H].
Qed.
Lemma boot_ids E now r s : boot E now r = Done s -> IdInv s.
Proof.
  unfold boot. match goal with |- match ?m ?x with _ => _ end = _ -> _ => destruct (m x) as [[s1 u]|] eqn:H end; [|discriminate].
  intros K; injection K as <-. inv1 H. destruct (init_ids E now (mk_rdb false [] 1 [])) as (s2 & P1 & P2).
  rewrite P1 in Hm. injection Hm as <- _.
  assert (I2 : Inv s2) by (eapply init_tagbase_good; [exact P1 | apply Inv_empty]).
  destruct (r_open r); [|inv_all; exact P2].
  inv1 H. inv1 H. unfold modify in H; injection H as <- _.
  eapply (IdInv_er (fun _ _ => True)); [|exact P2]. eapply er_trans; [eapply restore_types_er; exact Hm|].
  eapply er_trans; [eapply restore_tags_er; [|exact Hm0]; eapply restore_types_good; eassumption|]. apply er_same; [reflexivity | cbn; lia].
Qed.
Theorem reachable_ids E s : reachable E s -> IdInv s.
Proof.
  intros (now & r & s0 & os & H1 & H2). eapply exec_ids; [| |eapply boot_ids; exact H1 | exact H2].
  - eapply (boot_good _ _ _ _ H1). apply Inv_empty.
  - eapply boot_sys; exact H1.
Qed.
Lemma reachable_er E s o s' : reachable E s -> step E s o = Done s' -> er (spared s o) s s'.
Proof. intros R H. eapply step_er; [eapply reachable_Inv; exact R | eapply reachable_sys; exact R | exact H]. Qed.
