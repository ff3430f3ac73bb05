(** * WRel: what the data requests (read, write, masked write, atomic, group read/write and the
    mappings they fire) cannot touch: everything but the data, the last-seen values of
    the events, mappings that get dropped, the messages sent and the retention file. *)
From Verif Require Import Base Const Types State Events Atomic Server Lib SearchProofs Shape Inv Reach Spec Frame Effects Out DataFrame.

(** an event without its remembered test value *)
Definition stat (e : event) : event := set_test e [].
Inductive subl {A} : list A -> list A -> Prop :=
| sub_nil : subl [] []
| sub_keep x a b : subl a b -> subl (x :: a) (x :: b)
| sub_drop x a b : subl a b -> subl a (x :: b).
Lemma subl_refl {A} (l : list A) : subl l l.
Proof. induction l; constructor; assumption. Qed.
Lemma subl_trans {A} (a b c : list A) : subl a b -> subl b c -> subl a c.
Proof.
  intros H1 H2. revert a H1. induction H2; intros a0 H1.
  - exact H1.
  - inversion H1; subst; constructor; auto.
  - constructor; auto.
Qed.
Lemma subl_in {A} (a b : list A) x : subl a b -> In x a -> In x b.
Proof. induction 1; cbn; intros; intuition. Qed.
Lemma subl_nil {A} (l : list A) : subl [] l.
Proof. induction l; constructor; assumption. Qed.
Lemma after_subl {A} (p : A -> bool) l r : Server.after p l = Some r -> subl r l.
Proof.
  revert r; induction l as [|x l IH]; cbn; intros r H; [discriminate|]. destruct (p x); [injection H as <-; apply sub_drop, subl_refl|].
  constructor. auto.
Qed.
Definition maps_sub (a b : option (list dmap)) : Prop :=
  match a, b with Some l, Some l' => subl l' l | None, None => True | _, _ => False end.
Lemma maps_sub_refl a : maps_sub a a.
Proof. destruct a; cbn; [apply subl_refl | exact Logic.I]. Qed.
Lemma maps_sub_trans a b c : maps_sub a b -> maps_sub b c -> maps_sub a c.
Proof. destruct a, b, c; cbn; try tauto. intros; eapply subl_trans; eassumption. Qed.

Record wtg (t t' : tag) : Prop := {
  wg_type : t_type t' = t_type t; wg_attr : t_attr t' = t_attr t; wg_count : t_count t' = t_count t;
  wg_name : t_name t' = t_name t; wg_fd : t_fd t' = t_fd t; wg_nextev : t_nextev t' = t_nextev t;
  wg_nextmap : t_nextmap t' = t_nextmap t; wg_omask : t_omask t' = t_omask t; wg_odata : t_odata t' = t_odata t;
  wg_retid : t_retid t' = t_retid t;
  wg_events : map stat (t_events t') = map stat (t_events t);
  wg_maps : maps_sub (t_maps t) (t_maps t') }.
Lemma wtg_refl t : wtg t t.
Proof. constructor; try reflexivity. apply maps_sub_refl. Qed.
Lemma wtg_trans a b c : wtg a b -> wtg b c -> wtg a c.
Proof. intros [] []. constructor; try congruence. eapply maps_sub_trans; eassumption. Qed.
Definition srest (s : server) :=
  (s_dbsize s, s_index s, s_types s, s_tagcount s, s_ovi s, s_ovs s, s_mods s, (s_nextuid s, s_moduuid s, s_now s, s_step s)).
Record wrel (s s' : server) : Prop := {
  wr_len : zlen (s_db s') = zlen (s_db s);
  wr_tag : forall i t, znth (s_db s) i = Some t -> exists t', znth (s_db s') i = Some t' /\ wtg t t';
  wr_rest : srest s' = srest s }.
Lemma wrel_refl s : wrel s s.
Proof. constructor; try reflexivity. intros i t H. exists t. split; [exact H | apply wtg_refl]. Qed.
Lemma wrel_trans a b c : wrel a b -> wrel b c -> wrel a c.
Proof.
  intros [A1 A2 A3] [B1 B2 B3]. constructor; try congruence.
  intros i t H. destruct (A2 _ _ H) as (t1 & X & Y). destruct (B2 _ _ X) as (t2 & Z & W). exists t2. split; [exact Z | eapply wtg_trans; eassumption].
Qed.
Lemma wrel_set_tag s i t t' : znth (s_db s) i = Some t -> wtg t t' -> wrel s (set_tag s i t').
Proof.
  intros H W. constructor; [cbn; apply zset_zlen| |reflexivity].
  intros j u Hu. cbn. rewrite znth_zset. destruct ((i =? j) && (0 <=? i) && (i <? zlen (s_db s))) eqn:B.
  - assert (i = j) by lia. subst j. exists t'. split; [reflexivity|]. assert (u = t) by congruence. subst; exact W.
  - exists u. split; [exact Hu | apply wtg_refl].
Qed.
Lemma wrel_same s s' : s_db s' = s_db s -> srest s' = srest s -> wrel s s'.
Proof. intros H1 H2. constructor; [congruence| |exact H2]. intros i t H. exists t. rewrite H1. split; [exact H | apply wtg_refl]. Qed.
Lemma wrel_back s s' i t' : wrel s s' -> znth (s_db s') i = Some t' -> exists t, znth (s_db s) i = Some t /\ wtg t t'.
Proof.
  intros W H. destruct (znth_some (s_db s) i) as [t Ht]; [apply znth_range in H; rewrite <- (wr_len _ _ W); exact H|].
  destruct (wr_tag _ _ W _ _ Ht) as (t1 & A & B). exists t. split; [exact Ht|]. congruence.
Qed.
Lemma wrel_map {X} (f : tag -> X) s s' : (forall t t', wtg t t' -> f t' = f t) -> wrel s s' -> map f (s_db s') = map f (s_db s).
Proof.
  intros F W.
  assert (L : length (s_db s') = length (s_db s)) by (pose proof (wr_len _ _ W); unfold zlen in *; lia).
  apply nth_ext with (d := f (mk_tag 0 0 0 None 0 0 0 [] None DNull None None 0)) (d' := f (mk_tag 0 0 0 None 0 0 0 [] None DNull None None 0));
    [rewrite !map_length; exact L|].
  intros n Hn. rewrite map_length in Hn. rewrite !map_nth.
  destruct (znth_some (s_db s) (Z.of_nat n)) as [t Ht]; [unfold zlen; lia|].
  destruct (wr_tag _ _ W _ _ Ht) as (t1 & A & B). apply F in B.
  assert (Q : forall (l : list tag) x, znth l (Z.of_nat n) = Some x -> nth n l (mk_tag 0 0 0 None 0 0 0 [] None DNull None None 0) = x).
  { intros l x Q. unfold znth in Q. destruct ((0 <=? Z.of_nat n) && (Z.of_nat n <? zlen l)); [|discriminate].
    rewrite Nat2Z.id in Q. apply nth_error_nth. exact Q. }
  rewrite (Q _ _ A), (Q _ _ Ht). exact B.
Qed.
Lemma wrel_fk {X} (f : tag -> X) i s s' : (forall t t', wtg t t' -> f t' = f t) -> wrel s s' -> fk f i s s'.
Proof. intros F W t Ht. destruct (wr_tag _ _ W _ _ Ht) as (t' & A & B). exists t'. auto. Qed.

Lemma wrel_mods s s' : wrel s s' -> s_mods s' = s_mods s.
Proof. intros [_ _ R]. unfold srest in R. congruence. Qed.

Lemma stat_events E mods i b off n evs r : check_events E mods i b off n evs = Done r -> map stat (fst r) = map stat evs.
Proof.
  revert r; induction evs as [|e evs IH]; intros r H; cbn [check_events] in H; [injection H as <-; reflexivity|].
  destruct (ev_overlap e off n).
  - apply rbind_done in H as [[t' h] [H1 H]]. apply rbind_done in H as [x [H2 H]]. apply rbind_done in H as [y [H3 H]].
    injection H as <-. cbn [map fst]. rewrite (IH _ H3). reflexivity.
  - apply rbind_done in H as [y [H3 H]]. injection H as <-. cbn [map fst]. rewrite (IH _ H3). reflexivity.
Qed.
Lemma committed_wrel s i t b evs o r : znth (s_db s) i = Some t -> map stat evs = map stat (t_events t) -> wrel s (committed s i t b evs o r).
Proof.
  intros Ht He. eapply wrel_trans with (b := set_tag s i (set_events (set_data t (DBytes b)) evs)).
  - eapply wrel_set_tag; [exact Ht|]. constructor; try reflexivity; [exact He | apply maps_sub_refl].
  - apply wrel_same; reflexivity.
Qed.
Lemma commit_wrel E i t b off n s s' u : znth (s_db s) i = Some t -> commit E i t b off n s = Done (s', u) -> wrel s s'.
Proof.
  intros Ht H. destruct (commit_spec _ _ _ _ _ _ _ _ _ H) as (evs & o & r & C & -> & _).
  apply committed_wrel; [exact Ht|]. apply stat_events in C. exact C.
Qed.
Lemma tag_write_wrel E fd i off d : pres wrel (tag_write E fd i off d).
Proof.
  intros s s' r H. apply tag_write_cases in H. destruct H.
  - apply wrel_refl.
  - match goal with C : check_events _ _ _ _ _ _ _ = _ |- _ => apply stat_events in C end.
    eapply wrel_trans with (b := set_tag s i (set_events (set_data t (DQueue q')) evs)); [|apply wrel_same; reflexivity].
    eapply wrel_set_tag; [eassumption|]. constructor; try reflexivity; [assumption | apply maps_sub_refl].
  - match goal with C : check_events _ _ _ _ _ _ _ = _ |- _ => apply stat_events in C end. apply committed_wrel; assumption.
Qed.
Lemma tag_mask_write_wrel E fd i off d m : pres wrel (tag_mask_write E fd i off d m).
Proof.
  intros s s' r H. apply tag_mask_write_cases in H. destruct H.
  - apply wrel_refl.
  - match goal with C : check_events _ _ _ _ _ _ _ = _ |- _ => apply stat_events in C end. apply committed_wrel; assumption.
Qed.
Lemma sys_write_wrel E i d : pres wrel (sys_write E i d).
Proof. intros s s' a H. unfold sys_write in H. inv_all; try apply wrel_refl; eapply tag_write_wrel; eassumption. Qed.
Lemma wtg_data t d : wtg t (set_data t d).
Proof. constructor; try reflexivity. apply maps_sub_refl. Qed.
Lemma tag_read_wrel E fd i off n c : pres wrel (tag_read E fd i off n c).
Proof. intros s s' a H. unfold tag_read in H. inv_all; try apply wrel_refl. eapply wrel_set_tag; [eassumption | apply wtg_data]. Qed.
Lemma map_del_wrel a b : pres wrel (map_del a b).
Proof.
  intros s s' r H. unfold map_del in H. inv_all; try apply wrel_refl; (eapply wrel_set_tag; [eassumption|]); constructor; try reflexivity; cbn.
  - rewrite Heqo0. cbn. apply sub_drop, subl_refl.
  - rewrite Heqo0. cbn. apply sub_keep. eapply after_subl; eassumption.
Qed.
Create HintDb wrel.
#[export] Hint Resolve tag_write_wrel tag_mask_write_wrel sys_write_wrel tag_read_wrel map_del_wrel : wrel.
Ltac wrel_step :=
  match goal with
  | |- wrel ?s ?s => apply wrel_refl
  | |- wrel _ (set_out ?Y _) => apply (wrel_trans _ Y); [| apply wrel_same; reflexivity]
  | H : ?m ?Y = Done (?X, _) |- wrel _ ?X =>
      eapply (wrel_trans _ Y); [| let P := fresh in assert (P : pres wrel m) by (auto with wrel); exact (P _ _ _ H)]
  | H : commit _ _ _ _ _ _ ?Y = Done (?X, _) |- wrel _ ?X =>
      eapply (wrel_trans _ Y); [| eapply commit_wrel; [|exact H]; eassumption]
  end.
Ltac wrels := repeat wrel_step.
Ltac wrel_tac := let s := fresh "s" in let s' := fresh "s'" in let a := fresh "a" in let H := fresh "H" in
  intros s s' a H; inv_all; wrels.
Lemma map_fire_wrel E m : pres wrel (map_fire E m).
Proof. unfold map_fire. wrel_tac. Qed.
#[export] Hint Resolve map_fire_wrel : wrel.
Lemma map_loop_wrel E l o w : pres wrel (map_loop E l o w).
Proof. induction l; cbn [map_loop]; wrel_tac. Qed.
#[export] Hint Resolve map_loop_wrel : wrel.
Lemma map_check_wrel E i o w : pres wrel (map_check E i o w).
Proof. unfold map_check. wrel_tac. Qed.
Lemma atomic_op_wrel E h o d : pres wrel (atomic_op E h o d).
Proof. unfold atomic_op. wrel_tac. Qed.
Lemma group_read_loop_wrel E hs o b : pres wrel (group_read_loop E hs o b).
Proof. revert o b; induction hs; intros o b; cbn [group_read_loop]; wrel_tac. Qed.
Lemma group_write_loop_wrel E hs o b : pres wrel (group_write_loop E hs o b).
Proof. revert o; induction hs; intros o; cbn [group_write_loop]; wrel_tac. Qed.
#[export] Hint Resolve map_check_wrel atomic_op_wrel group_read_loop_wrel group_write_loop_wrel : wrel.
Lemma group_read_wrel E m g : pres wrel (group_read E m g).
Proof. unfold group_read. wrel_tac. Qed.
Lemma group_write_wrel E m g p : pres wrel (group_write E m g p).
Proof. unfold group_write. wrel_tac. Qed.
Lemma override_get_wrel a b c : pres wrel (override_get a b c).
Proof. unfold override_get. wrel_tac. Qed.
Lemma respond_wrel a b c : pres wrel (respond a b c).
Proof. unfold respond. wrel_tac. Qed.
Lemma reply_err_wrel a b c : pres wrel (reply_err a b c).
Proof. unfold reply_err. wrel_tac. Qed.
#[export] Hint Resolve group_read_wrel group_write_wrel override_get_wrel respond_wrel reply_err_wrel : wrel.
Lemma reply_int_wrel a b c : pres wrel (reply_int a b c).
Proof. unfold reply_int. wrel_tac. Qed.
Lemma reply_status_wrel a b c : pres wrel (reply_status a b c).
Proof. unfold reply_status. wrel_tac. Qed.
#[export] Hint Resolve reply_int_wrel reply_status_wrel : wrel.
Lemma h_tag_get_wrel E fd r : pres wrel (h_tag_get E fd r).
Proof. unfold h_tag_get. wrel_tac. Qed.
Lemma h_read_wrel E a b c d : pres wrel (h_read E a b c d).
Proof. unfold h_read. wrel_tac. Qed.
Lemma h_write_wrel E a b c d : pres wrel (h_write E a b c d).
Proof. unfold h_write. wrel_tac. Qed.
Lemma h_mask_wrel E a b c d m : pres wrel (h_mask E a b c d m).
Proof. unfold h_mask. wrel_tac. Qed.
Lemma h_atomic_wrel E a b c d : pres wrel (h_atomic E a b c d).
Proof. unfold h_atomic. wrel_tac. Qed.
Lemma h_cdt_get_wrel a b : pres wrel (h_cdt_get a b).
Proof. unfold h_cdt_get. wrel_tac. Qed.
#[export] Hint Resolve h_tag_get_wrel h_read_wrel h_write_wrel h_mask_wrel h_atomic_wrel h_cdt_get_wrel : wrel.
(** the requests covered *)
Definition data_op (o : op) : bool :=
  match o with
  | OpRegister _ _ | OpDisconnect _ | OpTagAdd _ _ _ _ _ | OpTagDel _ _ | OpEvAdd _ _ _ _ | OpEvDel _ _ _ | OpEvOpt _ _ _ _
  | OpCdtCreate _ _ | OpMapAdd _ _ _ | OpGrpAdd _ _ | OpGrpDel _ _ | OpOvAdd _ _ _ _ _ | OpOvDel _ _ _ _ | OpOvSet _ _ _ | OpTick _ => false
  | _ => true
  end.
Lemma handle_op_wrel E o : data_op o = true -> pres wrel (handle_op E o).
Proof.
  destruct o; try discriminate; intros _; cbn [handle_op]; unfold with_mod; auto with wrel; wrel_tac.
Qed.
