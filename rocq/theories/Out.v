(** * Out: before its answer a request sends nothing but event notifications *)
From Verif Require Import Base Const Types State Events Atomic Server Lib SearchProofs Shape Inv Reach Spec Frame.

Definition evout (s s' : server) : Prop := exists ev, s_out s' = s_out s ++ ev /\ Forall fit_event ev.
Lemma evout_refl s : evout s s.
Proof. exists []. rewrite app_nil_r. auto. Qed.
Lemma evout_trans a b c : evout a b -> evout b c -> evout a c.
Proof.
  intros (x & A & B) (y & C & D). exists (x ++ y). rewrite C, A, app_assoc. split; [reflexivity | apply Forall_app; auto].
Qed.
Lemma evout_same s s' : s_out s' = s_out s -> evout s s'.
Proof. intros H. exists []. rewrite app_nil_r. auto. Qed.
Lemma tag_write_evout E fd i off d : pres evout (tag_write E fd i off d).
Proof.
  intros s s' r H. apply tag_write_cases in H. destruct H.
  - apply evout_refl.
  - exists o. split; [reflexivity|]. apply check_events_fit in H5. exact H5.
  - exists o. split; [reflexivity|]. apply check_events_fit in H5. exact H5.
Qed.
Lemma tag_mask_write_evout E fd i off d m : pres evout (tag_mask_write E fd i off d m).
Proof.
  intros s s' r H. apply tag_mask_write_cases in H. destruct H.
  - apply evout_refl.
  - exists o. split; [reflexivity|]. apply check_events_fit in H6. exact H6.
Qed.
Lemma sys_write_evout E i d : pres evout (sys_write E i d).
Proof.
  intros s s' a H. unfold sys_write in H. inv_all; try apply evout_refl; eapply tag_write_evout; eassumption.
Qed.
Lemma set_attribute_evout E i a : pres evout (set_attribute E i a).
Proof.
  intros s s' u H. destruct (set_attribute_spec _ _ _ _ _ _ H) as (t & r & f & x & _ & _ & ->). apply evout_same; reflexivity.
Qed.
Lemma tag_read_evout E fd i off n c : pres evout (tag_read E fd i off n c).
Proof. intros s s' a H. unfold tag_read in H. inv_all; apply evout_same; reflexivity. Qed.
Lemma commit_evout E i t b off n : pres evout (commit E i t b off n).
Proof.
  intros s s' u H. destruct (commit_spec _ _ _ _ _ _ _ _ _ H) as (evs & o & r & A & -> & _).
  exists o. split; [reflexivity|]. apply check_events_fit in A. exact A.
Qed.
Create HintDb evo.
#[export] Hint Resolve tag_write_evout tag_mask_write_evout sys_write_evout set_attribute_evout tag_read_evout commit_evout : evo.
Ltac evo_step :=
  match goal with
  | |- evout ?s ?s => apply evout_refl
  | H : ?m ?Y = Done (?X, _) |- evout _ ?X =>
      eapply (evout_trans _ Y); [| let P := fresh in assert (P : pres evout m) by (auto with evo); exact (P _ _ _ H)]
  | |- evout _ (set_ovi ?Y _) => apply (evout_trans _ Y); [| apply evout_same; reflexivity]
  | |- evout _ (set_dbsize ?Y _) => apply (evout_trans _ Y); [| apply evout_same; reflexivity]
  | |- evout _ (set_ovs ?Y _) => apply (evout_trans _ Y); [| apply evout_same; reflexivity]
  | |- evout _ (set_tag ?Y _ _) => apply (evout_trans _ Y); [| apply evout_same; reflexivity]
  | |- evout _ (set_mods ?Y _) => apply (evout_trans _ Y); [| apply evout_same; reflexivity]
  | |- evout _ (upd_mod _ _ ?Y) => apply (evout_trans _ Y); [| apply evout_same; reflexivity]
  | |- evout _ (set_tagcount ?Y _) => apply (evout_trans _ Y); [| apply evout_same; reflexivity]
  | |- evout _ (set_index ?Y _) => apply (evout_trans _ Y); [| apply evout_same; reflexivity]
  | |- evout _ (set_db ?Y _) => apply (evout_trans _ Y); [| apply evout_same; reflexivity]
  end.
Ltac evo := repeat evo_step.
Ltac evo_tac := let s := fresh "s" in let s' := fresh "s'" in let a := fresh "a" in let H := fresh "H" in
  intros s s' a H; inv_all; evo.

Lemma put_evout (x : server) s s' u : put x s = Done (s', u) -> s' = x.
Proof. unfold put. congruence. Qed.
Lemma tag_add_evout E fd nm ty c a : pres evout (tag_add E fd nm ty c a).
Proof.
  intros s s' r H. unfold tag_add in H.
  destruct (c =? 0); [inv_all; apply evout_refl|]. inv1 H. inv1 H.
  assert (E0 : evout s s0).
  { destruct (s_dbsize s <=? zlen (s_db s)); [apply put_evout in Hm; subst; apply evout_same; reflexivity | inv_all; apply evout_refl]. }
  eapply evout_trans; [exact E0|]. clear E0 Hm. inv_all; evo.
Qed.
Lemma tag_del_evout E i : pres evout (tag_del E i).
Proof.
  intros s s' r H. unfold tag_del in H. inv1 H.
  destruct (znth (s_db s) i) as [t|]; [|inv_all; apply evout_refl].
  assert (K : forall d nm, (o <- lift (del_events (s_mods s) i (data_block d) (t_events t)) ;;
          emit o ;;;
          put_tag i (set_maps (set_events t []) (Some [])) ;;;
          ix <- lift (del_index (s_index s) nm) ;;
          modify (fun s => set_index s ix) ;;;
          tag_write E (-1) IX_DELETED 0 (tag_desc E (s_step s) i (t_type t) (t_count t) (u16 (t_attr t)) nm) ;;;
          t1 <- tag_at i ;;
          put_tag i (set_attr (set_data (set_name t1 None) DNull) 0) ;;;
          modify (fun s => set_tagcount s (s_tagcount s - 1)) ;;;
          s2 <- get ;;
          sys_write E IX_TAGCOUNT (le_bytes 4 (s_tagcount s2)) ;;;
          ret 0) s = Done (s', r) -> evout s s').
  { clear H. intros d nm K. inv1 K. apply del_events_fit in Hr.
    eapply evout_trans with (b := set_out s (s_out s ++ v)); [exists v; auto|].
    inv1 K. inv_all. evo. }
  destruct (t_data t); try (inv_all; apply evout_refl); destruct (t_name t); try discriminate; destruct (t_maps t); try discriminate; eapply K; exact H.
Qed.
#[export] Hint Resolve tag_add_evout tag_del_evout : evo.
Lemma override_add_evout E idx off d m : pres evout (override_add E idx off d m).
Proof. unfold override_add. evo_tac. Qed.
Lemma override_del_evout E idx off m : pres evout (override_del E idx off m).
Proof. unfold override_del. evo_tac. Qed.
Lemma override_get_evout idx off size : pres evout (override_get idx off size).
Proof. unfold override_get. evo_tac. Qed.
Lemma override_set_evout E idx flag : pres evout (override_set E idx flag).
Proof. unfold override_set. evo_tac. Qed.
Lemma event_add_evout E h et ud m : pres evout (event_add E h et ud m).
Proof. unfold event_add. evo_tac. Qed.
Lemma event_del_evout E idx id mo : pres evout (event_del E idx id mo).
Proof. unfold event_del. evo_tac. Qed.
Lemma event_opt_evout idx id o mo : pres evout (event_opt idx id o mo).
Proof. unfold event_opt. evo_tac. Qed.
#[export] Hint Resolve override_add_evout override_del_evout override_get_evout override_set_evout event_add_evout event_del_evout event_opt_evout : evo.
Lemma map_add_evout a b : pres evout (map_add a b).
Proof. unfold map_add. evo_tac. Qed.
Lemma map_del_evout a b : pres evout (map_del a b).
Proof. unfold map_del. evo_tac. Qed.
#[export] Hint Resolve map_add_evout map_del_evout : evo.
Lemma map_fire_evout E m : pres evout (map_fire E m).
Proof. unfold map_fire. evo_tac. Qed.
#[export] Hint Resolve map_fire_evout : evo.
Lemma map_loop_evout E l o w : pres evout (map_loop E l o w).
Proof. induction l; cbn [map_loop]; evo_tac. Qed.
#[export] Hint Resolve map_loop_evout : evo.
Lemma map_check_evout E i o w : pres evout (map_check E i o w).
Proof. unfold map_check. evo_tac. Qed.
Lemma atomic_op_evout E h o d : pres evout (atomic_op E h o d).
Proof. unfold atomic_op. evo_tac. Qed.
Lemma group_write_loop_evout E hs o b : pres evout (group_write_loop E hs o b).
Proof. revert o; induction hs; intros o; cbn [group_write_loop]; evo_tac. Qed.
#[export] Hint Resolve map_check_evout atomic_op_evout group_write_loop_evout : evo.

Lemma answered_err s s1 fd cmd r : evout s s1 -> answered s (set_out s1 (s_out s1 ++ [OErr fd cmd r])) (OErr fd cmd r).
Proof. intros (ev & A & B). exists ev. cbn. rewrite A, app_assoc. split; [reflexivity | apply fit_is_event; exact B]. Qed.
Lemma answered_resp s s1 fd cmd r : evout s s1 -> answered s (set_out s1 (s_out s1 ++ [OResp fd cmd r])) (OResp fd cmd r).
Proof. intros (ev & A & B). exists ev. cbn. rewrite A, app_assoc. split; [reflexivity | apply fit_is_event; exact B]. Qed.
Lemma app_last_inj {A} (a b : list A) x y : a ++ [x] = b ++ [y] -> x = y.
Proof. intros H. apply app_inj_tail in H. tauto. Qed.
Lemma answered_fun s s' a b : answered s s' a -> answered s s' b -> a = b.
Proof.
  intros (x & A & _) (y & B & _). rewrite A in B. rewrite !app_assoc in B. apply app_last_inj in B. exact B.
Qed.
Lemma answered_step s s' a n : answered s s' a -> answered s (set_step s' n) a.
Proof. intros (x & A & B). exists x. auto. Qed.
(** what the start of the server does *)
Lemma boot_runs E now r s : boot E now r = Done s ->
  exists u, (init_tagbase E ;;;
         (if r_open r then
            restore_types (map snd (sort_by_id (r_types r))) ;;;
            restore_tags E (r_rows r) ;;;
            modify (fun s => set_ret s (mk_rdb true [] 1 []))
          else ret tt)) (empty_server now (mk_rdb false [] 1 [])) = Done (s, u).
Proof. unfold boot. match goal with |- match ?c with _ => _ end = _ -> _ => destruct c as [[s1 u]|] end; [|discriminate]. intros H. injection H as <-. exists u. reflexivity. Qed.
