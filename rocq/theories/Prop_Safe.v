(** * Prop_Safe: requests that stay clear of the known defects never make the server do anything undefined (C80)
    The conditions are those of Safe.v ([sane]); each one excludes a defect shown in another file.  Undefined covers
    memory accesses outside a block, null pointers, use of released or uninitialised memory, overlapping copies,
    signed overflow, illegal shifts, division by zero and the server's own aborts. *)
From Verif Require Import Base Const Types State Events Atomic Server Lib SearchProofs Shape Inv Reach Spec Frame WRel Effects Out DataFrame ModInv IdInv TypesProofs
  Demo Safe SafeInv SafeStep.

(** starting without a retention file *)
Theorem C80_start_defined E now : exists s, init E now = Done s.
Proof. destruct (init_safe E now) as (s & H & _). eauto. Qed.
(** every history of such requests, from any number of clients in any order *)
Theorem C80_run_defined E now s os : init E now = Done s -> all_sane E s os -> exists s', exec E s os = Done s'.
Proof.
  intros H A. destruct (init_safe E now) as (s0 & H0 & L & N). assert (s0 = s) by congruence. subst s0.
  destruct (exec_safe E os s (init_reachable _ _ _ H) L N A) as (s' & X & _). eauto.
Qed.
(** in any state such a history leads to, any further request that meets the conditions *)
Theorem C80_request_defined E now s os s' o :
  init E now = Done s -> all_sane E s os -> exec E s os = Done s' -> sane E s' o -> exists s'', step E s' o = Done s''.
Proof.
  intros H A X F. destruct (init_safe E now) as (s0 & H0 & L & N). assert (s0 = s) by congruence. subst s0.
  destruct (exec_safe E os s (init_reachable _ _ _ H) L N A) as (s1 & Y & L1 & N1). assert (s1 = s') by congruence. subst s1.
  destruct (step_safe E s' o) as (s2 & Z & _); eauto. clear - H X. exists now, empty_ret, s, os. split; [exact H | exact X].
Qed.

(** ** A run that meets the conditions *)
Lemma all_sane_at E now s os : init E now = Done s -> (forall os1 o os2 s1, os = os1 ++ o :: os2 -> exec E s os1 = Done s1 -> sane E s1 o) -> all_sane E s os.
Proof.
  intros _. revert s. induction os as [|o os IH]; intros s H; cbn [all_sane]; [exact I|]. split; [apply (H [] o os s eq_refl eq_refl)|].
  intros s' Hs. apply IH. intros os1 o' os2 s1 Q X. apply (H (o :: os1) o' os2 s1); [rewrite Q; reflexivity|]. cbn [exec]. rewrite Hs. exact X.
Qed.
Lemma all_sane_play E os : plays E os = true -> (forall n o, nth_error os n = Some o -> sane E (after_ops E (firstn n os)) o) ->
  exists s s', init E 1000 = Done s /\ all_sane E s os /\ exec E s os = Done s'.
Proof.
  intros P H. assert (Q := play_after _ _ P). unfold play in Q. apply rbind_done in Q as (s & B & X). exists s, (after_ops E os). split; [exact B|]. split; [|exact X].
  eapply all_sane_at; [exact B|]. intros os1 o os2 s1 -> Y. specialize (H (length os1) o). rewrite firstn_app, firstn_all, Nat.sub_diag, firstn_O, app_nil_r, nth_error_app2, Nat.sub_diag in H by lia.
  specialize (H eq_refl). unfold after_ops, play in H. rewrite B in H. cbn [rbind] in H. rewrite Y in H. exact H.
Qed.
(** two clients; two tags of 10 DINTs, an event, a mapping, a group, an increment, an override, a deletion, a departure *)
Definition safe_ops : list op :=
  [ OpRegister 5 (str "alpha"); OpRegister 6 (str "beta");
    OpTagAdd 5 (str "foo") T_DINT 10 0; OpTagAdd 5 (str "bar") T_DINT 10 0;
    OpEvAdd 6 (mk_h 13 4 0 1 4 T_DINT) EV_GREATER [7; 0; 0; 0];
    OpMapAdd 5 (mk_h 13 0 0 2 8 T_DINT) (mk_h 14 8 0 2 8 T_DINT);
    OpWrite 5 13 4 [9; 0; 0; 0]; OpRead 6 14 12 4;
    OpGrpAdd 6 [mk_h 13 0 0 2 8 T_DINT; mk_h 14 8 0 1 4 T_DINT]; OpGrpRead 6 0;
    OpAtomic 5 (mk_h 13 4 0 1 4 T_DINT) 1 [1; 0; 0; 0];
    OpOvAdd 5 14 0 [9; 9] [255; 15]; OpTagGetName 6 (str "bar"); OpTagDel 5 14; OpDisconnect 5 ].
Ltac look := match goal with H : znth (s_db ?S) ?i = Some ?t |- _ =>
  let v := eval vm_compute in (znth (s_db S) i) in
  match v with
  | Some ?x => let Q := fresh in assert (Q : znth (s_db S) i = v) by (vm_compute; reflexivity); rewrite Q in H; injection H as <-; clear Q
  | None => exfalso; let Q := fresh in assert (Q : znth (s_db S) i = v) by (vm_compute; reflexivity); congruence
  end end.
Ltac num := vm_compute; first [reflexivity | discriminate | congruence].
Ltac evs := repeat match goal with
  | H : In _ [] |- _ => destruct H
  | H : In _ (_ :: _) |- _ => destruct H as [<-|H]
  end.
Ltac al := intros ? ? ? ?; look; cbn [t_events] in *; evs; intros ? ?; first [exfalso; match goal with H : _ < _ < _ |- _ => revert H; vm_compute; intros [? ?]; congruence end | num].
Ltac dl := intros t l m H ? ?; look; cbn [t_maps] in *; match goal with H : Some _ = Some _ |- _ => injection H as <- end; evs; cbn [m_dst h_index]; eexists; (split; [vm_compute; reflexivity | discriminate]).
Ltac wok := split; [num|]; split; [num|]; split; [al|]; intros ? ? ? ? ? ?; look; cbn [t_maps] in *; match goal with H : Some _ = Some _ |- _ => injection H as <- end; evs; cbn [m_dst h_index h_byte]; al.
Ltac noev := intros m i t e H; exfalso; revert H; num.
Lemma safe_ops_sane n o : nth_error safe_ops n = Some o -> sane envS (after_ops envS (firstn n safe_ops)) o.
Proof.
  intros H. destruct n as [|[|[|[|[|[|[|[|[|[|[|[|[|[|[|n]]]]]]]]]]]]]]]; [injection H as <-; (split; [num|]; split; [intros _; cbn [calm]; try exact I|])..|destruct n; discriminate].
  (* connecting *)
  - noev.
  - split; [num|]. split; [repeat constructor; left; reflexivity|]. split; [num|]. left. num.
  - noev.
  - split; [num|]. split; [repeat constructor; left; reflexivity|]. split; [num|]. left. num.
  (* two tags *)
  - right. split; [left; num|]. split; [|intros Q; vm_compute in Q; discriminate]. exists 4. split; [num|]. split; [num|].
    intros i t Ht Hn. exfalso. apply (absent_check envS (after_ops envS (firstn 2 safe_ops)) (str "foo")); [apply after_reachable; num | num | exists i, t; split; assumption].
  - right. split; [left; num|]. split; [|intros Q; vm_compute in Q; discriminate]. exists 4. split; [num|]. split; [num|].
    intros i t Ht Hn. exfalso. apply (absent_check envS (after_ops envS (firstn 3 safe_ops)) (str "bar")); [apply after_reachable; num | num | exists i, t; split; assumption].
  (* event, mapping, write, read *)
  - intros t Ht. right. split; [|split; [intros Q; vm_compute in Q; discriminate | intros Q; vm_compute in Q; discriminate]].
    split; [eexists; vm_compute; reflexivity|]. split; [left; vm_compute; tauto|]. split; [num|]. do 2 (split; [split; num|]). split; [num|]. exists 4. split; [num|]. split; num.
  - unfold map_fits. cbn [h_byte h_size h_type h_bit h_count h_index]. do 6 (split; [num|]). intros Q. discriminate.
  - dl.
  - split; [split; num|]. intros t Ht. look. change (if _ : bool then _ else _) with (write_ok (after_ops envS (firstn 6 safe_ops)) 13 4 4). wok.
  - split; [num|]. split; [split; num|]. split; [num|]. intros t Ht. look. discriminate.
  (* group *)
  - num.
  - eexists. eexists. split; [vm_compute; reflexivity|]. split; [vm_compute; reflexivity|]. intros _ h Ih. cbn [g_members] in Ih. evs; (split; [num|]; split; [num|]; split; [num|]; intros t Ht; cbn [h_index] in Ht; look; reflexivity).
  (* increment *)
  - dl.
  - split; [split; num|]. intros b Hb. vm_compute in Hb. injection Hb as <-. split.
    { split; [eexists; vm_compute; reflexivity|]. split; [left; vm_compute; tauto|]. split; [num|]. do 2 (split; [split; num|]). split; [num|]. exists 4. split; [num|]. split; num. }
    split; [num|]. split; [num|]. split; [wok|]. intros _ _ x Hx. vm_compute in Hx. injection Hx as <-. num.
  (* override, look-up, deletion, departure *)
  - intros t Ht _. look. eexists. split; [reflexivity|]. split; [discriminate|]. do 3 (split; [num|]). split; num.
  - exists 14. eexists. split; vm_compute; reflexivity.
  - exact I.
  - exact I.
  - intros m i t e Hm Ht He. vm_compute in Hm. injection Hm as <-.
    assert (Q : forallb (fun t => forallb (fun e => negb (e_mod e =? 1)) (t_events t)) (s_db (after_ops envS (firstn 14 safe_ops))) = true) by (vm_compute; reflexivity).
    rewrite forallb_forall in Q. apply znth_In in Ht. apply Q in Ht. rewrite forallb_forall in Ht. apply Ht in He. cbn [m_uid]. lia.
  - exact I.
Qed.
(** all fifteen meet the conditions, although use of released memory counts as undefined here *)
Example C80_ex : en_strict envS = true /\ exists s s', init envS 1000 = Done s /\ all_sane envS s safe_ops /\ exec envS s safe_ops = Done s' /\ zlen (s_out s') = 15.
Proof.
  split; [reflexivity|]. destruct (all_sane_play envS safe_ops) as (s & s' & A & B & C); [vm_compute; reflexivity | exact safe_ops_sane|].
  exists s, s'. split; [exact A|]. split; [exact B|]. split; [exact C|]. assert (X : after_ops envS safe_ops = s') by (unfold after_ops, play; change (boot envS 1000 empty_ret) with (init envS 1000); rewrite A; cbn [rbind]; rewrite C; reflexivity).
  rewrite <- X. vm_compute. reflexivity.
Qed.
