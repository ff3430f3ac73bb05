(** * TypeFrame: the type registry changes only by [cdt_create] *)
From Verif Require Import Base Const Types State Events Atomic Server Lib SearchProofs Shape Inv Reach Spec Frame Effects Out DataFrame WRel ModInv IdInv.

(** the registry [b] has come from [a] by any number of type creations, successful or not *)
Inductive creates : list cdt -> list cdt -> Prop :=
| cr_refl a : creates a a
| cr_step a def b ty e c : cdt_create a def = Done (b, ty, e) -> creates b c -> creates a c.
Lemma creates_trans a b c : creates a b -> creates b c -> creates a c.
Proof. induction 1; intros Q; [exact Q|]. eapply cr_step; eauto. Qed.
Definition tk (s s' : server) : Prop := creates (s_types s) (s_types s').
Lemma tk_refl s : tk s s.
Proof. apply cr_refl. Qed.
Lemma tk_trans a b c : tk a b -> tk b c -> tk a c.
Proof. apply creates_trans. Qed.
Lemma tk_same s s' : s_types s' = s_types s -> tk s s'.
Proof. unfold tk. intros ->. apply cr_refl. Qed.
Lemma tk_upd s u f : (forall m : module, m = m) -> tk s (upd_mod u f s).
Proof. intros _. apply tk_same. reflexivity. Qed.
Lemma commit_tk E i t b off n : pres tk (commit E i t b off n).
Proof. intros s s' u H. destruct (commit_spec _ _ _ _ _ _ _ _ _ H) as (evs & o & r & A & -> & _). apply tk_same. reflexivity. Qed.
Lemma tag_write_tk E fd i off d : pres tk (tag_write E fd i off d).
Proof. intros s s' r H. apply tag_write_cases in H. destruct H; apply tk_same; reflexivity. Qed.
Lemma tag_mask_write_tk E fd i off d m : pres tk (tag_mask_write E fd i off d m).
Proof. intros s s' r H. apply tag_mask_write_cases in H. destruct H; apply tk_same; reflexivity. Qed.
Lemma set_attribute_tk E i a : pres tk (set_attribute E i a).
Proof. intros s s' u H. destruct (set_attribute_spec _ _ _ _ _ _ H) as (t & r & f & x & _ & _ & ->). apply tk_same; reflexivity. Qed.
Lemma tag_read_tk E fd i off n c : pres tk (tag_read E fd i off n c).
Proof. intros s s' a H. unfold tag_read in H. inv_all; apply tk_same; reflexivity. Qed.
Create HintDb tk.
#[export] Hint Resolve tag_write_tk tag_mask_write_tk set_attribute_tk tag_read_tk commit_tk : tk.
Ltac tk_step :=
  match goal with
  | |- tk ?s ?s => apply tk_refl
  | H : ?m ?Y = Done (?X, _) |- tk _ ?X =>
      eapply (tk_trans _ Y); [| let P := fresh in assert (P : pres tk m) by (auto with tk); exact (P _ _ _ H)]
  | |- tk _ (upd_mod _ _ ?Y) => apply (tk_trans _ Y); [| apply tk_upd; reflexivity]
  | |- tk _ (set_ovi ?Y _) => apply (tk_trans _ Y); [| apply tk_same; reflexivity]
  | |- tk _ (set_dbsize ?Y _) => apply (tk_trans _ Y); [| apply tk_same; reflexivity]
  | |- tk _ (set_ovs ?Y _) => apply (tk_trans _ Y); [| apply tk_same; reflexivity]
  | |- tk _ (set_tag ?Y _ _) => apply (tk_trans _ Y); [| apply tk_same; reflexivity]
  | |- tk _ (set_out ?Y _) => apply (tk_trans _ Y); [| apply tk_same; reflexivity]
  | |- tk _ (set_ret ?Y _) => apply (tk_trans _ Y); [| apply tk_same; reflexivity]
  | |- tk _ (set_now ?Y _) => apply (tk_trans _ Y); [| apply tk_same; reflexivity]
  | |- tk _ (set_tagcount ?Y _) => apply (tk_trans _ Y); [| apply tk_same; reflexivity]
  | |- tk _ (set_index ?Y _) => apply (tk_trans _ Y); [| apply tk_same; reflexivity]
  | |- tk _ (set_mods ?Y _) => apply (tk_trans _ Y); [| apply tk_same; reflexivity]
  | |- tk _ (set_nextuid ?Y _) => apply (tk_trans _ Y); [| apply tk_same; reflexivity]
  | |- tk _ (set_moduuid ?Y _) => apply (tk_trans _ Y); [| apply tk_same; reflexivity]
  | |- tk _ (set_db ?Y _) => apply (tk_trans _ Y); [| apply tk_same; reflexivity]
  end.
Ltac tks := repeat tk_step.
Ltac tk_tac := let s := fresh "s" in let s' := fresh "s'" in let a := fresh "a" in let H := fresh "H" in
  intros s s' a H; inv_all; tks.
Lemma sys_write_tk E i d : pres tk (sys_write E i d).
Proof. unfold sys_write. tk_tac. Qed.
#[export] Hint Resolve sys_write_tk : tk.
Lemma tag_add_tk E fd nm ty c a : pres tk (tag_add E fd nm ty c a).
Proof.
  intros s s' r H. unfold tag_add in H.
  destruct (c =? 0); [inv_all; apply tk_refl|]. inv1 H. inv1 H.
  assert (E0 : tk s s0).
  { destruct (s_dbsize s <=? zlen (s_db s)); [apply put_evout in Hm; subst; apply tk_same; reflexivity | inv_all; apply tk_refl]. }
  eapply tk_trans; [exact E0|]. clear E0 Hm. inv_all; tks.
Qed.
Lemma tag_del_tk E i : pres tk (tag_del E i).
Proof.
  intros s s' r H. unfold tag_del in H. inv1 H.
  destruct (znth (s_db s) i) as [t|]; [|inv_all; apply tk_refl].
  assert (K : forall d nm, (o <- lift (del_events (s_mods s) i (data_block d) (t_events t)) ;;
          emit o ;;;
          put_tag i (set_maps (set_events t []) (Some [])) ;;;
          ix <- lift (del_index (s_index s) nm) ;;
          modify (fun s => set_index s ix) ;;;
          tag_write E (-1) IX_DELETED 0 (tag_desc E (s_step s) i (t_type t) (t_count t) (u16 (t_attr t)) nm) ;;;
          t1 <- tag_at i ;;
          put_tag i (set_attr (set_data (set_name t1 None) DNull) 0) ;;;
          modify (fun s => set_tagcount s (s_tagcount s - 1)) ;;;
          s2 <- get ;;
          sys_write E IX_TAGCOUNT (le_bytes 4 (s_tagcount s2)) ;;;
          ret 0) s = Done (s', r) -> tk s s').
  { clear H. intros d nm K. inv1 K. inv1 K. inv_all. tks. }
  destruct (t_data t); try (inv_all; apply tk_refl); destruct (t_name t); try discriminate; destruct (t_maps t); try discriminate; eapply K; exact H.
Qed.
#[export] Hint Resolve tag_add_tk tag_del_tk : tk.
Lemma override_add_tk E idx off d m : pres tk (override_add E idx off d m).
Proof. unfold override_add. tk_tac. Qed.
Lemma override_del_tk E idx off m : pres tk (override_del E idx off m).
Proof. unfold override_del. tk_tac. Qed.
Lemma override_get_tk idx off size : pres tk (override_get idx off size).
Proof. unfold override_get. tk_tac. Qed.
Lemma override_set_tk E idx flag : pres tk (override_set E idx flag).
Proof. unfold override_set. tk_tac. Qed.
Lemma event_add_tk E h et ud m : pres tk (event_add E h et ud m).
Proof. unfold event_add. tk_tac. Qed.
Lemma event_del_tk E idx id mo : pres tk (event_del E idx id mo).
Proof. unfold event_del. tk_tac. Qed.
Lemma event_opt_tk idx id o mo : pres tk (event_opt idx id o mo).
Proof. unfold event_opt. tk_tac. Qed.
Lemma map_add_tk a b : pres tk (map_add a b).
Proof. unfold map_add. tk_tac. Qed.
Lemma map_del_tk a b : pres tk (map_del a b).
Proof. unfold map_del. tk_tac. Qed.
#[export] Hint Resolve override_add_tk override_del_tk override_get_tk override_set_tk event_add_tk event_del_tk event_opt_tk map_add_tk map_del_tk : tk.
Lemma map_fire_tk E m : pres tk (map_fire E m).
Proof. unfold map_fire. tk_tac. Qed.
#[export] Hint Resolve map_fire_tk : tk.
Lemma map_loop_tk E l o w : pres tk (map_loop E l o w).
Proof. induction l; cbn [map_loop]; tk_tac. Qed.
#[export] Hint Resolve map_loop_tk : tk.
Lemma map_check_tk E i o w : pres tk (map_check E i o w).
Proof. unfold map_check. tk_tac. Qed.
Lemma atomic_op_tk E h o d : pres tk (atomic_op E h o d).
Proof. unfold atomic_op. tk_tac. Qed.
Lemma group_write_loop_tk E : forall hs o b, pres tk (group_write_loop E hs o b).
Proof. induction hs; intros o b; cbn [group_write_loop]; tk_tac. Qed.
Lemma group_read_loop_tk E : forall hs o b, pres tk (group_read_loop E hs o b).
Proof. induction hs; intros o b; cbn [group_read_loop]; tk_tac. Qed.
#[export] Hint Resolve map_check_tk atomic_op_tk group_write_loop_tk group_read_loop_tk : tk.
Lemma group_read_tk E m g : pres tk (group_read E m g).
Proof. unfold group_read. tk_tac. Qed.
Lemma group_write_tk E m g p : pres tk (group_write E m g p).
Proof. unfold group_write. tk_tac. Qed.
Lemma respond_tk a b c : pres tk (respond a b c).
Proof. unfold respond. tk_tac. Qed.
Lemma reply_err_tk a b c : pres tk (reply_err a b c).
Proof. unfold reply_err. tk_tac. Qed.
#[export] Hint Resolve group_read_tk group_write_tk respond_tk reply_err_tk : tk.
Lemma reply_int_tk a b c : pres tk (reply_int a b c).
Proof. unfold reply_int. tk_tac. Qed.
Lemma reply_status_tk a b c : pres tk (reply_status a b c).
Proof. unfold reply_status. tk_tac. Qed.
#[export] Hint Resolve reply_int_tk reply_status_tk : tk.
Lemma h_tag_get_tk E fd r : pres tk (h_tag_get E fd r).
Proof. unfold h_tag_get. tk_tac. Qed.
Lemma h_cdt_get_tk a b : pres tk (h_cdt_get a b).
Proof. unfold h_cdt_get. tk_tac. Qed.
Lemma h_read_tk E a b c d : pres tk (h_read E a b c d).
Proof. unfold h_read. tk_tac. Qed.
Lemma h_write_tk E a b c d : pres tk (h_write E a b c d).
Proof. unfold h_write. tk_tac. Qed.
Lemma h_mask_tk E a b c d m : pres tk (h_mask E a b c d m).
Proof. unfold h_mask. tk_tac. Qed.
Lemma h_atomic_tk E a b c d : pres tk (h_atomic E a b c d).
Proof. unfold h_atomic. tk_tac. Qed.
#[export] Hint Resolve h_tag_get_tk h_cdt_get_tk h_read_tk h_write_tk h_mask_tk h_atomic_tk : tk.
Lemma h_tag_del_tk E a b : pres tk (h_tag_del E a b).
Proof. unfold h_tag_del. tk_tac. Qed.
#[export] Hint Resolve h_tag_del_tk : tk.
Lemma del_owned_tk E fd n : pres tk (del_owned E fd n).
Proof. unfold del_owned. tk_tac. Qed.
#[export] Hint Resolve del_owned_tk : tk.
Lemma del_owned_loop_tk E fd : forall k n, pres tk (del_owned_loop E fd k n).
Proof. induction k; intros n; cbn [del_owned_loop]; tk_tac. Qed.
#[export] Hint Resolve del_owned_loop_tk : tk.
Lemma cleanup_tag_tk E n uid : forall l, pres tk (cleanup_tag E n uid l).
Proof. induction l; cbn [cleanup_tag]; tk_tac. Qed.
#[export] Hint Resolve cleanup_tag_tk : tk.
Lemma cleanup_loop_tk E uid : forall k, pres tk (cleanup_loop E k uid).
Proof. induction k; cbn [cleanup_loop]; tk_tac. Qed.
#[export] Hint Resolve cleanup_loop_tk : tk.
Lemma module_unregister_tk E fd : pres tk (module_unregister E fd).
Proof. unfold module_unregister. tk_tac. Qed.
#[export] Hint Resolve module_unregister_tk : tk.
Lemma module_register_tk E nm fd : pres tk (module_register E nm fd).
Proof. unfold module_register. tk_tac. Qed.
#[export] Hint Resolve module_register_tk : tk.
Lemma tk_create s def b ty e : cdt_create (s_types s) def = Done (b, ty, e) -> tk s (set_types s b).
Proof. intros H. unfold tk. cbn. eapply cr_step; [exact H | apply cr_refl]. Qed.
Lemma h_cdt_create_tk E a b : pres tk (h_cdt_create E a b).
Proof.
  intros s s' u H. unfold h_cdt_create in H. inv1 H. apply bind_done in H as (s1 & x & H1 & H). unfold lift in H1.
  destruct (cdt_create (s_types s) b) as [y|] eqn:C; [|discriminate]. injection H1 as <- <-. destruct y as [[ts ty] err].
  eapply tk_trans; [eapply tk_create; exact C|]. inv1 H. destruct (_ <? 0); [eapply reply_err_tk | eapply respond_tk]; exact H.
Qed.
Lemma make_type_tk def : pres tk (make_type def).
Proof.
  intros s s' u H. unfold make_type in H. inv1 H. apply bind_done in H as (s1 & x & H1 & H). unfold lift in H1.
  destruct (cdt_create (s_types s) def) as [y|] eqn:C; [|discriminate]. injection H1 as <- <-. destruct y as [[ts ty] err].
  inv1 H. apply ret_done in H as [-> _]. eapply tk_create; exact C.
Qed.
#[export] Hint Resolve h_cdt_create_tk make_type_tk : tk.
Lemma group_add_tk u m hs : pres tk (group_add u m hs).
Proof.
  intros s s' r H. unfold group_add in H. destruct (150 <? zlen hs); [apply ret_done in H as [-> ->]; apply tk_refl|]. destruct (group_slot _ _) as [[g z] i].
  destruct (i <? 0); [|destruct (group_fits hs 0)]; inv1 H; apply ret_done in H as [-> ->]; apply tk_same; reflexivity.
Qed.
Lemma group_del_tk u m i : pres tk (group_del u m i).
Proof. unfold group_del. tk_tac. Qed.
#[export] Hint Resolve group_add_tk group_del_tk : tk.
Lemma handle_op_tk E o : pres tk (handle_op E o).
Proof. destruct o; cbn [handle_op]; try unfold with_mod; tk_tac. Qed.
Lemma add_sys_tk E nm ty c : pres tk (add_sys E nm ty c).
Proof. unfold add_sys. tk_tac. Qed.
Lemma add_virtual_tk E nm ty c d : pres tk (add_virtual E nm ty c d).
Proof. unfold add_virtual. tk_tac. Qed.
#[export] Hint Resolve add_sys_tk add_virtual_tk : tk.
Lemma init_tagbase_tk E : pres tk (init_tagbase E).
Proof.
  intros s s' u H. unfold init_tagbase in H.
  repeat (apply bind_done in H as (? & ? & ? & H)). apply ret_done in H as [-> _].
  repeat match goal with Q : get _ = Done _ |- _ => unfold get in Q; injection Q as <- <- end. tks.
Qed.
Lemma restore_types_tk : forall l, pres tk (restore_types l).
Proof. induction l; cbn [restore_types]; tk_tac. Qed.
Lemma restore_tag_tk E x : pres tk (restore_tag E x).
Proof. unfold restore_tag. tk_tac. Qed.
#[export] Hint Resolve restore_types_tk restore_tag_tk init_tagbase_tk : tk.
Lemma restore_tags_tk E : forall l, pres tk (restore_tags E l).
Proof. induction l; cbn [restore_tags]; tk_tac. Qed.
#[export] Hint Resolve restore_tags_tk : tk.
Lemma step_creates E s o s' : step E s o = Done s' -> creates (s_types s) (s_types s').
Proof.
  unfold step. destruct (handle_op E o s) as [[s1 u]|] eqn:H; [|discriminate]. intros K; injection K as <-. exact (handle_op_tk _ _ _ _ _ H).
Qed.
Lemma exec_creates E : forall os s s', exec E s os = Done s' -> creates (s_types s) (s_types s').
Proof.
  induction os as [|o os IH]; intros s s' H; cbn in H; [injection H as <-; apply cr_refl|]. apply rbind_done in H as (s1 & H1 & H).
  eapply creates_trans; [eapply step_creates; exact H1 | apply IH; exact H].
Qed.
Lemma boot_tk E now r s : boot E now r = Done s -> tk (empty_server now (mk_rdb false [] 1 [])) s.
Proof.
  unfold boot. match goal with |- match ?m ?x with _ => _ end = _ -> _ => destruct (m x) as [[s1 u]|] eqn:H end; [|discriminate].
  intros K; injection K as <-. inv1 H. eapply tk_trans; [eapply init_tagbase_tk; exact Hm|].
  destruct (r_open r); [|inv_all; apply tk_refl].
  inv1 H. inv1 H. unfold modify in H; injection H as <-. eapply tk_trans; [eapply restore_types_tk; eassumption|].
  eapply tk_trans; [eapply restore_tags_tk; eassumption|]. apply tk_same; reflexivity.
Qed.
(** every registry of a running server has come from the empty one *)
Lemma reachable_creates E s : reachable E s -> creates [] (s_types s).
Proof.
  intros (now & r & s0 & os & H1 & H2). eapply creates_trans; [exact (boot_tk _ _ _ _ H1) | eapply exec_creates; exact H2].
Qed.
