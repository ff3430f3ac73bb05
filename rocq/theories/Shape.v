(** * Shape: most requests leave the structure of the database alone *)
From Verif Require Import Base Const Types State Events Atomic Server Lib SearchProofs.

(** ** Forward symbolic execution of the state monad *)
Lemma bind_get {S B} (k : S -> M S B) s : bind get k s = k s s. Proof. reflexivity. Qed.
Lemma bind_put {S B} (x : S) (k : unit -> M S B) s : bind (put x) k s = k tt x. Proof. reflexivity. Qed.
Lemma bind_modify {S B} (f : S -> S) (k : unit -> M S B) s : bind (modify f) k s = k tt (f s). Proof. reflexivity. Qed.
Lemma bind_ret {S A B} (x : A) (k : A -> M S B) s : bind (ret x) k s = k x s. Proof. reflexivity. Qed.
Lemma bind_put_tag {B} i t (k : unit -> SM B) s : bind (put_tag i t) k s = k tt (set_tag s i t). Proof. reflexivity. Qed.
Lemma bind_emit {B} o (k : unit -> SM B) s : bind (emit o) k s = k tt (set_out s (s_out s ++ o)). Proof. reflexivity. Qed.
Lemma bind_lift {S A B} (r : run A) (k : A -> M S B) s s' b :
  bind (lift r) k s = Done (s', b) -> exists a, r = Done a /\ k a s = Done (s', b).
Proof. unfold bind, lift; destruct r; [eauto | discriminate]. Qed.
Lemma bind_tag_at {B} i (k : tag -> SM B) s s' b :
  bind (tag_at i) k s = Done (s', b) -> exists t, znth (s_db s) i = Some t /\ k t s = Done (s', b).
Proof. unfold bind, tag_at; destruct (znth (s_db s) i); [eauto | discriminate]. Qed.
Lemma ret_done {S A} (x : A) (s s' : S) b : ret x s = Done (s', b) -> s' = s /\ b = x.
Proof. unfold ret; intros H; injection H as <- <-; auto. Qed.
Lemma done_inj {A} (x y : A) : Done x = Done y -> x = y.
Proof. congruence. Qed.

(** one step of symbolic execution of [H : m s = Done _] *)
Ltac inv1 H :=
  cbv beta zeta in H;
  lazymatch type of H with
  | bind get _ _ = Done _ => rewrite bind_get in H
  | bind (put _) _ _ = Done _ => rewrite bind_put in H
  | bind (modify _) _ _ = Done _ => rewrite bind_modify in H
  | bind (ret _) _ _ = Done _ => rewrite bind_ret in H
  | bind (put_tag _ _) _ _ = Done _ => rewrite bind_put_tag in H
  | bind (emit _) _ _ = Done _ => rewrite bind_emit in H
  | bind (lift _) _ _ = Done _ =>
      let a := fresh "v" in let H' := fresh "Hr" in
      apply bind_lift in H; destruct H as [a [H' H]]
  | bind (tag_at _) _ _ = Done _ =>
      let a := fresh "t" in let H' := fresh "Ht" in
      apply bind_tag_at in H; destruct H as [a [H' H]]
  | bind _ _ _ = Done _ =>
      let s1 := fresh "s" in let a := fresh "v" in let H' := fresh "Hm" in
      apply bind_done in H; destruct H as [s1 [a [H' H]]]
  | rbind _ _ = Done _ =>
      let a := fresh "v" in let H' := fresh "Hr" in
      apply rbind_done in H; destruct H as [a [H' H]]
  | ret _ _ = Done _ => apply ret_done in H; destruct H as [? ?]; subst
  | get _ = Done _ => unfold get in H
  | modify _ _ = Done _ => unfold modify in H
  | put_tag _ _ _ = Done _ => unfold put_tag, modify in H
  | emit _ _ = Done _ => unfold emit, modify in H
  | undef _ _ = Done _ => discriminate H
  | lift _ _ = Done _ => apply lift_done in H; destruct H as [? H]; subst
  | Undef _ = Done _ => discriminate H
  | Done _ = Done _ => injection H; clear H; intros; try discriminate; subst
  | (match ?x with _ => _ end) _ = Done _ => destruct x eqn:?
  | (match ?x with _ => _ end) = Done _ => destruct x eqn:?
  | (let '(_, _) := ?x in _) _ = Done _ => destruct x eqn:?
  end.
Ltac inv H := repeat inv1 H.

(** ** the relation *)
Definition data_shape (d d' : tdata) : Prop :=
  match d, d' with
  | DNull, DNull | DTime, DTime | DMyName, DMyName | DBad, DBad => True
  | DBytes b, DBytes b' => length b' = length b
  | DQueue q, DQueue q' => q_size q' = q_size q
  | _, _ => False
  end.
(** the attribute bits that only tag creation, tag deletion, re-adding and registration touch *)
Definition core_attr (a a' : Z) : Prop :=
  has a' A_READONLY = has a A_READONLY /\ has a' A_VIRTUAL = has a A_VIRTUAL /\ has a' A_RETAIN = has a A_RETAIN /\
  has a' A_SPECIAL = has a A_SPECIAL /\ has a' A_OWNED = has a A_OWNED.
Record tag_shape (t t' : tag) : Prop := mk_tshape {
  ts_type : t_type t' = t_type t;
  ts_count : t_count t' = t_count t;
  ts_name : t_name t' = t_name t;
  ts_fd : t_fd t' = t_fd t;
  ts_data : data_shape (t_data t) (t_data t');
  ts_attr : core_attr (t_attr t) (t_attr t') }.
Definition mod_core (m : module) := (m_uid m, m_name m, m_fd m, m_tagidx m).
Record shape (s s' : server) : Prop := mk_shape {
  sh_index : s_index s' = s_index s;
  sh_count : s_tagcount s' = s_tagcount s;
  sh_types : s_types s' = s_types s;
  sh_dbsize : s_dbsize s' = s_dbsize s;
  sh_len : zlen (s_db s') = zlen (s_db s);
  sh_mods : map mod_core (s_mods s') = map mod_core (s_mods s);
  sh_uid : s_nextuid s' = s_nextuid s;
  sh_muid : s_moduuid s' = s_moduuid s;
  sh_now : s_now s' = s_now s;
  sh_step : s_step s' = s_step s;
  sh_out : exists o, s_out s' = s_out s ++ o;
  sh_tags : forall i t, znth (s_db s) i = Some t -> exists t', znth (s_db s') i = Some t' /\ tag_shape t t' }.

Lemma data_shape_refl d : data_shape d d.
Proof. destruct d; cbn; auto. Qed.
Lemma data_shape_trans a b c : data_shape a b -> data_shape b c -> data_shape a c.
Proof. destruct a, b, c; cbn; try tauto; congruence. Qed.
Lemma core_attr_refl a : core_attr a a.
Proof. repeat split. Qed.
Lemma core_attr_trans a b c : core_attr a b -> core_attr b c -> core_attr a c.
Proof. unfold core_attr; intros; intuition congruence. Qed.
Lemma tag_shape_refl t : tag_shape t t.
Proof. constructor; auto using data_shape_refl, core_attr_refl. Qed.
Lemma tag_shape_trans a b c : tag_shape a b -> tag_shape b c -> tag_shape a c.
Proof.
  intros [] []; constructor; try congruence; [eapply data_shape_trans | eapply core_attr_trans]; eassumption.
Qed.
Lemma out_refl s : exists o : list out, s_out s = s_out s ++ o.
Proof. exists []. rewrite app_nil_r. reflexivity. Qed.
#[export] Hint Resolve out_refl : core.
Lemma shape_refl s : shape s s.
Proof. constructor; auto. intros i t H; exists t; split; [assumption | apply tag_shape_refl]. Qed.
Lemma shape_trans a b c : shape a b -> shape b c -> shape a c.
Proof.
  intros H1 H2. destruct H1, H2. constructor; try congruence.
  { destruct sh_out0 as [o1 E1], sh_out1 as [o2 E2]. exists (o1 ++ o2). rewrite E2, E1, app_assoc. reflexivity. }
  intros i t H. destruct (sh_tags0 _ _ H) as [t1 [E1 T1]]. destruct (sh_tags1 _ _ E1) as [t2 [E2 T2]].
  exists t2; split; [assumption | eapply tag_shape_trans; eassumption].
Qed.
Lemma shape_set_tag s i t t' : znth (s_db s) i = Some t -> tag_shape t t' -> shape s (set_tag s i t').
Proof.
  intros H HT. constructor; try reflexivity; cbn.
  - apply zset_zlen.
  - apply out_refl.
  - intros j u Hj. rewrite znth_zset. destruct ((i =? j) && (0 <=? i) && (i <? zlen (s_db s))) eqn:E.
    + assert (j = i) by lia. subst j. rewrite H in Hj. injection Hj as <-. eauto.
    + exists u. split; [assumption | apply tag_shape_refl].
Qed.

(** has and flag arithmetic *)
Lemma has_set_flag a f g : has (set_flag a f) g = has a g || has f g.
Proof.
  unfold has, set_flag. rewrite Z.land_lor_distr_l.
  destruct (Z.eqb_spec (Z.land a g) 0) as [E|E], (Z.eqb_spec (Z.land f g) 0) as [F|F]; cbn.
  - rewrite E, F. reflexivity.
  - rewrite E. rewrite Z.lor_0_l. destruct (Z.eqb_spec (Z.land f g) 0); [contradiction | reflexivity].
  - rewrite F. rewrite Z.lor_0_r. destruct (Z.eqb_spec (Z.land a g) 0); [contradiction | reflexivity].
  - destruct (Z.eqb_spec (Z.lor (Z.land a g) (Z.land f g)) 0) as [G|G]; [|reflexivity].
    apply Z.lor_eq_0_iff in G. tauto.
Qed.
Lemma has_clr_flag a f g : Z.land (65535 - f) g = g -> has (clr_flag a f) g = has a g.
Proof. intros H. unfold has, clr_flag. rewrite <- Z.land_assoc, H. reflexivity. Qed.
Lemma core_set a f : Z.land f 55 = 0 -> core_attr a (set_flag a f).
Proof.
  intros H.
  assert (K : forall g, Z.land 55 g = g -> has f g = false).
  { intros g Hg. unfold has. rewrite <- Hg, Z.land_assoc, H. reflexivity. }
  unfold core_attr. rewrite !has_set_flag, !K by reflexivity. rewrite !orb_false_r. repeat split.
Qed.
Lemma core_clr a f : Z.land (65535 - f) 55 = 55 -> core_attr a (clr_flag a f).
Proof.
  intros H.
  assert (K : forall g, Z.land 55 g = g -> Z.land (65535 - f) g = g).
  { intros g Hg. rewrite <- Hg at 1. rewrite Z.land_assoc, H. exact Hg. }
  unfold core_attr. rewrite !has_clr_flag by (apply K; reflexivity). repeat split.
Qed.

(** state changes outside the tags *)
Lemma shape_out s o : shape s (set_out s (s_out s ++ o)).
Proof. constructor; auto. { exists o; reflexivity. } intros i t H; exists t; split; [assumption | apply tag_shape_refl]. Qed.
Lemma shape_ret s o : shape s (set_ret s o).
Proof. constructor; try reflexivity; [apply (out_refl s) |]. intros i t H; exists t; split; [assumption | apply tag_shape_refl]. Qed.
Lemma shape_ovi s o : shape s (set_ovi s o).
Proof. constructor; try reflexivity; [apply (out_refl s) |]. intros i t H; exists t; split; [assumption | apply tag_shape_refl]. Qed.
Lemma shape_ovs s o : shape s (set_ovs s o).
Proof. constructor; try reflexivity; [apply (out_refl s) |]. intros i t H; exists t; split; [assumption | apply tag_shape_refl]. Qed.
Lemma shape_upd_mod s uid f : (forall m, mod_core (f m) = mod_core m) -> shape s (upd_mod uid f s).
Proof.
  intros Hf. constructor; auto; cbn.
  - rewrite map_map. apply map_ext. intros m. destruct (m_uid m =? uid); auto.
  - apply out_refl.
  - intros i t H; exists t; split; [assumption | apply tag_shape_refl].
Qed.

Definition pres {A} (R : server -> server -> Prop) (m : SM A) : Prop :=
  forall s s' a, m s = Done (s', a) -> R s s'.

Ltac tshape :=
  constructor; cbn; auto using data_shape_refl, core_attr_refl, core_set, core_clr.

(** ** writes *)
Lemma commit_shape E idx b off size t s s' u :
  znth (s_db s) idx = Some t -> data_shape (t_data t) (DBytes b) ->
  commit E idx t b off size s = Done (s', u) -> shape s s'.
Proof.
  intros Ht Hd H. unfold commit in H. inv1 H.
  assert (S1 : shape s (set_out (set_tag s idx (set_events (set_data t (DBytes b)) (fst v))) (s_out s ++ snd v))).
  { eapply shape_trans; [|apply (shape_out (set_tag s idx (set_events (set_data t (DBytes b)) (fst v))))].
    eapply shape_set_tag; [exact Ht|]. tshape. }
  inv H; [eapply shape_trans; [exact S1 | apply shape_ret] | exact S1].
Qed.

Lemma splice_length off d b : in_bounds off (zlen d) (zlen b) = true -> length (splice off d b) = length b.
Proof. intros H. apply zlen_splice in H. unfold zlen in H. lia. Qed.
Lemma mix_length o n m : length n = length o -> (length o <= length m)%nat -> length (mix o n m) = length o.
Proof.
  revert n m; induction o as [|x o IH]; intros [|y n] [|z m]; cbn; intros; try lia; try reflexivity.
  rewrite IH; lia.
Qed.

Lemma queue_write_size E st q d q' : queue_write E st q d = Done q' -> q_size q' = q_size q.
Proof. unfold queue_write. intros H. inv H; reflexivity. Qed.
Lemma queue_read_size q q' d : queue_read q = Done (Some (q', d)) -> q_size q' = q_size q.
Proof. unfold queue_read. intros H. inv H; reflexivity. Qed.

Lemma tag_write_shape E fd idx off d : pres shape (tag_write E fd idx off d).
Proof.
  intros s s' a H. unfold tag_write in H. inv H; try apply shape_refl.
  - match goal with |- shape _ (set_out ?x _) => apply (shape_trans _ x); [|apply (shape_out x)] end.
    eapply shape_set_tag; [eassumption|].
    tshape. match goal with HH : t_data _ = _ |- _ => rewrite HH end. cbn. eapply queue_write_size; eassumption.
  - eapply commit_shape; [eassumption | | eassumption]. 
    match goal with HH : t_data _ = _ |- _ => rewrite HH end. cbn. apply splice_length.
    match goal with HH : negb (in_bounds _ _ _) = false |- _ => apply negb_false_iff in HH; exact HH end.
Qed.

Lemma tag_mask_write_shape E fd idx off d m : pres shape (tag_mask_write E fd idx off d m).
Proof.
  intros s s' a H. unfold tag_mask_write in H. inv H; try apply shape_refl.
  eapply commit_shape; [eassumption | | eassumption].
  match goal with HH : t_data _ = _ |- _ => rewrite HH end.
  match goal with HH : negb (in_bounds _ _ _) || _ = false |- _ => 
    apply orb_false_iff in HH; destruct HH as [HH Hl]; apply negb_false_iff in HH; rename HH into HB end.
  assert (L : zlen (mix (slice off (zlen d) b) d m) = zlen d).
  { pose proof (zlen_slice _ _ _ HB) as L. unfold zlen in *. rewrite mix_length; lia. }
  cbn. apply splice_length. rewrite L. exact HB.
Qed.
Lemma tag_read_shape E fd idx off size cap : pres shape (tag_read E fd idx off size cap).
Proof.
  intros s s' a H. unfold tag_read in H. inv H; try apply shape_refl.
  eapply shape_set_tag; [eassumption|].
  tshape. match goal with HH : t_data _ = _ |- _ => rewrite HH end. cbn. eapply queue_read_size; eassumption.
Qed.
Lemma sys_write_shape E i d : pres shape (sys_write E i d).
Proof.
  intros s s' a H. unfold sys_write in H. inv H; try apply shape_refl; eapply tag_write_shape; eassumption.
Qed.


(** invert everything that can be inverted *)
Ltac inv_all := repeat match goal with H : _ = Done _ |- _ => inv1 H end.

Create HintDb shp.
#[export] Hint Resolve tag_write_shape tag_mask_write_shape tag_read_shape sys_write_shape : shp.

Lemma set_tag_set_tag s i a b : set_tag (set_tag s i a) i b = set_tag s i b.
Proof. unfold set_tag, set_db. cbn. rewrite zset_zset. reflexivity. Qed.

Ltac tshape2 :=
  solve [ tshape
        | match goal with |- context [match ?x with [] => _ | _ :: _ => _ end] => destruct x; tshape end ].
(** prove [shape s s'] by walking back through the symbolic execution *)
Ltac shp_step :=
  match goal with
  | |- shape ?s ?s => apply shape_refl
  | |- shape _ (set_out ?Y _) => apply (shape_trans _ Y); [| apply (shape_out Y)]
  | |- shape _ (set_ovi _ _) => eapply shape_trans; [| apply shape_ovi]
  | |- shape _ (set_ovs _ _) => eapply shape_trans; [| apply shape_ovs]
  | |- shape _ (set_ret _ _) => eapply shape_trans; [| apply shape_ret]
  | |- shape _ (upd_mod _ _ _) => eapply shape_trans; [| apply shape_upd_mod; intros; reflexivity]
  | |- shape _ (set_tag ?Y ?i ?t') =>
      eapply (shape_trans _ Y); [| eapply shape_set_tag; [cbn; eassumption | solve [tshape2]]]
  | |- shape _ (set_tag (set_tag _ ?i _) ?i _) => rewrite set_tag_set_tag
  | H : ?m ?Y = Done (?X, _) |- shape _ ?X =>
      eapply (shape_trans _ Y); [| let P := fresh in assert (P : pres shape m) by (auto with shp); exact (P _ _ _ H)]
  end.
Ltac shp := repeat shp_step.
Ltac shape_tac := let s := fresh "s" in let s' := fresh "s'" in let a := fresh "a" in let H := fresh "H" in
  intros s s' a H; inv_all; shp.

Lemma override_add_shape E idx off d m : pres shape (override_add E idx off d m).
Proof. unfold override_add. shape_tac. Qed.
Lemma override_del_shape E idx off m : pres shape (override_del E idx off m).
Proof. unfold override_del. shape_tac. Qed.
Lemma override_get_shape idx off size : pres shape (override_get idx off size).
Proof. unfold override_get. shape_tac. Qed.
Lemma override_set_shape E idx flag : pres shape (override_set E idx flag).
Proof. unfold override_set. shape_tac. Qed.

Lemma event_add_shape E h et ud m : pres shape (event_add E h et ud m).
Proof. unfold event_add. shape_tac. Qed.

#[export] Hint Resolve override_add_shape override_del_shape override_get_shape override_set_shape event_add_shape : shp.
Lemma event_del_shape E idx id mo : pres shape (event_del E idx id mo).
Proof. unfold event_del. shape_tac. Qed.
Lemma event_opt_shape idx id o mo : pres shape (event_opt idx id o mo).
Proof. unfold event_opt. shape_tac. Qed.
#[export] Hint Resolve event_del_shape event_opt_shape : shp.
Lemma cleanup_tag_shape E n uid l : pres shape (cleanup_tag E n uid l).
Proof. induction l; cbn [cleanup_tag]; shape_tac. Qed.
#[export] Hint Resolve cleanup_tag_shape : shp.
Lemma cleanup_loop_shape E k uid : pres shape (cleanup_loop E k uid).
Proof. induction k; cbn [cleanup_loop]; shape_tac. Qed.
Lemma map_add_shape a b : pres shape (map_add a b).
Proof. unfold map_add. shape_tac. Qed.
Lemma map_del_shape a b : pres shape (map_del a b).
Proof. unfold map_del. shape_tac. Qed.
#[export] Hint Resolve cleanup_loop_shape map_add_shape map_del_shape : shp.
Lemma respond_shape a b c : pres shape (respond a b c).
Proof. unfold respond. shape_tac. Qed.
#[export] Hint Resolve respond_shape : shp.
Lemma reply_err_shape a b c : pres shape (reply_err a b c).
Proof. unfold reply_err. shape_tac. Qed.
#[export] Hint Resolve reply_err_shape : shp.
Lemma reply_int_shape a b c : pres shape (reply_int a b c).
Proof. unfold reply_int. shape_tac. Qed.
Lemma reply_status_shape a b c : pres shape (reply_status a b c).
Proof. unfold reply_status. shape_tac. Qed.
#[export] Hint Resolve reply_int_shape reply_status_shape : shp.
Lemma group_add_shape a b c : pres shape (group_add a b c).
Proof. unfold group_add. shape_tac. Qed.
Lemma group_del_shape a b c : pres shape (group_del a b c).
Proof. unfold group_del. shape_tac. Qed.
Lemma group_read_loop_shape E hs o b : pres shape (group_read_loop E hs o b).
Proof. revert o b; induction hs; intros o b; cbn [group_read_loop]; shape_tac. Qed.
#[export] Hint Resolve group_add_shape group_del_shape group_read_loop_shape : shp.
Lemma group_read_shape E m i : pres shape (group_read E m i).
Proof. unfold group_read. shape_tac. Qed.
Lemma group_write_loop_shape E hs o b : pres shape (group_write_loop E hs o b).
Proof. revert o b; induction hs; intros o b; cbn [group_write_loop]; shape_tac. Qed.
#[export] Hint Resolve group_read_shape group_write_loop_shape : shp.
Lemma group_write_shape E m i p : pres shape (group_write E m i p).
Proof. unfold group_write. shape_tac. Qed.
#[export] Hint Resolve group_write_shape : shp.

Lemma map_fire_shape E m : pres shape (map_fire E m).
Proof. unfold map_fire. shape_tac. Qed.
#[export] Hint Resolve map_fire_shape : shp.
Lemma map_loop_shape E l o w : pres shape (map_loop E l o w).
Proof. induction l; cbn [map_loop]; shape_tac. Qed.
#[export] Hint Resolve map_loop_shape : shp.
Lemma map_check_shape E i o w : pres shape (map_check E i o w).
Proof. unfold map_check. shape_tac. Qed.
#[export] Hint Resolve map_check_shape : shp.

(** ** atomic operations keep the block's length *)
Lemma byte_loop_length f n k base b b' : byte_loop f n k base b = Done b' -> length b' = length b.
Proof.
  revert k b; induction n as [|n IH]; intros k b H; cbn [byte_loop] in H; inv_all; auto.
  apply IH in H. rewrite H. apply zset_length.
Qed.
Lemma not_bits_length n bit byte b b' : not_bits n bit byte b = Done b' -> length b' = length b.
Proof.
  revert bit byte b; induction n as [|n IH]; intros bit byte b H; cbn [not_bits] in H; inv_all; auto;
  apply IH in H; rewrite H; apply zset_length.
Qed.
Lemma kwidth_range t k : vkind_of t = Some k -> 1 <= kwidth k <= 8.
Proof.
  unfold vkind_of. repeat match goal with |- context [if ?x then _ else _] => destruct x end;
  intros H; inversion H; subst; cbn; lia.
Qed.
Lemma atomic_switch_length E st op h o b b' : atomic_switch E st op h o b = Done (inl b') -> length b' = length b.
Proof.
  assert (A : forall sub, atomic_incdec E st sub h o b = Done (inl b') -> length b' = length b).
  { intros sub H. unfold atomic_incdec in H.
    destruct (negb (h_count h =? 1)); [discriminate|].
    destruct (vkind_of (h_type h)) as [k|] eqn:K; [|discriminate]. inv1 H. inv1 H.
    unfold rd in Hr. destruct (in_bounds (h_byte h) (kwidth k) (zlen b)) eqn:B; [|discriminate].
    assert (L : forall x, length (splice (h_byte h) (le_bytes (Z.to_nat (kwidth k)) x) b) = length b).
    { intros x. apply splice_length. apply kwidth_range in K. rewrite zlen_le_bytes.
      rewrite Z2Nat.id by lia. exact B. }
    cbv zeta in H. repeat match type of H with match ?x with _ => _ end = _ => destruct x end; try discriminate;
    injection H as <-; first [exact (L 0) | apply L]. }
  assert (N : atomic_not h b = Done (inl b') -> length b' = length b).
  { unfold atomic_not. intros H. inv_all; eauto using byte_loop_length, not_bits_length. }
  assert (B : forall op, atomic_bin E st op h o b = Done (inl b') -> length b' = length b).
  { unfold atomic_bin. intros bo H. inv_all; rewrite ?zset_length;
    repeat match goal with X : byte_loop _ _ _ _ _ = Done _ |- _ => apply byte_loop_length in X end; congruence. }
  unfold atomic_switch. intros H.
  repeat match type of H with (if ?x then _ else _) = _ => destruct x end; try discriminate; eauto.
Qed.
Lemma atomic_op_shape E h o d : pres shape (atomic_op E h o d).
Proof.
  intros s s' a H. unfold atomic_op in H. inv H; try apply shape_refl.
  eapply commit_shape; [eassumption | | eassumption].
  match goal with HH : t_data _ = _ |- _ => rewrite HH end. cbn. eapply atomic_switch_length; eassumption.
Qed.
#[export] Hint Resolve atomic_op_shape : shp.

(** ** handlers *)
Lemma h_tag_get_shape E fd r : pres shape (h_tag_get E fd r).
Proof. unfold h_tag_get. shape_tac. Qed.
Lemma h_read_shape E a b c d : pres shape (h_read E a b c d).
Proof. unfold h_read. shape_tac. Qed.
Lemma h_write_shape E a b c d : pres shape (h_write E a b c d).
Proof. unfold h_write. shape_tac. Qed.
Lemma h_mask_shape E a b c d m : pres shape (h_mask E a b c d m).
Proof. unfold h_mask. shape_tac. Qed.
Lemma h_atomic_shape E a b c d : pres shape (h_atomic E a b c d).
Proof. unfold h_atomic. shape_tac. Qed.
Lemma h_cdt_get_shape a b : pres shape (h_cdt_get a b).
Proof. unfold h_cdt_get. shape_tac. Qed.
#[export] Hint Resolve h_tag_get_shape h_read_shape h_write_shape h_mask_shape h_atomic_shape h_cdt_get_shape : shp.

(** requests that cannot change the set of tags, types or modules *)
Definition shape_op (o : op) : bool :=
  match o with
  | OpRegister _ _ | OpDisconnect _ | OpTagAdd _ _ _ _ _ | OpTagDel _ _ | OpCdtCreate _ _ | OpTick _ => false
  | _ => true
  end.
Lemma with_mod_shape fd k : (forall m, pres shape (k m)) -> pres shape (with_mod fd k).
Proof. intros K s s' a H. unfold with_mod in H. inv_all. eapply K; eassumption. Qed.
Lemma handle_op_shape E o : shape_op o = true -> pres shape (handle_op E o).
Proof.
  destruct o; intros Ho; try discriminate Ho; cbn [handle_op]; clear Ho;
  try (apply with_mod_shape; intros ?); shape_tac.
Qed.
