(** * Prop_Modules: module registration, status tags and clean-up (C18, C20, C21, C22) *)
From Verif Require Import Base Const Types State Events Atomic Server Lib SearchProofs Shape Inv Reach Spec Frame Effects Out DataFrame ModInv WRel Demo Prop_Tags Prop_Data.

(** ** C18 *)
(** tag [i] is the status tag of a module: a system tag with the special write rules, holding [b] *)
Definition status_tag (s : server) (i : Z) (b : list Z) : Prop :=
  exists t n, named s i (95 :: n) t /\ t_type t = module_type /\ has (t_attr t) A_SPECIAL = true /\
              has (t_attr t) A_VIRTUAL = false /\ t_data t = DBytes b.
(** connection [fd] belongs to the module whose status tag is [i] *)
Definition its_module (s : server) (fd i : Z) : Prop := exists m, find_mod s fd = Some m /\ m_tagidx m = i.

Definition smt (t : tag) : Prop := t_type t = module_type /\ has (t_attr t) A_SPECIAL = true /\ has (t_attr t) A_VIRTUAL = false.
(** bytes allowed to differ: never the first 12; byte 77; the others if [w] *)
Definition lim (w : Prop) (b b' : list Z) : Prop :=
  zlen b' = zlen b /\ (forall k, 0 <= k < 12 -> znth b' k = znth b k) /\ (forall k, k <> 77 -> znth b' k <> znth b k -> w).
Definition prot (M : list module) (w : Prop) (i : Z) (s s' : server) : Prop :=
  s_mods s = M -> s_mods s' = M /\
  forall t b, znth (s_db s) i = Some t -> smt t -> t_data t = DBytes b ->
    exists t' b', znth (s_db s') i = Some t' /\ smt t' /\ t_name t' = t_name t /\ t_data t' = DBytes b' /\ lim w b b'.
Lemma lim_refl w b : lim w b b.
Proof. split; [reflexivity|]. split; [reflexivity|]. intros k _ H; congruence. Qed.
Lemma znth_dec (b b' : list Z) k : znth b' k = znth b k \/ znth b' k <> znth b k.
Proof. destruct (znth b' k) as [x|], (znth b k) as [y|]; try (right; discriminate); [|left; reflexivity].
  destruct (Z.eq_dec x y); [left | right]; congruence. Qed.
Lemma lim_trans w a b c : lim w a b -> lim w b c -> lim w a c.
Proof.
  intros (A1 & A2 & A3) (B1 & B2 & B3). split; [congruence|]. split; [intros k Hk; rewrite B2, A2 by exact Hk; reflexivity|].
  intros k Hk Hne. destruct (znth_dec b c k) as [Q|Q]; [|exact (B3 k Hk Q)]. apply (A3 k Hk). congruence.
Qed.
Lemma prot_refl M w i s : prot M w i s s.
Proof. intros H. split; [exact H|]. intros t b A B C. exists t, b. repeat (split; auto using lim_refl). Qed.
Lemma prot_trans M w i a b c : prot M w i a b -> prot M w i b c -> prot M w i a c.
Proof.
  intros P Q H. destruct (P H) as [H1 P1]. destruct (Q H1) as [H2 Q2]. split; [exact H2|]. intros t x A B C.
  destruct (P1 _ _ A B C) as (t1 & x1 & A1 & B1 & N1 & C1 & L1). destruct (Q2 _ _ A1 B1 C1) as (t2 & x2 & A2 & B2 & N2 & C2 & L2).
  exists t2, x2. repeat (split; [assumption || congruence|]). eapply lim_trans; eassumption.
Qed.
Lemma prot_same M w i s s' : s_db s' = s_db s -> s_mods s' = s_mods s -> prot M w i s s'.
Proof. intros A B H. split; [congruence|]. intros t b Ht P D. exists t, b. rewrite A. repeat (split; auto using lim_refl). Qed.
Lemma prot_set_tag M w i s j t t' : znth (s_db s) j = Some t -> (smt t -> smt t') -> t_name t' = t_name t ->
  (smt t -> forall b, t_data t = DBytes b -> j = i -> exists b', t_data t' = DBytes b' /\ lim w b b') -> prot M w i s (set_tag s j t').
Proof.
  intros Ht P N L H. split; [exact H|]. intros u b Hu Su D. cbn. rewrite znth_zset.
  destruct ((j =? i) && (0 <=? j) && (j <? zlen (s_db s))) eqn:B.
  - assert (j = i) by lia. subst j. assert (u = t) by congruence. subst u. destruct (L Su _ D eq_refl) as (b' & X & Y). exists t', b'. auto 10.
  - exists u, b. repeat (split; auto using lim_refl).
Qed.
Definition own (M : list module) (fd i : Z) : Prop := exists m, find (fun m => m_fd m =? fd) M = Some m /\ m_tagidx m = i.
Lemma splice_lim w off d b : in_bounds off (zlen d) (zlen b) = true -> (w /\ 12 <= off \/ off = 77 /\ zlen d = 1) -> lim w b (splice off d b).
Proof.
  intros B C. split; [apply zlen_splice; exact B|]. assert (B' := B). unfold in_bounds in B'. split.
  - intros k Hk. destruct (Z.ltb_spec k (zlen b)).
    + rewrite znth_splice by (assumption || lia). replace ((off <=? k) && (k <? off + zlen d)) with false by lia. reflexivity.
    + rewrite !(proj2 (znth_none _ _)); rewrite ?zlen_splice by exact B; try lia; reflexivity.
  - intros k Hk Hne. destruct C as [[C _]|[C1 C2]]; [exact C|]. exfalso. apply Hne.
    destruct (Z.ltb_spec k (zlen b)); [destruct (Z.leb_spec 0 k)|].
    + rewrite znth_splice by (assumption || lia). replace ((off <=? k) && (k <? off + zlen d)) with false by lia. reflexivity.
    + rewrite !(proj2 (znth_none _ _)); try lia; reflexivity.
    + rewrite !(proj2 (znth_none _ _)); rewrite ?zlen_splice by exact B; try lia; reflexivity.
Qed.

Lemma special_own s fd i t off n : smt t -> special_ok s fd i t off n ->
  own (s_mods s) fd i /\ 12 <= off \/ off = 77 /\ n = 1.
Proof.
  intros (A & B & _) S. specialize (S B). unfold special_write in S. replace (t_type t =? module_type) with true in S by lia.
  destruct ((off =? 77) && (n =? 1)) eqn:C; [right; lia|]. destruct (find_mod s fd) as [m|] eqn:F; [|discriminate].
  destruct (negb (m_tagidx m =? i)) eqn:G; [discriminate|]. destruct (off <? 12) eqn:L; [discriminate|]. left. split; [|lia].
  exists m. split; [exact F | lia].
Qed.
Lemma tag_write_prot M (w : Prop) i E fd j off d : (own M fd i -> w) -> pres (prot M w i) (tag_write E fd j off d).
Proof.
  intros W s s' r H. apply tag_write_cases in H. destruct H as [|t q q' evs o Ht V D|t b evs o r Ht V D Hf Hb Hs].
  - apply prot_refl.
  - eapply prot_trans with (b := set_tag s j (set_events (set_data t (DQueue q')) evs)); [|apply prot_same; reflexivity].
    eapply prot_set_tag; [exact Ht | intros X; exact X | reflexivity |]. intros (_ & _ & X). congruence.
  - intros Hm. unfold committed.
    eapply (prot_trans M w i _ (set_tag s j (set_events (set_data t (DBytes (splice off d b))) evs))); [|apply prot_same; reflexivity | exact Hm].
    eapply prot_set_tag; [exact Ht | intros X; exact X | reflexivity |]. intros X b0 D0 ->. assert (b0 = b) by congruence. subst b0.
    eexists. split; [reflexivity|]. apply splice_lim; [exact Hb|]. apply special_own in Hs; [|exact X]. rewrite Hm in Hs. tauto.
Qed.
Lemma tag_mask_write_prot M (w : Prop) i E fd j off d m : (own M fd i -> w) -> pres (prot M w i) (tag_mask_write E fd j off d m).
Proof.
  intros W s s' r H. apply tag_mask_write_cases in H. destruct H as [|t b evs o r Ht V D Hf Hb Hl Hs].
  - apply prot_refl.
  - intros Hm. unfold committed. set (x := mix _ _ _) in *. assert (Lx : zlen x = zlen d).
    { unfold x. rewrite zlen_mix; rewrite zlen_slice; auto. }
    eapply (prot_trans M w i _ (set_tag s j (set_events (set_data t (DBytes (splice off x b))) evs))); [|apply prot_same; reflexivity | exact Hm].
    eapply prot_set_tag; [exact Ht | intros X; exact X | reflexivity |]. intros X b0 D0 ->. assert (b0 = b) by congruence. subst b0.
    eexists. split; [reflexivity|]. apply splice_lim; [rewrite Lx; exact Hb|]. apply special_own in Hs; [|exact X]. rewrite Hm in Hs. rewrite Lx. tauto.
Qed.
Lemma tag_read_prot M w i E fd j off n c : pres (prot M w i) (tag_read E fd j off n c).
Proof.
  intros s s' a H. unfold tag_read in H. inv_all; try apply prot_refl.
  eapply prot_set_tag; [eassumption | intros X; exact X | reflexivity |]. intros _ b X. congruence.
Qed.
Lemma map_del_prot M w i a b : pres (prot M w i) (map_del a b).
Proof.
  intros s s' r H. unfold map_del in H. inv_all; try apply prot_refl;
  (eapply prot_set_tag; [eassumption | intros X; exact X | reflexivity |]; intros _ b0 X _; exists b0; split; [exact X | apply lim_refl]).
Qed.
Create HintDb prot.
#[export] Hint Resolve tag_write_prot tag_mask_write_prot tag_read_prot map_del_prot : prot.
Ltac prot_step :=
  match goal with
  | |- prot _ _ _ ?s ?s => apply prot_refl
  | |- prot _ _ _ _ (set_out ?Y _) => apply (prot_trans _ _ _ _ Y); [| apply prot_same; reflexivity]
  | H : ?m ?Y = Done (?X, _) |- prot ?M ?w ?i _ ?X =>
      eapply (prot_trans _ _ _ _ Y); [| let P := fresh in assert (P : pres (prot M w i) m) by (auto with prot); exact (P _ _ _ H)]
  end.
Ltac prots := repeat prot_step.
Ltac prot_tac := let s := fresh "s" in let s' := fresh "s'" in let a := fresh "a" in let H := fresh "H" in
  intros s s' a H; inv_all; prots.
Lemma map_fire_prot M (w : Prop) i E m : (own M (-1) i -> w) -> pres (prot M w i) (map_fire E m).
Proof. intros W. unfold map_fire. prot_tac. Qed.
#[export] Hint Resolve map_fire_prot : prot.
Lemma map_loop_prot M (w : Prop) i E l o n : (own M (-1) i -> w) -> pres (prot M w i) (map_loop E l o n).
Proof. intros W. induction l; cbn [map_loop]; prot_tac. Qed.
#[export] Hint Resolve map_loop_prot : prot.
Lemma map_check_prot M (w : Prop) i E j o n : (own M (-1) i -> w) -> pres (prot M w i) (map_check E j o n).
Proof. intros W. unfold map_check. prot_tac. Qed.
Lemma atomic_op_prot M w i E h o d : pres (prot M w i) (atomic_op E h o d).
Proof.
  unfold atomic_op. intros s s' a H. inv_all; prots. destruct (commit_spec _ _ _ _ _ _ _ _ _ Hm) as (evs & o' & r & _ & -> & _).
  match goal with X : _ || _ = false |- _ => apply orb_false_iff in X as [V S] end. unfold committed.
  match goal with |- context [set_tag s ?j ?x] => eapply (prot_trans M w i _ (set_tag s j x)); [|apply prot_same; reflexivity] end.
  eapply prot_set_tag; [eassumption | intros X; exact X | reflexivity |]. intros (_ & X & _). congruence.
Qed.
Lemma group_read_loop_prot M w i E hs o b : pres (prot M w i) (group_read_loop E hs o b).
Proof. revert o b; induction hs; intros o b; cbn [group_read_loop]; prot_tac. Qed.
Lemma group_write_loop_prot M (w : Prop) i E hs o b : (own M (-1) i -> w) -> pres (prot M w i) (group_write_loop E hs o b).
Proof. intros W. revert o; induction hs; intros o; cbn [group_write_loop]; prot_tac. Qed.
#[export] Hint Resolve map_check_prot atomic_op_prot group_read_loop_prot group_write_loop_prot : prot.
Lemma group_read_prot M w i E m g : pres (prot M w i) (group_read E m g).
Proof. unfold group_read. prot_tac. Qed.
Lemma group_write_prot M (w : Prop) i E m g p : (own M (-1) i -> w) -> pres (prot M w i) (group_write E m g p).
Proof. intros W. unfold group_write. prot_tac. Qed.
Lemma override_get_prot M w i a b c : pres (prot M w i) (override_get a b c).
Proof. unfold override_get. prot_tac. Qed.
Lemma respond_prot M w i a b c : pres (prot M w i) (respond a b c).
Proof. unfold respond. prot_tac. Qed.
Lemma reply_err_prot M w i a b c : pres (prot M w i) (reply_err a b c).
Proof. unfold reply_err. prot_tac. Qed.
#[export] Hint Resolve group_read_prot group_write_prot override_get_prot respond_prot reply_err_prot : prot.
Lemma reply_int_prot M w i a b c : pres (prot M w i) (reply_int a b c).
Proof. unfold reply_int. prot_tac. Qed.
Lemma reply_status_prot M w i a b c : pres (prot M w i) (reply_status a b c).
Proof. unfold reply_status. prot_tac. Qed.
#[export] Hint Resolve reply_int_prot reply_status_prot : prot.
Definition writes (o : op) (fd : Z) : Prop := match o with OpWrite f _ _ _ | OpMask f _ _ _ _ => f = fd | _ => False end.
Lemma handle_op_prot M (w : Prop) i E o : data_op o = true -> (own M (-1) i -> w) -> (forall fd, writes o fd -> own M fd i -> w) ->
  pres (prot M w i) (handle_op E o).
Proof.
  intros D W1 W2. destruct o; try discriminate D; cbn [handle_op writes] in *; try (assert (W3 := W2 _ eq_refl)); unfold with_mod, h_tag_get, h_read, h_write, h_mask, h_atomic, h_cdt_get; prot_tac.
Qed.
Lemma status_index E s i b : reachable E s -> status_tag s i b -> 9 <= i.
Proof.
  intros R (t & n & [Ht Hn] & T1 & _). destruct (Z.leb_spec 9 i); [assumption|]. exfalso. assert (S := reachable_sys _ _ R).
  assert (Rg := znth_range _ _ _ Ht). destruct (znth_some sys_tags i) as [[n1 ty] Hq]; [change (zlen sys_tags) with 11; lia|].
  destruct (si_tags _ _ S _ _ _ Hq) as (t1 & A & [(_ & B & _)|[B _]]); assert (t1 = t) by congruence; subst t1; [|congruence].
  rewrite T1 in B. subst ty. apply znth_In in Hq. cbn in Hq. repeat (destruct Hq as [Hq|Hq]; [discriminate Hq|]). exact Hq.
Qed.
(** Any request but a (re-)registration or a disconnect, whoever sends it: the first twelve bytes (start
    time and id) stay, byte 77 is free, and any other byte only changes by a write of the tag's own module. *)
Theorem C18_status_protected : forall E s o s' i b,
  reachable E s -> status_tag s i b -> (forall m, In m (s_mods s) -> 0 <= m_fd m) ->
  match o with OpRegister _ _ | OpDisconnect _ => False | _ => True end ->
  step E s o = Done s' ->
  exists b', status_tag s' i b' /\ zlen b' = zlen b /\
    (forall k, 0 <= k < 12 -> znth b' k = znth b k) /\
    (forall k, 0 <= k -> k <> 77 -> znth b' k <> znth b k -> exists fd, writes o fd /\ its_module s fd i).
Proof.
  intros E s o s' i b R (t & n & [Ht Hn] & T1 & T2 & T3 & D) Fd Ex H. assert (I := reachable_Inv _ _ R).
  assert (Hi : 9 <= i) by (eapply status_index; [exact R | exists t, n; unfold named; eauto 6]).
  assert (Keep : spares s o i -> exists b', status_tag s' i b' /\ zlen b' = zlen b /\
    (forall k, 0 <= k < 12 -> znth b' k = znth b k) /\
    (forall k, 0 <= k -> k <> 77 -> znth b' k <> znth b k -> exists fd, writes o fd /\ its_module s fd i)).
  { intros Sp. exists b. split; [|split; [reflexivity|]; split; [reflexivity | congruence]].
    assert (C := core_frame _ _ _ _ _ I Hi Sp H). assert (B := bytes_frame _ _ _ _ _ I Hi Sp H).
    destruct (C _ Ht) as (t1 & A1 & A2). destruct (B _ Ht) as (t2 & B1 & B2). assert (t2 = t1) by congruence. subst t2.
    unfold tcore in A2. exists t1, n. split; [split; [exact A1 | congruence]|]. split; [congruence|].
    split; [rewrite <- T2; unfold core_attr in A2; congruence|]. split; [congruence|].
    unfold dbytes in B2. rewrite D in B2. cbn in B2. unfold data_block in B2. destruct (t_data t1); congruence. }
  destruct (data_op o) eqn:Do.
  - clear Keep. apply step_inv in H as (s1 & u & H & ->).
    assert (NW : own (s_mods s) (-1) i -> exists fd, writes o fd /\ its_module s fd i).
    { intros (m & F & _). apply find_some in F as [F1 F2]. apply Fd in F1. lia. }
    assert (OW : forall fd, writes o fd -> own (s_mods s) fd i -> exists fd, writes o fd /\ its_module s fd i) by (intros fd A B; exists fd; auto).
    destruct (handle_op_prot (s_mods s) _ i E o Do NW OW _ _ _ H eq_refl) as [_ P].
    destruct (P _ _ Ht ltac:(split; auto) D) as (t' & b' & A & (B1 & B2 & B3) & N & C & L1 & L2 & L3).
    exists b'. split; [exists t', n; split; [split; [exact A | congruence]|]; auto|]. split; [exact L1|]. split; [exact L2|]. intros k _. apply L3.
  - destruct o; try discriminate Do; try contradiction; try (apply Keep; exact Logic.I).
    + destruct (nthb nm 0 =? 95) eqn:U.
      * apply step_inv in H as (s1 & u & H & ->). apply h_tag_add_effect in H as [[_ ->]|[U' _]]; [|lia]. exists b. split; [exists t, n; unfold named; auto|].
        split; [reflexivity|]. split; [reflexivity|]. congruence.
      * apply Keep. cbn. unfold name_at. rewrite Ht, Hn. intros Q. injection Q as <-. discriminate U.
    + destruct (Z.eq_dec idx i) as [->|]; [|apply Keep; assumption].
      apply step_inv in H as (s1 & u & H & ->). apply h_tag_del_effect in H as [(c & _ & ->)|(n1 & t1 & s2 & [N1 N2] & U & _)]; [| |exact I].
      * exists b. split; [exists t, n; unfold named; auto|]. split; [reflexivity|]. split; [reflexivity|]. congruence.
      * exfalso. assert (t1 = t) by congruence. subst t1. assert (n1 = 95 :: n) by congruence. subst n1. apply U. reflexivity.
Qed.

(** what is allowed: anyone may write the command byte, the module everything after its id *)
Theorem C18_permitted : forall E s fd i off d s' b,
  reachable E s -> status_tag s i b -> (forall t, znth (s_db s) i = Some t -> has (t_attr t) A_READONLY = false) ->
  0 <= off -> off + zlen d <= zlen b -> zlen b < 2147483648 ->
  (off = 77 /\ zlen d = 1) \/ (its_module s fd i /\ 12 <= off) ->
  step E s (OpWrite fd i off d) = Done s' -> answered s s' (OResp fd MSG_TAG_WRITE []).
Proof.
  intros E s fd i off d s' b R (t & n & [Ht Hn] & T1 & T2 & T3 & D) RO H0 H1 H2 P H. assert (I := reachable_Inv _ _ R).
  apply step_inv in H as (s1 & u & H & ->). cbn [handle_op] in H. unfold h_write in H. inv1 H. inv1 H. inv1 H.
  rewrite (attr_at_znth _ _ _ _ Ht) in Hr. injection Hr as <-. rewrite (RO _ Ht) in Hm. cbn [andb] in Hm.
  assert (Ev := tag_write_evout _ _ _ _ _ _ _ _ Hm).
  assert (v0 = 0).
  { unfold tag_write in Hm. rewrite Ht, T3 in Hm. assert (Nd := zlen_nonneg d). replace (fits32 (off + zlen d)) with true in Hm by (unfold fits32; lia). cbn [negb] in Hm.
    rewrite (stored_size _ _ _ _ I Ht D) in Hm. cbn [rbind] in Hm. rewrite s32_small in Hm by lia.
    replace (zlen b <? off + zlen d) with false in Hm by lia. rewrite D, T2 in Hm. cbv zeta in Hm.
    assert (Sp : special_write s fd i t off (zlen d) = 0).
    { unfold special_write. replace (t_type t =? module_type) with true by lia. destruct P as [[-> ->]|[(m & F & P1) P2]]; [reflexivity|].
      destruct ((off =? 77) && (zlen d =? 1)); [reflexivity|]. rewrite F. replace (m_tagidx m =? i) with true by lia. cbn [negb].
      replace (off <? 12) with false by lia. reflexivity. }
    rewrite Sp in Hm. cbn [Z.eqb negb] in Hm. replace (in_bounds off (zlen d) (zlen b)) with true in Hm by (symmetry; apply in_bounds_iff; lia).
    cbn [negb] in Hm. destruct (commit E i t (splice off d b) off (zlen d) s) as [[x y]|]; congruence. }
  subst v0. cbn [Z.eqb negb] in H. inv1 H. rewrite zlen_nil_resp in H. injection H as <- _.
  apply answered_step, answered_resp. eapply evout_trans; [exact Ev | eapply map_check_evout; eassumption].
Qed.
Example C18_ex : exists b, status_tag demo 11 b /\ zlen b = 78 /\ its_module demo 5 11 /\ ~ its_module demo 6 11.
Proof.
  eexists. split; [eexists; exists (str "malpha"); split; [split; vm_compute; reflexivity|]; split; [vm_compute; reflexivity|];
    split; [vm_compute; reflexivity|]; split; vm_compute; reflexivity|].
  split; [vm_compute; reflexivity|]. split; [eexists; split; vm_compute; reflexivity|].
  intros (m & A & B). vm_compute in A. injection A as <-. discriminate B.
Qed.

(** ** C20 *)
Definition owned_by (t : tag) (fd : Z) : Prop := has (t_attr t) A_OWNED = true /\ t_fd t = fd.
(** exactly the tags owned by the connection and the status tag of its module go; the others keep
    name, type, size and (unless the server itself maintains them: index below 9) their data *)
Theorem C20_disconnect : forall E s fd m s' j t n,
  reachable E s -> find_mod s fd = Some m -> named s j n t -> step E s (OpDisconnect fd) = Done s' ->
  (owned_by t fd \/ j = m_tagidx m -> gone s' j) /\
  (~ (owned_by t fd \/ j = m_tagidx m) ->
     exists t', named s' j n t' /\ t_type t' = t_type t /\ t_count t' = t_count t /\ (9 <= j -> t_data t' = t_data t)).
Proof.
  intros E s fd m s' j t n R F [Ht Hn] H. assert (I := reachable_Inv _ _ R).
  apply step_inv in H as (s1 & u & H & ->). cbn [handle_op] in H.
  destruct (module_unregister_effect _ _ _ _ _ _ I F H) as (A & B & C & _).
  assert (Ow : tag_owned s fd j = true <-> owned_by t fd).
  { unfold tag_owned, owned_by. rewrite Ht. rewrite andb_true_iff. rewrite Z.eqb_eq. reflexivity. }
  assert (Rg := znth_range _ _ _ Ht). split.
  - intros Q. destruct (B j Rg) as (t' & G1 & G2 & _); [rewrite Ow; exact Q|]. exists t'. auto.
  - intros Q. destruct (A j) as [[K1 K2]|[K _]]; [|rewrite Ow in K; contradiction].
    unfold core_at in K1. rewrite Ht in K1. destruct (znth (s_db s1) j) as [t'|] eqn:Ht'; [|discriminate]. cbn in K1. unfold tcore in K1.
    exists t'. split; [split; [exact Ht' | congruence]|]. split; [congruence|]. split; [congruence|]. intros Hj.
    assert (D : data_at s1 j = data_at s j) by (apply K2; unfold status_ix, IX_TAGCOUNT, IX_LASTINDEX, IX_ADDED, IX_DELETED; lia).
    unfold data_at in D. rewrite Ht, Ht' in D. cbn in D. congruence.
Qed.
(** and no tag appears *)
Theorem C20_nothing_new : forall E s fd s' j n t',
  reachable E s -> step E s (OpDisconnect fd) = Done s' -> named s' j n t' -> exists t, named s j n t.
Proof.
  intros E s fd s' j n t' R H [Ht' Hn']. assert (I := reachable_Inv _ _ R).
  apply step_inv in H as (s1 & u & H & ->). cbn [handle_op] in H. apply named_iff.
  assert (Q : name_at s1 j = Some n) by (unfold name_at; cbn in Ht'; rewrite Ht'; exact Hn'). destruct (find_mod s fd) as [m|] eqn:F.
  - destruct (module_unregister_effect _ _ _ _ _ _ I F H) as (A & _). destruct (A j) as [K|[_ K]].
    + rewrite (kept_name _ _ _ K) in Q. exact Q.
    + rewrite (is_gone_name _ _ K) in Q. discriminate.
  - unfold module_unregister in H. inv1 H. rewrite F in H. inv_all. exact Q.
Qed.
(** a module with an owned tag disconnects while another one stays *)
Example C20_ex : exists m s1 s2 t, step env0 demo (OpTagAdd 5 (str "mine") T_DINT 3 A_OWNED) = Done s1 /\
  find_mod s1 5 = Some m /\ named s1 16 (str "mine") t /\ owned_by t 5 /\ step env0 s1 (OpDisconnect 5) = Done s2 /\
  gone s2 16 /\ gone s2 11 /\ exists_tag s2 (str "foo") /\ exists_tag s2 (str "_mbeta").
Proof.
  eexists _, _, _, _. split; [vm_compute; reflexivity|]. split; [vm_compute; reflexivity|].
  split; [split; [vm_compute; reflexivity|vm_compute; reflexivity]|]. split; [split; [vm_compute; reflexivity|vm_compute; reflexivity]|].
  split; [vm_compute; reflexivity|]. split; [eexists; split; [vm_compute; reflexivity|vm_compute; reflexivity]|].
  split; [eexists; split; [vm_compute; reflexivity|vm_compute; reflexivity]|].
  split; [exists 13; eexists; split; [vm_compute; reflexivity|vm_compute; reflexivity]|].
  exists 12; eexists; split; [vm_compute; reflexivity|vm_compute; reflexivity].
Qed.

(** ** C21 *)
(** FULL STATEMENT (false, see [C21_refuted]): the same for every list [en_excl E] of modules that
    get no status tag. *)
Theorem C21_server_tags_partial : forall E s j n ty,
  reachable E s -> en_excl E = [] -> znth sys_tags j = Some (n, ty) -> exists t, named s j n t /\ t_type t = ty.
Proof.
  intros E s j n ty R X H. destruct (si_tags _ _ (reachable_sys _ _ R) _ _ _ H) as (t & A & [(B & C & _)|[_ B]]); [|congruence].
  exists t. split; [split; assumption | exact C].
Qed.
(** in general it takes a module from that list *)
Theorem C21_excluded_only_partial : forall E s o s' j n ty t,
  reachable E s -> znth sys_tags j = Some (n, ty) -> named s j n t -> step E s o = Done s' -> gone s' j ->
  exists fd m, sender o = Some fd /\ find_mod s fd = Some m /\ In (m_name m) (en_excl E) /\ j = 0.
Proof.
  intros E s o s' j n ty t R Hj [Ht Hn] H (t' & G1 & G2). assert (I := reachable_Inv _ _ R). assert (S := reachable_sys _ _ R).
  assert (Lo : j < 11) by (apply znth_range in Hj; cbn in Hj; lia).
  assert (No : has (t_attr t) A_OWNED = false).
  { destruct (si_tags _ _ S _ _ _ Hj) as (t1 & A & [(_ & _ & B)|[B _]]); assert (t1 = t) by congruence; subst t1; [exact B | congruence]. }
  assert (Us : nthb n 0 = 95).
  { destruct (sys_name_low _ _ _ _ S Ht Lo) as [Q|[x Q]]; rewrite Hn in Q; [discriminate|]. injection Q as ->. reflexivity. }
  assert (Gn : name_at s' j = None) by (unfold name_at; rewrite G1; exact G2).
  assert (Nn : name_at s j = Some n) by (unfold name_at; rewrite Ht; exact Hn).
  assert (K : (name_at s' j = name_at s j) \/ exists fd m, sender o = Some fd /\ find_mod s fd = Some m /\ (tag_owned s fd j = true \/ j = m_tagidx m)).
  { destruct (directory_op o) eqn:Do; [|left; eapply quiet_names; eassumption]. destruct o; try discriminate Do; clear Do;
    apply step_inv in H as (s1 & u & H & ->); cbn [handle_op] in H.
    - inv1 H. inv1 H. inv1 H. assert (Ef := module_register_effect _ _ _ _ _ _ I Hm j). clear Hm.
      assert (Q : name_at s1 j = name_at s0 j).
      { apply shape_name. eapply shape_trans; [eapply tag_read_shape; exact Hm0 | eapply respond_shape; exact H]. }
      change (name_at (set_step s1 (s_step s1 + 1)) j) with (name_at s1 j). rewrite Q.
      destruct Ef as [Ef|[(_ & m & F & W)|(Ef & _)]]; [tauto | right; exists fd, m; auto | apply znth_range in Ht; lia].
    - destruct (find_mod s fd) as [m|] eqn:F.
      + destruct (module_unregister_effect _ _ _ _ _ _ I F H) as (A & _). destruct (A j) as [K|[K _]]; [left; apply kept_name; exact K|].
        right. exists fd, m. auto.
      + unfold module_unregister in H. inv1 H. rewrite F in H. inv_all. left. reflexivity.
    - change (handle_op E (OpTagAdd fd nm type count attr) s = Done (s1, u)) in H.
      apply h_tag_add_effect in H as [[_ ->]|(U & s2 & r & Ha & ->)]; [left; reflexivity|]. left.
      assert (Uc := u32_range count). apply tag_add_effect in Ha; [|exact I | exact Uc].
      destruct Ha as [(_ & Q & _)|[(_ & _ & Q & _)|(Q1 & _ & _ & Q & _)]].
      + apply (core_name s s2). apply Q.
      + apply Q.
      + apply Q. apply znth_range in Ht. lia.
    - left. apply h_tag_del_effect in H as [(c & _ & ->)|(n1 & t1 & s2 & [N1 N2] & U & Hd & ->)]; [reflexivity| |exact I].
      apply tag_del_effect in Hd as [[Q _]|(_ & _ & _ & C & _)]; [lia|]. apply (core_name s s2). apply C. intros ->.
      assert (t1 = t) by congruence. subst t1. congruence. }
  destruct K as [K|(fd & m & S1 & F & [K|K])]; [congruence | unfold tag_owned in K; rewrite Ht, No in K; discriminate|].
  exists fd, m. split; [exact S1|]. split; [exact F|]. assert (Fi := F). apply find_some in Fi as [Fi _].
  destruct (proj2 (proj2 (si_mods _ _ S)) _ Fi) as [_ [[Q1 Q2]|Q]]; [split; [exact Q2 | congruence] | lia].
Qed.
(** the daemon's default configuration excludes some modules: when one of them disconnects the tag
    counter's tag disappears *)
Definition env_x : env := mk_env false (fun _ => 0) (fun _ => true) (fun _ => 0) (fun _ _ => 0) (fun _ _ => true) (fun _ => 0)
  (fun _ _ _ => 0) (fun _ _ _ => 0) [str "daxc"].
Theorem C21_refuted : exists s s', reachable env_x s /\ exists_tag s (str "_tagcount") /\
  step env_x s (OpDisconnect 5) = Done s' /\ ~ exists_tag s' (str "_tagcount").
Proof.
  exists (after_ops env_x [OpRegister 5 (str "daxc")]). eexists. split; [apply after_reachable; vm_compute; reflexivity|].
  split; [exists 0; eexists; split; [vm_compute; reflexivity|vm_compute; reflexivity]|]. split; [vm_compute; reflexivity|].
  eapply (absent_check env_x); [|vm_compute; reflexivity].
  apply (reachable_step env_x (after_ops env_x [OpRegister 5 (str "daxc")]) (OpDisconnect 5)); [apply after_reachable; vm_compute; reflexivity | vm_compute; reflexivity].
Qed.
Example C21_ex : en_excl env0 = [] /\ znth sys_tags 4 = Some (str "_dbsize", T_DINT).
Proof. split; reflexivity. Qed.

(** ** C22 *)
Lemma register_older E nm fd s s' u : Inv s -> SysInv E s -> module_register E nm fd s = Done (s', u) ->
  forall m0, In m0 (s_mods s') -> m_fd m0 <> fd -> m_tagidx m0 < zlen (s_db s).
Proof.
  intros I S H m0 Hin Hf. assert (L := SysInv_len _ _ S). unfold module_register in H. inv1 H. inv1 H. inv1 H. inv1 H.
  assert (G : Inv s0 /\ SysInv E s0 /\ zlen (s_db s0) = zlen (s_db s)).
  { clear H. destruct (find_mod s fd) as [m|] eqn:F.
    - assert (Fd : m_fd m = fd) by (apply find_some in F; destruct F; lia). rewrite Fd in Hm.
      split; [eapply module_unregister_good; eassumption|]. split; [apply (module_unregister_sys _ _ _ _ _ I S Hm)|]. apply (module_unregister_effect _ _ _ _ _ _ I F Hm).
    - inv_all. auto. }
  destruct G as (I0 & S0 & L0). rewrite <- L0. clear Hm. set (s1 := set_nextuid _ _) in H.
  assert (Old : forall c, In c (map mod_core (s_mods s1)) -> snd (fst c) <> fd -> snd c < zlen (s_db s0)).
  { intros c [<-|Hc] Hn; [cbn in Hn; congruence|]. apply in_map_iff in Hc as (y & <- & Hy). cbn.
    destruct (proj2 (proj2 (si_mods _ _ S0)) _ Hy) as [_ [[Q _]|Q]]; lia. }
  destruct (existsb (fun y => name_eqb y nm) (en_excl E)).
  - inv_all. apply (Old (mod_core m0)); [apply in_map; exact Hin | exact Hf].
  - inv1 H. inv1 H. destruct v0 as [tn uuid]. inv1 H. inv1 H. inv1 H. destruct (v0 <? 0); [discriminate|].
    assert (Mt : forall x, tag_add E (-1) tn (cdt_get_type (s_types (set_moduuid s1 uuid)) (str "_module")) 1 0 (set_moduuid s1 uuid) = Done (s2, x) -> map mod_core (s_mods s2) = map mod_core (s_mods s1)).
    { intros x Hx. apply tag_add_srel in Hx; [apply (sr_mods _ _ Hx) | | lia | cbn; lia | left; reflexivity].
      destruct I0; constructor; assumption. }
    specialize (Mt _ Hm). inv1 H. inv1 H. inv1 H. inv1 H. inv1 H. inv1 H.
    assert (C : map mod_core (s_mods s') = map mod_core (s_mods (upd_mod (s_nextuid s0) (fun m => set_tagidx m v0) s2))).
    { apply bind_done in H as (s6 & v6 & H6 & H). apply ret_done in H as [-> _].
      rewrite (sh_mods _ _ (tag_write_shape _ _ _ _ _ _ _ _ H6)). cbn [s_mods set_tag set_db].
      rewrite (sh_mods _ _ (tag_write_shape _ _ _ _ _ _ _ _ Hm1)). apply (sh_mods _ _ (tag_write_shape _ _ _ _ _ _ _ _ Hm0)). }
    apply (in_map mod_core) in Hin. rewrite C in Hin. apply in_map_iff in Hin as (y & Y1 & Y2). cbn in Y2. apply in_map_iff in Y2 as (z & Z1 & Z2).
    assert (Zo : In (mod_core z) (map mod_core (s_mods s1))) by (rewrite <- Mt; apply in_map; exact Z2).
    assert (Zf : m_fd z = m_fd m0). { unfold mod_core in Y1. injection Y1 as _ _ Y1 _. rewrite <- Y1, <- Z1. destruct (m_uid z =? s_nextuid s0); reflexivity. }
    assert (Q := Old _ Zo). cbn in Q. rewrite Zf in Q. specialize (Q Hf).
    destruct (m_uid z =? s_nextuid s0) eqn:U.
    + exfalso. destruct Zo as [Zo|Zo].
      * unfold mod_core in Zo. cbn in Zo. injection Zo as _ _ Zo _. lia.
      * apply in_map_iff in Zo as (w & W1 & W2). destruct (proj2 (proj2 (si_mods _ _ S0)) _ W2) as [W3 _]. unfold mod_core in W1. injection W1 as W1 _ _ _. lia.
    + subst y. unfold mod_core in Y1. injection Y1 as _ _ _ Y1. lia.
Qed.
(** FULL STATEMENT (false, see the two refutations): two registered modules never share a status tag and
    registration never leads to undefined behaviour.
    What holds: the two modules are told apart by connection and id, and a module registered under a name
    for which the server picks a tag name that is not in use shares its tag with nobody. *)
Theorem C22_own_tag_partial : forall E s fd nm s' m n t,
  reachable E s -> step E s (OpRegister fd nm) = Done s' -> find_mod s' fd = Some m -> ~ In nm (en_excl E) ->
  named s' (m_tagidx m) n t -> ~ exists_tag s n ->
  forall m', In m' (s_mods s') -> m_uid m' <> m_uid m -> m_tagidx m' <> m_tagidx m /\ m_fd m' <> m_fd m.
Proof.
  intros E s fd nm s' m n t R H F Ex [Ht Hn] No m' Hin Hu. assert (I := reachable_Inv _ _ R). assert (S := reachable_sys _ _ R).
  assert (S' := reachable_sys _ _ (reachable_step _ _ _ _ R H)).
  assert (Fi := F). apply find_some in Fi as [Fi Ffd].
  assert (Fds : m_fd m' <> m_fd m).
  { intros Q. apply Hu. destruct (si_mods _ _ S') as (_ & N & _).
    assert (Inj : forall a b, In a (s_mods s') -> In b (s_mods s') -> m_fd a = m_fd b -> a = b).
    { clear - N. induction (s_mods s') as [|y l IH]; intros a b Ha Hb Hab; [destruct Ha|]. cbn in N. apply NoDup_cons_iff in N as [N1 N2].
      destruct Ha as [->|Ha], Hb as [->|Hb]; auto; exfalso; apply N1; [rewrite Hab | rewrite <- Hab]; apply in_map; assumption. }
    f_equal. apply Inj; assumption. }
  split; [|exact Fds].
  apply step_inv in H as (s1 & u & H & ->). cbn [handle_op] in H. inv1 H. inv1 H. inv1 H.
  assert (Sh : shape s0 s1) by (eapply shape_trans; [eapply tag_read_shape; exact Hm0 | eapply respond_shape; exact H]). clear H Hm0.
  assert (Ef := module_register_effect _ _ _ _ _ _ I Hm (m_tagidx m)).
  assert (Q0 : name_at s0 (m_tagidx m) = Some n).
  { rewrite <- (shape_name _ _ _ Sh). unfold name_at. cbn in Ht. rewrite Ht. exact Hn. }
  destruct Ef as [Ef|[(Ef & _)|(Ef & _)]]; [|congruence|].
  - exfalso. apply No. rewrite Ef in Q0. apply named_iff in Q0 as (t0 & Q0). exists (m_tagidx m), t0. exact Q0.
  - (* the tag is a new entry of the table; the other modules are older *)
    rewrite Ef. enough (m_tagidx m' < zlen (s_db s)) by lia.
    assert (Hin0 : exists m0, In m0 (s_mods s0) /\ mod_core m0 = mod_core m').
    { cbn in Hin. apply (in_map mod_core) in Hin. rewrite (sh_mods _ _ Sh) in Hin. apply in_map_iff in Hin as (m0 & A & B). exists m0. auto. }
    destruct Hin0 as (m0 & Hin0 & C0). unfold mod_core in C0. injection C0 as C1 C2 C3 C4. rewrite <- C4. rewrite <- C3 in Fds. clear Hin Hu C1 C2 C3 C4.
    assert (Fd' : m_fd m0 <> fd) by lia. clear Ef Q0 Ht Hn No.
    eapply register_older; eassumption.
Qed.

Lemma find_mod_In s fd m : find_mod s fd = Some m -> In m (s_mods s).
Proof. intros H. apply find_some in H as [H _]. exact H. Qed.
Definition shared_ops : list op := [OpRegister 5 (str "foo000"); OpRegister 6 (str "foo"); OpRegister 7 (str "foo")].
Theorem C22_shared_refuted : exists s m1 m2, reachable env0 s /\ In m1 (s_mods s) /\ In m2 (s_mods s) /\
  m_uid m1 <> m_uid m2 /\ m_tagidx m1 = m_tagidx m2 /\ m_name m1 = str "foo000" /\ m_name m2 = str "foo".
Proof.
  exists (after_ops env0 shared_ops). eexists _, _. split; [apply after_reachable; vm_compute; reflexivity|].
  split; [apply (find_mod_In (after_ops env0 shared_ops) 5); vm_compute; reflexivity|].
  split; [apply (find_mod_In (after_ops env0 shared_ops) 7); vm_compute; reflexivity|].
  split; [vm_compute; discriminate|]. split; [vm_compute; reflexivity|]. split; vm_compute; reflexivity.
Qed.
(** a module whose name does not make a tag name: the server writes before its tag table *)
Theorem C22_undefined_refuted : exists s u, reachable env0 s /\ step env0 s (OpRegister 5 (str "my module")) = Undef u.
Proof. exists (after_ops env0 []). eexists. split; [apply after_reachable; vm_compute; reflexivity | vm_compute; reflexivity]. Qed.
Example C22_ex : exists s' m t, step env0 demo (OpRegister 7 (str "gamma")) = Done s' /\ find_mod s' 7 = Some m /\
  named s' (m_tagidx m) (str "_mgamma") t /\ ~ exists_tag demo (str "_mgamma") /\ length (s_mods s') = 3%nat.
Proof.
  eexists _, _, _. split; [vm_compute; reflexivity|]. split; [vm_compute; reflexivity|].
  split; [split; [vm_compute; reflexivity|vm_compute; reflexivity]|]. split; [|vm_compute; reflexivity].
  apply (absent_check env0); [exact demo_reachable | vm_compute; reflexivity].
Qed.
