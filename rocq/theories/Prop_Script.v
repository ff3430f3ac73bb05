(** * Prop_Script: C73 (the queue of scripts), C74 (every event runs its script),
    C75 (interval threads), C76 (the table of scripts), C77 (data of triggers) *)
From Verif Require Import Base Lib Script.

(** ** C73 *)
Inductive qop := Push (s : Z) | Pop.
Inductive qans := Pushed (code : Z) | Popped (x : option Z).
(** The module's queue *)
Fixpoint qruns (ops : list qop) (r : ring) : run (list qans * ring) :=
  match ops with
  | [] => Done ([], r)
  | Push s :: t =>
      match q_push s r with
      | Done (c, r) => match qruns t r with Done (a, r) => Done (Pushed c :: a, r) | Undef u => Undef u end
      | Undef u => Undef u
      end
  | Pop :: t =>
      match q_pop r with
      | Done (x, r) => match qruns t r with Done (a, r) => Done (Popped x :: a, r) | Undef u => Undef u end
      | Undef u => Undef u
      end
  end.
(** A queue of [n] places; None: a push found it full *)
Fixpoint fifo (n : nat) (ops : list qop) (q : list Z) : option (list qans * list Z) :=
  match ops with
  | [] => Some ([], q)
  | Push s :: t =>
      if (length q <? n)%nat
      then match fifo n t (q ++ [s]) with Some (a, q) => Some (Pushed 0 :: a, q) | None => None end
      else None
  | Pop :: t =>
      match fifo n t (tl q) with Some (a, q') => Some (Popped (hd_error q) :: a, q') | None => None end
  end.
Fixpoint popped (a : list qans) : Z :=
  match a with [] => 0 | Popped (Some _) :: r => 1 + popped r | _ :: r => popped r end.

Definition wrap (x n : Z) : Z := if x <? n then x else x - n.
Record Holds (st : bool) (n : Z) (r : ring) (q : list Z) : Prop := {
  h_n : zlen (r_cells r) = n; h_pos : 0 < n; h_first : 0 <= r_first r < n; h_len : zlen q <= n;
  h_last : r_last r = wrap (r_first r + zlen q) n;
  h_cells : forall i x, nth_error q i = Some x ->
     nth_error (r_cells r) (Z.to_nat (wrap (r_first r + Z.of_nat i) n)) = Some (Some x);
  h_full : r_full r = (zlen q =? n) && negb (r_first r =? 0);
  h_empty : r_empty r = st && (zlen q =? 0);
  h_fresh : st = false -> q = [] }.

Lemma holds_init n : (0 < n)%nat -> Holds false (Z.of_nat n) (ring_init n) [].
Proof.
  intros P. constructor; cbn; try reflexivity; try lia.
  - unfold zlen. rewrite repeat_length. reflexivity.
  - unfold wrap. destruct (_ <? _) eqn:E; cbn in *; lia.
  - intros i x H. destruct i; discriminate.
Qed.

Lemma zlen_app {A} (a b : list A) : zlen (a ++ b) = zlen a + zlen b.
Proof. unfold zlen. rewrite app_length. lia. Qed.

Lemma push_room st n r q s : Holds st n r q -> zlen q < n ->
  exists r', q_push s r = Done (0, r') /\ Holds true n r' (q ++ [s]) /\ r_first r' = r_first r.
Proof.
  intros [H1 H2 H3 H4 H5 H6 H7 H8 H9] L. unfold q_push.
  assert (F : r_full r = false) by (rewrite H7; destruct (zlen q =? n) eqn:E; [lia|reflexivity]). rewrite F.
  assert (R : 0 <= r_last r < n) by (rewrite H5; unfold wrap; unfold zlen in *; destruct (_ <? _) eqn:E; lia).
  rewrite H1. replace ((0 <=? r_last r) && (r_last r <? n)) with true by (clear - R; lia). cbn [negb].
  eexists. split; [reflexivity|]. split; [|reflexivity].
  assert (ZA : zlen (q ++ [s]) = zlen q + 1) by (rewrite zlen_app; reflexivity).
  constructor; cbn [r_cells r_first r_last r_full r_empty]; auto.
  - unfold zlen. rewrite upd_length. exact H1.
  - lia.
  - rewrite ZA. rewrite H5. unfold wrap. unfold zlen in *.
    destruct (r_first r + Z.of_nat (length q) <? n) eqn:E1.
    + destruct (n <=? _) eqn:E2, (r_first r + (_ + 1) <? n) eqn:E3; lia.
    + destruct (n <=? _) eqn:E2, (r_first r + (_ + 1) <? n) eqn:E3; lia.
  - intros i x H. destruct (Nat.eq_dec i (length q)) as [-> | NE].
    + rewrite nth_error_app2 in H by lia. rewrite Nat.sub_diag in H. cbn in H. injection H as ->.
      change (Z.of_nat (length q)) with (zlen q). rewrite <- H5. apply nth_error_upd_eq. unfold zlen in *. lia.
    + assert (I : (i < length q)%nat).
      { assert (nth_error (q ++ [s]) i <> None) by congruence. apply nth_error_Some in H0. rewrite app_length in H0. cbn in H0. lia. }
      rewrite nth_error_app1 in H by lia. rewrite nth_error_upd_ne; [auto|].
      rewrite H5. unfold wrap. unfold zlen in *.
      destruct (_ <? _) eqn:E1; destruct (r_first r + Z.of_nat i <? n) eqn:E2; lia.
  - rewrite ZA. rewrite H5. unfold wrap. unfold zlen in *.
    destruct (r_first r =? 0) eqn:E0, (Z.of_nat (length q) + 1 =? n) eqn:E1;
      destruct (_ <? _) eqn:E2; destruct (_ =? r_first r) eqn:E3; cbn; try reflexivity; lia.
  - cbn. unfold zlen in *. destruct (zlen (q ++ [s]) =? 0) eqn:E; [unfold zlen in *; lia|]. unfold zlen in E. rewrite E. reflexivity.
  - discriminate.
Qed.

Lemma push_full st n r q s : Holds st n r q -> zlen q = n -> r_first r <> 0 -> q_push s r = Done (-1, r).
Proof.
  intros [H1 H2 H3 H4 H5 H6 H7 H8 H9] L F. unfold q_push. rewrite H7.
  destruct (zlen q =? n) eqn:E; [|lia]. destruct (r_first r =? 0) eqn:E2; [lia|]. reflexivity.
Qed.

(** A full queue that starts at place 0 is not known to be full *)
Lemma push_over st n r q s : Holds st n r q -> zlen q = n -> r_first r = 0 ->
  exists r', q_push s r = Done (0, r') /\ Holds true n r' [s].
Proof.
  intros [H1 H2 H3 H4 H5 H6 H7 H8 H9] L F. unfold q_push.
  assert (FF : r_full r = false) by (rewrite H7, F; cbn; apply andb_false_r). rewrite FF.
  assert (R : r_last r = 0) by (rewrite H5, F, L; unfold wrap; destruct (_ <? _) eqn:E; lia).
  rewrite R, H1, F. replace ((0 <=? 0) && (0 <? n)) with true by (clear - H2; lia). cbn [negb Z.add Z.eqb]. eexists. split; [reflexivity|].
  constructor; cbn [r_cells r_first r_last r_full r_empty]; auto; try lia.
  - unfold zlen. rewrite upd_length. exact H1.
  - cbn. lia.
  - cbn. unfold wrap. destruct (n <=? 1) eqn:E1, (1 <? n) eqn:E2; lia.
  - intros i x H. destruct i as [|i]; [|destruct i; discriminate]. injection H as ->.
    replace (wrap (0 + Z.of_nat 0) n) with 0 by (unfold wrap; cbn; destruct (0 <? n) eqn:E; lia).
    apply nth_error_upd_eq. unfold zlen in *. lia.
Qed.

Lemma pop_nil n r : Holds true n r [] -> q_pop r = Done (None, r).
Proof. intros [H1 H2 H3 H4 H5 H6 H7 H8 H9]. unfold q_pop. rewrite H8. reflexivity. Qed.
Lemma pop_cons st n r x q : Holds st n r (x :: q) ->
  exists r', q_pop r = Done (Some x, r') /\ Holds true n r' q /\ r_first r' = wrap (r_first r + 1) n.
Proof.
  intros [H1 H2 H3 H4 H5 H6 H7 H8 H9]. unfold q_pop.
  assert (ST : st = true) by (destruct st; [reflexivity|]; specialize (H9 eq_refl); discriminate). subst st.
  assert (ZA : zlen (x :: q) = zlen q + 1) by (unfold zlen; cbn [length]; lia).
  assert (E : r_empty r = false) by (rewrite H8, ZA; cbn [andb]; clear; unfold zlen; lia).
  rewrite E. pose proof (H6 O x eq_refl) as C0.
  replace (wrap (r_first r + Z.of_nat 0) n) with (r_first r) in C0 by (unfold wrap; cbn; destruct (_ <? n) eqn:E1; lia).
  rewrite C0. eexists. split; [reflexivity|]. rewrite H1.
  assert (W : (if n <=? r_first r + 1 then 0 else r_first r + 1) = wrap (r_first r + 1) n).
  { unfold wrap. destruct (n <=? _) eqn:E1, (_ <? n) eqn:E2; lia. }
  split; [|exact W]. rewrite W, H5, ZA.
  assert (WR : 0 <= wrap (r_first r + 1) n < n) by (unfold wrap; destruct (_ <? n) eqn:E1; lia).
  constructor; cbn [r_cells r_first r_last r_full r_empty]; auto; try lia.
  - unfold wrap, zlen in *.
    destruct (r_first r + 1 <? n) eqn:E1; destruct (r_first r + (_ + 1) <? n) eqn:E2;
      [destruct (r_first r + 1 + _ <? n) eqn:E3|destruct (r_first r + 1 + _ <? n) eqn:E3|
       destruct (r_first r + 1 - n + _ <? n) eqn:E3|destruct (r_first r + 1 - n + _ <? n) eqn:E3]; lia.
  - intros i y H. specialize (H6 (S i) y H). rewrite <- H6. f_equal. f_equal. unfold wrap.
    assert (I : (i < length q)%nat) by (apply nth_error_Some; congruence). unfold zlen in *.
    destruct (r_first r + 1 <? n) eqn:E1; destruct (r_first r + Z.of_nat (S i) <? n) eqn:E2;
      [destruct (r_first r + 1 + Z.of_nat i <? n) eqn:E3|destruct (r_first r + 1 + Z.of_nat i <? n) eqn:E3|
       destruct (r_first r + 1 - n + Z.of_nat i <? n) eqn:E3|destruct (r_first r + 1 - n + Z.of_nat i <? n) eqn:E3]; lia.
  - cbn [andb]. unfold wrap, zlen in *.
    destruct (r_first r + 1 <? n) eqn:E1; destruct (r_first r + (_ + 1) <? n) eqn:E2;
      destruct (Z.of_nat (length q) =? 0) eqn:E3;
      match goal with |- (if ?a =? ?b then _ else _) = _ => destruct (a =? b) eqn:E4 end; try reflexivity; lia.
Qed.

Lemma wrap_pops p n f : 0 < n -> f = p mod n -> wrap (f + 1) n = (p + 1) mod n.
Proof.
  intros P ->. unfold wrap. pose proof (Z.mod_pos_bound p n P). pose proof (Z.div_mod p n ltac:(lia)).
  destruct (_ <? n) eqn:E.
  - apply Z.mod_unique with (q := p / n); [left; lia|lia].
  - apply Z.mod_unique with (q := p / n + 1); [left; lia|nia].
Qed.

Lemma fifo_holds n : forall ops st r q p a q', Holds st (Z.of_nat n) r q -> r_first r = p mod Z.of_nat n ->
  (st = true \/ match ops with Pop :: _ => False | _ => True end) ->
  fifo n ops q = Some (a, q') ->
  exists r', qruns ops r = Done (a, r') /\ Holds (st || negb (match ops with [] => true | _ => false end)) (Z.of_nat n) r' q' /\ r_first r' = (p + popped a) mod Z.of_nat n.
Proof.
  induction ops as [|[s|] ops IH]; intros st r q p a q' H F ST E; cbn [fifo] in E.
  - injection E as <- <-. exists r. cbn. rewrite orb_false_r, Z.add_0_r. auto.
  - destruct (length q <? n)%nat eqn:L; [|discriminate].
    destruct (fifo n ops (q ++ [s])) as [[a1 q1]|] eqn:E1; [|discriminate]. injection E as <- <-.
    destruct (push_room st _ r q s H) as (r1 & P & H1 & F1). { unfold zlen. lia. }
    destruct (IH true r1 (q ++ [s]) p a1 q1 H1 ltac:(congruence) (or_introl eq_refl) E1) as (r2 & R & H2 & F2).
    exists r2. cbn [qruns]. rewrite P, R. cbn [popped negb]. rewrite orb_true_r. auto.
  - destruct ST as [-> |[]].
    destruct (fifo n ops (tl q)) as [[a1 q1]|] eqn:E1; [|discriminate]. injection E as <- <-.
    destruct q as [|x q].
    + cbn in *. rewrite (pop_nil _ _ H).
      destruct (IH true r [] p a1 q1 H F (or_introl eq_refl) E1) as (r2 & R & H2 & F2).
      exists r2. rewrite R. cbn in *. auto.
    + destruct (pop_cons _ _ _ _ _ H) as (r1 & P & H1 & F1). cbn [hd_error tl] in *.
      assert (F1' : r_first r1 = (p + 1) mod Z.of_nat n).
      { rewrite F1. apply wrap_pops; [exact (h_pos _ _ _ _ H)|exact F]. }
      destruct (IH true r1 q (p + 1) a1 q1 H1 F1' (or_introl eq_refl) E1) as (r2 & R & H2 & F2).
      exists r2. cbn [qruns]. rewrite P, R. cbn [popped orb]. split; [reflexivity|].
      replace (p + (1 + popped a1)) with (p + 1 + popped a1) by lia. auto.
Qed.

(** As long as no push finds all the places taken, the queue is first in, first out *)
Theorem C73_fifo_partial : forall n s ops a q, (0 < n)%nat ->
  fifo n (Push s :: ops) [] = Some (a, q) -> exists r, qruns (Push s :: ops) (ring_init n) = Done (a, r).
Proof.
  intros n s ops a q P E. destruct (fifo_holds n (Push s :: ops) false (ring_init n) [] 0 a q) as (r & R & _); auto.
  - apply holds_init. exact P.
  - eauto.
Qed.

Lemma qruns_app a : forall b r, qruns (a ++ b) r =
  match qruns a r with
  | Done (x, r') => match qruns b r' with Done (y, r'') => Done (x ++ y, r'') | Undef u => Undef u end
  | Undef u => Undef u
  end.
Proof.
  induction a as [|[s|] a IH]; intros b r; cbn [app qruns].
  - destruct (qruns b r) as [[y r'']|]; reflexivity.
  - destruct (q_push s r) as [[c r1]|]; [|reflexivity]. rewrite IH. destruct (qruns a r1) as [[x r2]|]; [|reflexivity].
    destruct (qruns b r2) as [[y r3]|]; reflexivity.
  - destruct (q_pop r) as [[c r1]|]; [|reflexivity]. rewrite IH. destruct (qruns a r1) as [[x r2]|]; [|reflexivity].
    destruct (qruns b r2) as [[y r3]|]; reflexivity.
Qed.

(** A push that finds all places taken is refused, unless the number of scripts taken out so far
    is a multiple of the number of places *)
Theorem C73_refused_partial : forall n s ops a q x, (0 < n)%nat ->
  fifo n (Push s :: ops) [] = Some (a, q) -> length q = n -> popped a mod Z.of_nat n <> 0 ->
  exists r, qruns (Push s :: ops) (ring_init n) = Done (a, r) /\
            qruns (Push s :: ops ++ [Push x]) (ring_init n) = Done (a ++ [Pushed (-1)], r).
Proof.
  intros n s ops a q x P E L M. destruct (fifo_holds n (Push s :: ops) false (ring_init n) [] 0 a q) as (r & R & H & F); auto.
  - apply holds_init. exact P.
  - exists r. split; [exact R|]. change (Push s :: ops ++ [Push x]) with ((Push s :: ops) ++ [Push x]). rewrite qruns_app, R.
    cbn [qruns]. rewrite (push_full _ _ _ _ _ H); [reflexivity|unfold zlen; lia|]. rewrite F. exact M.
Qed.
(** Otherwise it is accepted, and all the scripts in the queue are lost *)
Theorem C73_overwrite_refuted : forall n s ops a q x, (0 < n)%nat ->
  fifo n (Push s :: ops) [] = Some (a, q) -> length q = n -> popped a mod Z.of_nat n = 0 ->
  exists r, qruns (Push s :: ops ++ [Push x; Pop; Pop]) (ring_init n)
    = Done (a ++ [Pushed 0; Popped (Some x); Popped None], r).
Proof.
  intros n s ops a q x P E L M. destruct (fifo_holds n (Push s :: ops) false (ring_init n) [] 0 a q) as (r & R & H & F); auto.
  - apply holds_init. exact P.
  - change (Push s :: ops ++ [Push x; Pop; Pop]) with ((Push s :: ops) ++ [Push x; Pop; Pop]). rewrite qruns_app, R.
    destruct (push_over _ _ _ _ x H) as (r1 & R1 & H1); [unfold zlen; lia|rewrite F; exact M|].
    destruct (pop_cons _ _ _ _ _ H1) as (r2 & R2 & H2 & _).
    cbn [qruns]. rewrite R1, R2, (pop_nil _ _ H2). eauto.
Qed.
(** Before the first push the queue does not know that it is empty *)
Theorem C73_start_refuted : forall n, (0 < n)%nat -> q_pop (ring_init n) = Undef UUninit.
Proof. intros [|n] P; [lia|]. reflexivity. Qed.

Example C73_ex : fifo 3 [Push 1; Push 2; Pop; Push 3; Push 4] [] =
    Some ([Pushed 0; Pushed 0; Popped (Some 1); Pushed 0; Pushed 0], [2; 3; 4]) /\
  popped [Pushed 0; Pushed 0; Popped (Some 1); Pushed 0; Pushed 0] mod 3 <> 0 /\
  fifo 3 [Push 1; Push 2; Push 3] [] = Some ([Pushed 0; Pushed 0; Pushed 0], [1; 2; 3]).
Proof. repeat split; vm_compute; congruence. Qed.

(** ** C74, C77: events and runs *)
Fixpoint events (es : list sev) : list (Z * Z) :=
  match es with [] => [] | EEvent x d _ :: r => (x, d) :: events r | _ :: r => events r end.
(** Whenever an event comes, fewer than [m] scripts wait in the queue *)
Definition roomy (m : Z) (es : list sev) (s0 : sys) : Prop :=
  forall es1 x d k es2 s1, es = es1 ++ EEvent x d k :: es2 -> sruns es1 s0 = Done s1 ->
    zlen (events es1) - zlen (s_ran s1) < m.
Definition active (w : worker) : bool := match w with WWoken | WRun _ => true | _ => false end.

Lemma sruns_app a : forall b s, sruns (a ++ b) s = match sruns a s with Done s' => sruns b s' | Undef u => Undef u end.
Proof. induction a as [|e a IH]; intros b s; cbn; [reflexivity|]. destruct (sstep e s); auto. Qed.
Lemma events_app a b : events (a ++ b) = events a ++ events b.
Proof. induction a as [|[]]; cbn; congruence. Qed.

(** Every worker waits or is active *)
Definition settled (l : list worker) : Prop := l <> [] /\ Forall (fun w => w <> WStart) l.
Lemma settled_upd l i w : settled l -> w <> WStart -> settled (upd l i w).
Proof.
  intros [N F] W. split.
  - intros C. apply N. apply length_zero_iff_nil. rewrite <- (upd_length l i w), C. reflexivity.
  - unfold upd. apply Forall_app. split.
    + rewrite <- (firstn_skipn i l) in F. apply Forall_app in F. tauto.
    + rewrite <- (firstn_skipn i l) in F. apply Forall_app in F. destruct F as [_ F].
      destruct (skipn i l); [constructor|]. inversion F; subst. constructor; auto.
Qed.
Lemma wake_first_settled l : Forall (fun w => w <> WStart) l -> Forall (fun w => w <> WStart) (wake_first l).
Proof. induction 1 as [|w l P F IH]; cbn; [constructor|]. destruct (waiting w); constructor; auto; discriminate. Qed.
Lemma wake_first_active l : settled l -> existsb active (wake_first l) = true.
Proof.
  intros [N F]. induction F as [|w l P F IH]; [contradiction|]. cbn.
  destruct w; cbn; try reflexivity; contradiction.
Qed.
Lemma upd_active l i w : (i < length l)%nat -> active w = true -> existsb active (upd l i w) = true.
Proof.
  intros L A. apply existsb_exists. exists w. split; [|exact A]. eapply nth_error_In. apply nth_error_upd_eq. exact L.
Qed.
Lemma signal_active k l : settled l -> existsb active (signal k l) = true /\ settled (signal k l).
Proof.
  intros H. unfold signal.
  assert (W : existsb active (wake_first l) = true /\ settled (wake_first l)).
  { split; [apply wake_first_active; auto|]. split; [|apply wake_first_settled; apply H].
    intros C. pose proof (wake_first_active l H) as E. rewrite C in E. discriminate. }
  destruct (nth_error l k) as [[]|] eqn:E; auto.
  split; [|apply settled_upd; [auto|discriminate]].
  apply upd_active; [|reflexivity]. apply nth_error_Some. congruence.
Qed.

(** State after the events [ev]: [q] waits, the rest has been run *)
Record Sinv (n : Z) (ev : list (Z * Z)) (s : sys) : Prop := {
  v_held : s_held s = false; v_auto : s_auto s = [];
  v_set : settled (s_work s);
  v_q : exists q, Holds (negb (match ev with [] => true | _ => false end)) n (s_ring s) q /\ map fst (s_ran s) ++ q = map fst ev;
  v_act : ev <> [] -> r_empty (s_ring s) = false -> existsb active (s_work s) = true;
  v_idle : ev = [] -> Forall (fun w => w = WWait) (s_work s) }.

Lemma nonnil_app {A} (l : list A) x : negb (match l ++ [x] with [] => true | _ => false end) = true.
Proof. destruct l; reflexivity. Qed.
Lemma Sinv_event n ev s x d k : Sinv n ev s -> zlen ev - zlen (s_ran s) < n ->
  exists s', sstep (EEvent x d k) s = Done s' /\ Sinv n (ev ++ [(x, d)]) s' /\ s_ran s' = s_ran s /\
    s_data s' = (fun y => if y =? x then {| sb_buff := d; sb_new := true; sb_seen := sb_seen (s_data s x) |} else s_data s y).
Proof.
  intros [V1 V2 V3 (q & V4 & V5) V6 V7] L.
  assert (LQ : zlen q < n).
  { assert (zlen (s_ran s) + zlen q = zlen ev).
    { unfold zlen. rewrite <- (map_length fst ev), <- V5, app_length, map_length. lia. } lia. }
  unfold sstep. rewrite V1. unfold dispatch. cbn [s_ring].
  assert (F : r_full (s_ring s) = false).
  { rewrite (h_full _ _ _ _ V4). replace (zlen q =? n) with false by (clear - LQ; lia). reflexivity. }
  rewrite F. unfold push_signal. cbn [s_ring]. destruct (push_room _ _ _ _ x V4 LQ) as (r' & P & H & _). rewrite P.
  destruct (signal_active k (s_work s) V3) as [A1 A2].
  eexists. split; [reflexivity|]. split; [|split; reflexivity].
  constructor; cbn [s_held s_auto s_work s_ring s_ran]; auto.
  - exists (q ++ [x]). split; [rewrite nonnil_app; exact H|]. rewrite map_app, app_assoc, V5. reflexivity.
  - intros C. destruct ev; discriminate.
Qed.

Lemma Sinv_work n ev s i : Sinv n ev s -> ev <> [] -> (exists w, nth_error (s_work s) i = Some w /\ active w = true) ->
  exists s', sstep (EWork i) s = Done s' /\ Sinv n ev s' /\
  (forall q, map fst (s_ran s) ++ q = map fst ev ->
    match q with
    | [] => s_ran s' = s_ran s /\ s_data s' = s_data s
    | x :: _ => s_ran s' = s_ran s ++ [(x, if sb_new (s_data s x) then sb_buff (s_data s x) else sb_seen (s_data s x))] /\
                s_data s' = (fun y => if y =? x then {| sb_buff := sb_buff (s_data s x); sb_new := false;
                     sb_seen := if sb_new (s_data s x) then sb_buff (s_data s x) else sb_seen (s_data s x) |} else s_data s y) /\
                exists w, nth_error (s_work s') i = Some w /\ active w = true
    end) /\ (map fst (s_ran s) = map fst ev -> r_empty (s_ring s') = true).
Proof.
  intros [V1 V2 V3 (q & V4 & V5) V6 V7] NE (w & W1 & W2).
  assert (NB : negb (match ev with [] => true | _ => false end) = true) by (destruct ev; [contradiction|reflexivity]).
  rewrite NB in V4.
  assert (ST : sstep (EWork i) s = work_loop i s).
  { unfold sstep. rewrite V1, W1. destruct w; try discriminate; reflexivity. }
  rewrite ST. unfold work_loop.
  assert (IL : (i < length (s_work s))%nat) by (apply nth_error_Some; congruence).
  assert (QU : forall q', map fst (s_ran s) ++ q' = map fst ev -> q' = q).
  { intros q' E. rewrite <- V5 in E. apply app_inv_head in E. exact E. }
  destruct q as [|x q].
  - rewrite (h_empty _ _ _ _ V4). cbn [andb zlen]. change (zlen ([] : list Z) =? 0) with true. cbn [andb].
    eexists. split; [reflexivity|]. split; [|split].
    + constructor; cbn [set_work s_held s_auto s_work s_ring s_ran]; auto.
      * apply settled_upd; [auto|discriminate].
      * exists []. rewrite NB. auto.
      * intros _ E. rewrite (h_empty _ _ _ _ V4) in E. discriminate.
      * intros C. contradiction.
    + intros q' E. rewrite (QU _ E). auto.
    + intros _. cbn [set_work s_ring]. rewrite (h_empty _ _ _ _ V4). reflexivity.
  - assert (E : r_empty (s_ring s) = false).
    { rewrite (h_empty _ _ _ _ V4). unfold zlen. cbn [length andb]. clear. lia. }
    rewrite E. destruct (pop_cons _ _ _ _ _ V4) as (r' & P & H & _). rewrite P.
    assert (ACT : exists w, nth_error (upd (s_work s) i (WRun x)) i = Some w /\ active w = true).
    { exists (WRun x). split; [apply nth_error_upd_eq; exact IL|reflexivity]. }
    eexists. split; [reflexivity|]. split; [|split].
    + constructor; cbn [begin_run set_work set_ring s_held s_auto s_work s_ring s_ran]; auto.
      * apply settled_upd; [auto|discriminate].
      * exists q. rewrite NB. split; [exact H|]. rewrite map_app. cbn [map fst]. rewrite <- app_assoc. exact V5.
      * intros _ _. apply upd_active; auto.
      * intros C. contradiction.
    + intros q' E'. rewrite (QU _ E'). cbn [begin_run set_work set_ring s_work s_ran s_data]. auto.
    + intros E'. rewrite <- V5 in E'. rewrite <- (app_nil_r (map fst (s_ran s))) in E' at 1. apply app_inv_head in E'. discriminate.
Qed.

Lemma Sinv_other n ev s e : Sinv n ev s -> (forall x d k, e <> EEvent x d k) ->
  exists s', sstep e s = Done s' /\ Sinv n ev s' /\
   (s' = s \/ exists i w, e = EWork i /\ nth_error (s_work s) i = Some w /\ active w = true).
Proof.
  intros V NE. destruct e as [i|i|x d k|k].
  - unfold sstep. rewrite (v_held _ _ _ V). exists s. 
    destruct (nth_error (s_work s) i) as [[]|] eqn:E; auto.
    exfalso. pose proof (proj2 (v_set _ _ _ V)) as F. rewrite Forall_forall in F. apply (F WStart); [|reflexivity]. eapply nth_error_In; eauto.
  - destruct (nth_error (s_work s) i) as [w|] eqn:E.
    + destruct (active w) eqn:A.
      * destruct ev as [|e0 ev].
        -- (* nothing was ever signalled *) exfalso. pose proof (v_idle _ _ _ V eq_refl) as F.
           rewrite Forall_forall in F. rewrite (F w) in A; [discriminate|]. eapply nth_error_In; eauto.
        -- destruct (Sinv_work n (e0 :: ev) s i V ltac:(discriminate) (ex_intro _ w (conj E A))) as (s' & S & V' & _).
           exists s'. split; [exact S|]. split; [exact V'|]. right. eauto 6.
      * exists s. unfold sstep. rewrite (v_held _ _ _ V), E. destruct w; try discriminate; auto.
    + exists s. unfold sstep. rewrite (v_held _ _ _ V), E. auto.
  - exfalso. eapply NE. reflexivity.
  - exists s. unfold sstep. rewrite (v_held _ _ _ V), (v_auto _ _ _ V). auto.
Qed.

Lemma Sinv_runs n s0 : Sinv n [] s0 -> s_ran s0 = [] -> forall es, roomy n es s0 ->
  exists s, sruns es s0 = Done s /\ Sinv n (events es) s.
Proof.
  intros V0 R0 es. induction es as [|e es IH] using rev_ind; intros RM.
  - exists s0. auto.
  - destruct IH as (s & S & V).
    { intros es1 x d k es2 s1 E. apply (RM es1 x d k (es2 ++ [e])). rewrite E, <- app_assoc. reflexivity. }
    rewrite sruns_app, S, events_app. cbn [sruns].
    assert (C : (exists x d k, e = EEvent x d k) \/ (forall x d k, e <> EEvent x d k)).
    { destruct e; try (right; intros; discriminate). left; eauto. }
    destruct C as [(x & d & k & -> ) | NE].
    + destruct (Sinv_event n (events es) s x d k V) as (s' & S' & V' & _). { eapply RM; eauto. }
      rewrite S'. exists s'. auto.
    + destruct (Sinv_other n (events es) s e V NE) as (s' & S' & V' & _). rewrite S'.
      replace (events [e]) with (@nil (Z * Z)) by (destruct e; try reflexivity; exfalso; eapply NE; reflexivity).
      rewrite app_nil_r. exists s'. auto.
Qed.

Lemma drain n ev : ev <> [] -> forall m s i, Sinv n ev s -> (exists w, nth_error (s_work s) i = Some w /\ active w = true) ->
  (length (s_ran s) + m = length ev)%nat ->
  exists s', sruns (repeat (EWork i) (S m)) s = Done s' /\ Sinv n ev s' /\ map fst (s_ran s') = map fst ev /\ r_empty (s_ring s') = true.
Proof.
  intros NE. induction m as [|m IH]; intros s i V A L.
  - destruct (Sinv_work n ev s i V NE A) as (s' & S & V' & X & E).
    destruct (v_q _ _ _ V) as (q & _ & Q).
    assert (q = []). { apply length_zero_iff_nil. apply (f_equal (@length _)) in Q. rewrite app_length, !map_length in Q. lia. }
    subst q. pose proof (X [] Q) as [X1 _]. rewrite app_nil_r in Q.
    exists s'. cbn [repeat sruns]. rewrite S. split; [reflexivity|]. split; [exact V'|]. split; [rewrite X1; exact Q|apply E; exact Q].
  - destruct (Sinv_work n ev s i V NE A) as (s' & S & V' & X & E).
    destruct (v_q _ _ _ V) as (q & _ & Q).
    destruct q as [|x q]. { exfalso. rewrite app_nil_r in Q. apply (f_equal (@length _)) in Q. rewrite !map_length in Q. lia. }
    destruct (X _ Q) as (X1 & _ & A').
    destruct (IH s' i V' A') as (s'' & S'' & R). { rewrite X1, app_length. cbn. lia. }
    exists s''. cbn [repeat]. cbn [repeat] in S''. cbn [sruns]. rewrite S. auto.
Qed.

Lemma init_inv n work : (0 < n)%nat -> work <> [] -> Forall (fun w => w = WWait) work ->
  Sinv (Z.of_nat n) [] (sys_init n work []).
Proof.
  intros P N F. constructor; cbn; auto.
  - split; [exact N|]. eapply Forall_impl; [|exact F]. cbn. intros a ->. discriminate.
  - exists []. split; [apply holds_init; exact P|reflexivity].
Qed.

(** If all the workers wait when the first event comes, and events never find the queue full, then
    every event leads to exactly one run of its script, in the order of the events, without any
    further event: either all runs have begun, or there is a worker that will begin them *)
Theorem C74_runs_partial : forall n work es,
  (0 < n)%nat -> work <> [] -> Forall (fun w => w = WWait) work ->
  roomy (Z.of_nat n) es (sys_init n work []) ->
  exists s, sruns es (sys_init n work []) = Done s /\
    (exists q, map fst (events es) = map fst (s_ran s) ++ q) /\
    (map fst (events es) = map fst (s_ran s) \/
     exists i w, nth_error (s_work s) i = Some w /\ active w = true) /\
    forall i w, nth_error (s_work s) i = Some w -> active w = true ->
    exists k s', sruns (repeat (EWork i) k) s = Done s' /\ map fst (s_ran s') = map fst (events es).
Proof.
  intros n work es P N F RM.
  destruct (Sinv_runs (Z.of_nat n) _ (init_inv n work P N F) eq_refl es RM) as (s & S & V).
  exists s. split; [exact S|]. destruct (v_q _ _ _ V) as (q & H & Q).
  split; [exists q; auto|]. split.
  - destruct q as [|x q]; [left; rewrite app_nil_r in Q; auto|]. right.
    assert (NE : events es <> []). { intros C. rewrite C in Q. destruct (map fst (s_ran s)); discriminate. }
    assert (E : r_empty (s_ring s) = false).
    { rewrite (h_empty _ _ _ _ H). unfold zlen. cbn [length]. replace (Z.of_nat (Datatypes.S (length q)) =? 0) with false by (clear; lia). apply andb_false_r. }
    pose proof (v_act _ _ _ V NE E) as A. apply existsb_exists in A. destruct A as (w & I & A).
    apply In_nth_error in I. destruct I as [i I]. eauto.
  - intros i w I A.
    assert (NE : events es <> []).
    { intros C. pose proof (v_idle _ _ _ V C) as G. rewrite Forall_forall in G.
      rewrite (G w) in A; [discriminate|]. eapply nth_error_In; eauto. }
    assert (L : (length (s_ran s) <= length (events es))%nat).
    { rewrite <- (map_length fst (events es)), <- Q, app_length, map_length. lia. }
    destruct (drain (Z.of_nat n) (events es) NE (length (events es) - length (s_ran s)) s i V) as (s' & S' & _ & R & _).
    + eauto.
    + lia.
    + eauto.
Qed.

(** If the event comes before the worker's first wait, the signal is lost: the script stays in the
    queue until another event comes *)
Theorem C74_lost_wakeup_refuted : forall n x d k es, (0 < n)%nat -> events es = [] ->
  exists s, sruns ([EEvent x d k; EEnter 0] ++ es) (sys_init n [WStart] []) = Done s /\
    s_ran s = [] /\ r_empty (s_ring s) = false.
Proof.
  intros n x d k es P E.
  assert (FS : exists s1, sruns [EEvent x d k; EEnter 0] (sys_init n [WStart] []) = Done s1 /\ s_work s1 = [WWait] /\
     s_ran s1 = [] /\ r_empty (s_ring s1) = false /\ s_auto s1 = [] /\ s_held s1 = false).
  { destruct (push_room _ _ _ _ x (holds_init n P)) as (r & R & H & _); [cbn; lia|].
    unfold sruns, sstep. cbn [sys_init s_held]. unfold dispatch. cbn [s_ring sys_init ring_init r_full].
    unfold push_signal. cbn [s_ring sys_init]. change {| r_cells := _; r_first := _; r_last := _; r_full := _; r_empty := _ |} with (ring_init n).
    rewrite R. cbn [s_held s_work]. destruct k as [|[|k]]; cbn [signal nth_error wake_first waiting];
    (eexists; split; [reflexivity|]; repeat split; cbn [set_work s_ring]; rewrite (h_empty _ _ _ _ H); reflexivity). }
  destruct FS as (s1 & S1 & W & R1 & E1 & A1 & H1). rewrite sruns_app, S1.
  exists s1. split; [|auto]. clear S1 P R1.
  induction es as [|e es IH]; [reflexivity|]. cbn [sruns].
  assert (ST : sstep e s1 = Done s1).
  { unfold sstep. rewrite H1, W, A1. destruct e as [[|[|i]]|[|[|i]]| |]; try reflexivity. discriminate. }
  rewrite ST. apply IH. destruct e; cbn in E; auto. discriminate.
Qed.

(** With the queue full, the start-up loop sleeps and takes the lock again while it holds it:
    everything stops *)
Theorem C74_deadlock_refuted : exists es s, sruns es (sys_init 2 [WWait] [1; 2; 3; 4]) = Done s /\
  s_auto s = [4] /\ forall es', sruns es' s = Done s.
Proof.
  exists [EAuto 0; EWork 0; EAuto 0; EAuto 0; EAuto 0].
  remember (sruns [EAuto 0; EWork 0; EAuto 0; EAuto 0; EAuto 0] (sys_init 2 [WWait] [1; 2; 3; 4])) as o eqn:O.
  vm_compute in O. subst o. eexists. split; [reflexivity|]. split; [reflexivity|].
  intros es'. induction es' as [|e es' IH]; [reflexivity|]. cbn [sruns]. unfold sstep at 1. cbn [s_held]. exact IH.
Qed.

(** C77.  If every event finds the queue empty, each run sees the data of its event *)
Theorem C77_data_partial : forall n work es,
  (0 < n)%nat -> work <> [] -> Forall (fun w => w = WWait) work ->
  roomy 1 es (sys_init n work []) ->
  exists s q, sruns es (sys_init n work []) = Done s /\ events es = s_ran s ++ q.
Proof.
  intros n work es P N F RM.
  pose proof (init_inv n work P N F) as V0.
  assert (G : exists s q, sruns es (sys_init n work []) = Done s /\ Sinv (Z.of_nat n) (events es) s /\ events es = s_ran s ++ q /\
    match q with [] => True | [(x, d)] => sb_new (s_data s x) = true /\ sb_buff (s_data s x) = d | _ => False end).
  { revert RM. induction es as [|e es IH] using rev_ind; intros RM.
    - exists (sys_init n work []), []. auto.
    - destruct IH as (s & q & S & V & Q & D).
      { intros es1 x d k es2 s1 E. apply (RM es1 x d k (es2 ++ [e])). rewrite E, <- app_assoc. reflexivity. }
      rewrite sruns_app, S, events_app. cbn [sruns].
      assert (C : (exists x d k, e = EEvent x d k) \/ (forall x d k, e <> EEvent x d k)).
      { destruct e; try (right; intros; discriminate). left; eauto. }
      destruct C as [(x & d & k & -> ) | NE].
      + assert (L : zlen (events es) - zlen (s_ran s) < 1) by (eapply RM; eauto).
        assert (q = []). { apply length_zero_iff_nil. rewrite Q, zlen_app in L. unfold zlen in L. lia. }
        subst q. rewrite app_nil_r in Q.
        destruct (Sinv_event (Z.of_nat n) (events es) s x d k V) as (s' & S' & V' & R' & D'); [lia|].
        rewrite S'. exists s', [(x, d)]. split; [reflexivity|]. split; [exact V'|]. cbn [events]. rewrite R', Q. split; [reflexivity|].
        rewrite D', Z.eqb_refl. auto.
      + destruct (Sinv_other _ (events es) s e V NE) as (s' & S' & V' & C). rewrite S'.
        replace (events [e]) with (@nil (Z * Z)) by (destruct e; try reflexivity; exfalso; eapply NE; reflexivity).
        rewrite app_nil_r. exists s'. destruct C as [-> |(i & w & -> & W1 & W2)].
        * exists q. auto.
        * assert (NN : events es <> []).
          { intros X. pose proof (v_idle _ _ _ V X) as G. rewrite Forall_forall in G.
            rewrite (G w) in W2; [discriminate|]. eapply nth_error_In; eauto. }
          destruct (Sinv_work _ (events es) s i V NN (ex_intro _ w (conj W1 W2))) as (s2 & S2 & _ & X & _).
          assert (s2 = s') by congruence. subst s2.
          assert (QM : map fst (s_ran s) ++ map fst q = map fst (events es)) by (rewrite Q, map_app; reflexivity).
          specialize (X _ QM). destruct q as [|[x d] q]; cbn [map fst] in X.
          -- destruct X as [X1 X2]. exists []. rewrite X1. auto.
          -- destruct q as [|? q]; [|destruct D]. destruct D as [D1 D2]. destruct X as (X1 & _ & _).
             exists []. rewrite X1, D1, D2, app_nil_r. auto. }
  destruct G as (s & q & S & _ & Q & _). eauto.
Qed.
(** With two events in the queue, the first run already has the data of the second *)
Theorem C77_data_refuted : exists es s, sruns es (sys_init 8 [WWait] []) = Done s /\
  events es = [(1, 10); (1, 20)] /\ s_ran s = [(1, 20); (1, 20)].
Proof.
  exists [EEvent 1 10 0; EEvent 1 20 0; EWork 0; EWork 0].
  remember (sruns [EEvent 1 10 0; EEvent 1 20 0; EWork 0; EWork 0] (sys_init 8 [WWait] [])) as o eqn:O.
  vm_compute in O. subst o. eexists. split; [reflexivity|]. split; reflexivity.
Qed.

(** Two workers, queue of two places, three events *)
Example C74_ex : roomy 2 [EEvent 1 10 0; EWork 0; EEvent 2 20 1; EEvent 1 11 0] (sys_init 2 [WWait; WWait] []) /\
  roomy 1 [EEvent 1 10 0; EWork 0; EEvent 2 20 1] (sys_init 2 [WWait; WWait] []).
Proof.
  assert (H : forall m es s0, (forall i, (i < length es)%nat -> match nth_error es i with Some (EEvent _ _ _) =>
     match sruns (firstn i es) s0 with Done s1 => zlen (events (firstn i es)) - zlen (s_ran s1) < m | _ => True end | _ => True end) ->
     roomy m es s0).
  { intros m es s0 C es1 x d k es2 s1 E S. specialize (C (length es1)). rewrite E in C.
    rewrite nth_error_app2, Nat.sub_diag in C by lia. cbn [nth_error] in C.
    rewrite firstn_app, Nat.sub_diag, firstn_all in C. cbn [firstn] in C. rewrite app_nil_r, S in C. apply C.
    rewrite app_length. cbn. lia. }
  split; apply H; intros i I; cbn [length] in I;
    (destruct i as [|[|[|[|i]]]]; [vm_compute; auto..|exfalso; lia]).
Qed.

(** ** C75: interval threads *)

(** While the scripts do not cross a full second: the thread sleeps longer by the time the scripts
    took, so every round is longer than the interval by twice that time *)
Theorem C75_period_refuted : forall interval start fin,
  0 < interval -> interval * 1000 < 2 ^ 31 -> 0 <= start < fin -> fin / 1000000000 = start / 1000000000 ->
  exists next, interval_round interval start fin = (next, false) /\
    start + interval * 1000000 + 2 * (fin - start) - 1000 < next <= start + interval * 1000000 + 2 * (fin - start).
Proof.
  intros interval start fin I U S E. unfold interval_round, sleep_time.
  replace (fin / 1000000000 - start / 1000000000) with 0 by lia.
  replace (fin mod 1000000000 - start mod 1000000000) with (fin - start) by lia.
  unfold u32 at 1 2 3. rewrite (Z.mod_small (interval * 1000)) by lia.
  set (e := fin - start) in *. assert (e < 1000000000) by lia. assert (0 < e) by lia.
  rewrite Z.quot_div_nonneg by lia.
  replace (((interval * 1000 - 0 * 1000000) * 1000 + e) / 1000) with (interval * 1000 + e / 1000) by lia.
  destruct (_ <? 0) eqn:N; [lia|]. unfold u32. rewrite Z.mod_small by lia.
  eexists. split; [reflexivity|]. lia.
Qed.
(** When they cross one, an overrun is counted for intervals below two seconds, and the next round
    starts at once, even if the scripts took next to no time *)
Theorem C75_overrun_refuted : forall interval start fin,
  0 < interval -> 0 <= start -> start < fin -> fin / 1000000000 = start / 1000000000 + 1 ->
  interval * 1000000 + (fin - start) <= 2000000000 - 1000 ->
  interval_round interval start fin = (fin, true).
Proof.
  intros interval start fin I S F E B. unfold interval_round, sleep_time.
  replace (fin / 1000000000 - start / 1000000000) with 1 by lia.
  replace (fin mod 1000000000 - start mod 1000000000) with (fin - start - 1000000000) by lia.
  unfold u32 at 1. rewrite (Z.mod_small (interval * 1000)) by lia.
  set (e := fin - start) in *.
  replace (Z.quot ((interval * 1000 - 1 * 1000000) * 1000 + (e - 1000000000)) 1000 <? 0) with true; [reflexivity|].
  symmetry. apply Z.ltb_lt.
  rewrite <- (Z.opp_involutive ((interval * 1000 - 1 * 1000000) * 1000 + (e - 1000000000))).
  rewrite Z.quot_opp_l by lia. rewrite Z.quot_div_nonneg by lia. lia.
Qed.
(** When the scripts take a whole number of seconds the period is right *)
Theorem C75_whole_partial : forall interval start fin,
  0 < interval -> interval * 1000 < 2 ^ 31 -> 0 <= start <= fin ->
  fin mod 1000000000 = start mod 1000000000 ->
  interval_round interval start fin =
    if fin <=? start + interval * 1000000 then (start + interval * 1000000, false) else (fin, true).
Proof.
  intros interval start fin I U S E. unfold interval_round, sleep_time.
  replace (fin mod 1000000000 - start mod 1000000000) with 0 by lia.
  assert (X : exists k, fin / 1000000000 - start / 1000000000 = k /\ fin = start + k * 1000000000 /\ 0 <= k).
  { exists (fin / 1000000000 - start / 1000000000). lia. }
  destruct X as (k & -> & -> & K). unfold u32 at 1 2 3. rewrite (Z.mod_small (interval * 1000)) by lia.
  rewrite Z.add_0_r, Z.quot_mul by lia.
  destruct (_ <? 0) eqn:N; destruct (_ <=? _) eqn:L; try reflexivity; try (exfalso; lia).
  unfold u32. rewrite Z.mod_small by lia. f_equal. lia.
Qed.
(** A script of 1 ms in a thread of 100 ms: 102 ms, and over a full second: at once *)
Example C75_ex : interval_round 100 500000000 501000000 = (602000000, false) /\
  interval_round 100 999500000 1000500000 = (1000500000, true) /\
  interval_round 3000 500000000 2500000000 = (3500000000, false).
Proof. vm_compute. repeat split. Qed.

(** ** C76: the table of scripts *)

(** Up to sixteen scripts are stored, in order *)
Lemma new_script_ok v t : zlen (t_cells t) = t_count t -> t_count t < 16 ->
  (t_count t = 0 \/ t_size t = 8) -> (t_count t <= 8 -> t_count t = 0 \/ t_cap t = 8 \/ t_cap t = 16) -> (8 < t_count t -> t_cap t = 16) ->
  exists t', get_new_script v t = Done t' /\ t_cells t' = t_cells t ++ [v] /\ t_count t' = t_count t + 1 /\
    t_size t' = 8 /\ (t_count t' <= 8 -> t_cap t' = 8 \/ t_cap t' = 16) /\ (8 < t_count t' -> t_cap t' = 16).
Proof.
  intros L C S A B. unfold get_new_script, NUM_SCRIPTS.
  destruct (t_count t =? 0) eqn:E0; cbn [t_cells t_cap t_size t_count].
  - assert (t_cells t = []) by (apply length_zero_iff_nil; unfold zlen in L; lia).
    eexists. split; [reflexivity|]. cbn [t_cells t_cap t_size t_count]. rewrite H. repeat split; intros; lia.
  - destruct S as [S|S]; [lia|]. rewrite S. destruct (t_count t =? 8) eqn:E8; cbn [t_cells t_cap t_size t_count].
    + replace (t_count t <? 8 + 8) with true by (clear - E8; lia). eexists. split; [reflexivity|]. cbn. repeat split; intros; lia.
    + assert (CC : t_count t < t_cap t) by lia.
      replace (t_count t <? t_cap t) with true by (clear - CC; lia). eexists. split; [reflexivity|]. cbn. repeat split; auto; intros; lia.
Qed.
Theorem C76_stored_partial : forall vs, (length vs <= 16)%nat ->
  exists t, add_scripts vs table_init = Done t /\ t_cells t = vs /\ t_count t = zlen vs.
Proof.
  assert (G : forall vs t, zlen (t_cells t) = t_count t -> t_count t + zlen vs <= 16 ->
    (t_count t = 0 \/ t_size t = 8) -> (t_count t <= 8 -> t_count t = 0 \/ t_cap t = 8 \/ t_cap t = 16) -> (8 < t_count t -> t_cap t = 16) ->
    exists t', add_scripts vs t = Done t' /\ t_cells t' = t_cells t ++ vs /\ t_count t' = t_count t + zlen vs).
  { induction vs as [|v vs IH]; intros t L C S A B.
    - exists t. cbn. rewrite app_nil_r, Z.add_0_r. auto.
    - unfold zlen in C. cbn [length] in C.
      destruct (new_script_ok v t L) as (t1 & N & T1 & T2 & T3 & T4 & T5); auto; [lia|].
      destruct (IH t1) as (t2 & N2 & U1 & U2); auto.
      + rewrite T1, T2, zlen_app, L. reflexivity.
      + unfold zlen. lia.
      + exists t2. cbn [add_scripts]. rewrite N, N2, U1, U2, T1, T2, <- app_assoc. unfold zlen. cbn [length]. repeat split; auto. lia. }
  intros vs L. destruct (G vs table_init) as (t & N & T1 & T2); cbn; auto; try lia. unfold zlen. lia.
  exists t. auto.
Qed.
(** The seventeenth is written past the end of the table *)
Theorem C76_seventeen_refuted : forall vs, length vs = 17%nat -> add_scripts vs table_init = Undef UOob.
Proof.
  intros vs L. do 18 (destruct vs as [|? vs]; [try discriminate L|]); try discriminate L. reflexivity.
Qed.
Example C76_ex : (length [1; 2; 3; 4; 5; 6; 7; 8; 9; 10] <= 16)%nat.
Proof. cbn. lia. Qed.
