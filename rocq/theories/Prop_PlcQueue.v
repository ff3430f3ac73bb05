(** * Prop_PlcQueue: C85 (completed reads reach the tag server), C86 (a value is
    not thrown back) *)
From Verif Require Import Base Lib Script Prop_Script Plctag.

Fixpoint reads (es : list pev) : list Z :=
  match es with [] => [] | ReadDone x :: r => x :: reads r | _ :: r => reads r end.
(** The value of each tag at its last completed read, by what the PLC did alone *)
Fixpoint seen (es : list pev) (plc got : Z -> Z) : Z -> Z :=
  match es with
  | [] => got
  | PlcSet x v :: r => seen r (set_at plc x v) got
  | ReadDone x :: r => seen r plc (set_at got x (plc x))
  | _ :: r => seen r plc got
  end.
Fixpoint plc_own (es : list pev) (plc : Z -> Z) : Z -> Z :=
  match es with [] => plc | PlcSet x v :: r => plc_own r (set_at plc x v) | _ :: r => plc_own r plc end.
Definition hand (s : psys) : list Z := match q_thr s with PWrite x => [x] | _ => [] end.
(** Whenever a read completes, fewer than [m] tags wait in the queue *)
Definition roomy (wr : Z -> bool) (m : Z) (es : list pev) (s0 : psys) : Prop :=
  forall es1 x es2 s1, es = es1 ++ ReadDone x :: es2 -> pruns wr es1 s0 = Done s1 ->
    zlen (reads es1) - zlen (q_wrote s1) - zlen (hand s1) < m.
Definition no_clients (es : list pev) : Prop := forall x v, ~ In (Client x v) es.

Lemma pruns_app wr a : forall b s, pruns wr (a ++ b) s = match pruns wr a s with Done s' => pruns wr b s' | Undef u => Undef u end.
Proof. induction a as [|e a IH]; intros b s; cbn; [reflexivity|]. destruct (pstep wr e s); auto. Qed.
Lemma reads_app a b : reads (a ++ b) = reads a ++ reads b.
Proof. induction a as [|[]]; cbn; congruence. Qed.
Lemma seen_app a : forall b plc got, seen (a ++ b) plc got = seen b (plc_own a plc) (seen a plc got).
Proof. induction a as [|[]]; cbn; intros; auto. Qed.
Lemma plc_own_app a : forall b plc, plc_own (a ++ b) plc = plc_own b (plc_own a plc).
Proof. induction a as [|[]]; cbn; intros; auto. Qed.

Definition zero : Z -> Z := fun _ => 0.
(** The state after [es], when the thread waits before the first read *)
Record Qinv (n : Z) (es : list pev) (s : psys) : Prop := {
  u_held : q_held s = false; u_evs : q_evs s = [];
  u_plc : q_plc s = plc_own es zero; u_buf : q_buf s = seen es zero zero;
  u_q : exists q, Holds (negb (is_nil (reads es))) n (q_ring s) q /\ map fst (q_wrote s) ++ hand s ++ q = reads es /\
        (q <> [] -> q_thr s <> PWait) /\ (forall x, In x (hand s ++ q) \/ q_srv s x = q_buf s x);
  u_start : q_thr s <> PStart;
  u_idle : reads es = [] -> q_thr s = PWait }.

Lemma notnil_app {A} (l : list A) x : negb (is_nil (l ++ [x])) = true.
Proof. destruct l; reflexivity. Qed.
Lemma in_hand_eq s s' : q_thr s = q_thr s' -> hand s = hand s'.
Proof. unfold hand. intros ->. reflexivity. Qed.

Section Queue.
Variable wr : Z -> bool.
Hypothesis WR : forall x, wr x = false.

Lemma Qinv_read n es s x : Qinv n es s -> zlen (reads es) - zlen (q_wrote s) - zlen (hand s) < n ->
  exists s', pstep wr (ReadDone x) s = Done s' /\ Qinv n (es ++ [ReadDone x]) s'.
Proof.
  intros [U1 U2 U3 U4 (q & H & Q & A & I) U6 U7] L.
  assert (LQ : zlen q < n).
  { apply (f_equal (@zlen _)) in Q. rewrite !zlen_app in Q. unfold zlen in Q at 1. rewrite map_length in Q. unfold zlen in *. lia. }
  cbn [pstep]. cbv zeta. cbn [q_held q_ring q_thr]. rewrite U1.
  destruct (push_room _ _ _ _ x H LQ) as (r' & P & H' & _). rewrite P. change (0 =? 0) with true. cbv iota.
  eexists. split; [reflexivity|].
  assert (HE : forall th', (match q_thr s with PWait => PWoken | th => th end) = th' ->
     match th' with PWrite y => [y] | _ => [] end = hand s).
  { intros th' <-. unfold hand. destruct (q_thr s); reflexivity. }
  constructor; unfold with_ring; cbn [q_held q_evs q_plc q_buf q_ring q_srv q_thr q_wrote]; auto.
  - rewrite plc_own_app. exact U3.
  - rewrite seen_app. cbn [seen]. rewrite <- U3, U4. reflexivity.
  - exists (q ++ [x]). rewrite reads_app. cbn [reads]. rewrite notnil_app. split; [exact H'|].
    unfold hand at 1 2. cbn [q_thr]. rewrite (HE _ eq_refl). split; [|split].
    + rewrite <- Q, <- !app_assoc. reflexivity.
    + intros _. destruct (q_thr s); discriminate.
    + intros y. rewrite app_assoc. unfold set_at. destruct (y =? x) eqn:E.
      * left. apply in_or_app. right. left. lia.
      * destruct (I y) as [J|J]; [left; apply in_or_app; left; exact J|right; exact J].
  - destruct (q_thr s); try discriminate. congruence.
  - rewrite reads_app. intros C. apply (f_equal (@length _)) in C. rewrite app_length in C. cbn in C. lia.
Qed.

Lemma Qinv_step n es s e : Qinv n es s -> (forall x, e <> ReadDone x) -> (forall x v, e <> Client x v) ->
  exists s', pstep wr e s = Done s' /\ Qinv n (es ++ [e]) s'.
Proof.
  intros V NR NC. pose proof V as [U1 U2 U3 U4 (q & H & Q & A & I) U6 U7].
  assert (RR : reads (es ++ [e]) = reads es).
  { rewrite reads_app. destruct e; cbn; try apply app_nil_r. exfalso. eapply NR. reflexivity. }
  assert (SS : seen (es ++ [e]) zero zero = seen es zero zero).
  { rewrite seen_app. destruct e; cbn; try reflexivity. exfalso. eapply NR. reflexivity. }
  assert (SAME : (forall x v, e <> PlcSet x v) -> Qinv n (es ++ [e]) s).
  { intros NP. constructor; auto.
    - rewrite plc_own_app. destruct e; cbn; auto. exfalso. eapply NP. reflexivity.
    - rewrite SS. exact U4.
    - exists q. rewrite RR. auto.
    - rewrite RR. exact U7. }
  destruct e as [x v|x| | | |x v].
  - eexists. split; [reflexivity|]. constructor; cbn [q_held q_evs q_plc q_buf q_ring q_srv q_thr q_wrote]; auto.
    + rewrite plc_own_app. cbn. rewrite U3. reflexivity.
    + rewrite SS. exact U4.
    + exists q. rewrite RR. unfold hand. cbn [q_thr]. fold (hand s). auto.
    + rewrite RR. exact U7.
  - exfalso. eapply NR. reflexivity.
  - cbn [pstep]. rewrite U1.
    assert (LOOP : q_thr s = PWoken \/ q_thr s = PWrote -> exists s', thr_loop s = Done s' /\ Qinv n (es ++ [Thread]) s').
    { intros T. assert (HN : hand s = []) by (unfold hand; destruct T as [-> | -> ]; reflexivity).
      rewrite HN in *. cbn [app] in *.
      assert (RN : reads es <> []). { intros C. specialize (U7 C). destruct T; congruence. }
      assert (ST : negb (is_nil (reads es)) = true) by (destruct (reads es); [contradiction|reflexivity]).
      rewrite ST in H. unfold thr_loop. destruct q as [|x q].
      - rewrite (h_empty _ _ _ _ H). change (true && (zlen ([] : list Z) =? 0)) with true. cbv iota.
        eexists. split; [reflexivity|]. constructor; unfold with_ring; cbn [q_held q_evs q_plc q_buf q_ring q_srv q_thr q_wrote]; auto; try discriminate.
        + rewrite plc_own_app. exact U3.
        + rewrite SS. exact U4.
        + exists []. rewrite RR, ST. unfold hand. cbn [q_thr]. cbn [app] in *. split; [exact H|]. split; [exact Q|]. split; [contradiction|exact I].
      - assert (E : r_empty (q_ring s) = false).
        { rewrite (h_empty _ _ _ _ H). unfold zlen. cbn [length andb]. clear. lia. }
        rewrite E. destruct (pop_cons _ _ _ _ _ H) as (r' & P & H' & _). rewrite P.
        eexists. split; [reflexivity|]. constructor; unfold with_ring; cbn [q_held q_evs q_plc q_buf q_ring q_srv q_thr q_wrote]; auto; try discriminate.
        + rewrite plc_own_app. exact U3.
        + rewrite SS. exact U4.
        + exists q. rewrite RR, ST. unfold hand. cbn [q_thr]. split; [exact H'|]. split; [exact Q|]. split; [discriminate|exact I].
        + rewrite RR. intros C. contradiction. }
    destruct (q_thr s) eqn:T; try (apply LOOP; solve [auto]).
    + contradiction.
    + exists s. split; [reflexivity|]. apply SAME. discriminate.
    + exists s. split; [reflexivity|]. apply SAME. discriminate.
  - cbn [pstep]. destruct (q_thr s) eqn:T; try (exists s; split; [reflexivity|]; apply SAME; discriminate).
    cbv zeta. eexists. split; [reflexivity|].
    constructor; unfold srv_set; cbn [q_held q_evs q_plc q_buf q_ring q_srv q_thr q_wrote]; auto; try discriminate.
    + rewrite WR. cbn [andb]. exact U2.
    + rewrite plc_own_app. exact U3.
    + rewrite SS. exact U4.
    + exists q. rewrite RR. split; [exact H|].
      assert (HX : hand s = [x]) by (unfold hand; rewrite T; reflexivity). rewrite HX in *.
      unfold hand. cbn [q_thr]. split; [|split].
      * rewrite <- Q, map_app, <- !app_assoc. reflexivity.
      * discriminate.
      * intros y. cbn [app]. unfold set_at. destruct (y =? x) eqn:E.
        -- right. f_equal. lia.
        -- destruct (I y) as [[J|J]|J]; [lia|left; exact J|right; exact J].
    + rewrite RR. intros C. specialize (U7 C). congruence.
  - cbn [pstep]. rewrite U2. exists s. split; [reflexivity|]. apply SAME. discriminate.
  - exfalso. eapply NC. reflexivity.
Qed.

Definition ready (n : nat) : psys := with_ring (ring_init n) PWait (psys_init n).
Lemma Qinv_init n : (0 < n)%nat -> Qinv (Z.of_nat n) [] (ready n).
Proof.
  intros P. constructor; try reflexivity; try discriminate.
  exists []. split; [apply holds_init; exact P|]. split; [reflexivity|]. split; [contradiction|]. intros x. right. reflexivity.
Qed.

Lemma Qinv_runs n : (0 < n)%nat -> forall es, no_clients es -> roomy wr (Z.of_nat n) es (ready n) ->
  exists s, pruns wr es (ready n) = Done s /\ Qinv (Z.of_nat n) es s.
Proof.
  intros P es. induction es as [|e es IH] using rev_ind; intros NC RM.
  - exists (ready n). split; [reflexivity|apply Qinv_init; exact P].
  - destruct IH as (s & S & V).
    { intros x v I. apply (NC x v). apply in_or_app. left. exact I. }
    { intros es1 x es2 s1 E. apply (RM es1 x (es2 ++ [e])). rewrite E, <- app_assoc. reflexivity. }
    rewrite pruns_app, S. cbn [pruns].
    assert (C : (exists x, e = ReadDone x) \/ (forall x, e <> ReadDone x)) by (destruct e; eauto; right; intros; discriminate).
    destruct C as [(x & -> ) | NR].
    + destruct (Qinv_read (Z.of_nat n) es s x V) as (s' & S' & V'). { eapply RM; eauto. }
      rewrite S'. eauto.
    + destruct (Qinv_step (Z.of_nat n) es s e V NR) as (s' & S' & V').
      { intros x v C. apply (NC x v). apply in_or_app. right. left. exact C. }
      rewrite S'. eauto.
Qed.

Definition thread_only (es : list pev) : Prop := Forall (fun e => e = Thread \/ e = Write) es.
Definition rank (th : pthr) : nat := match th with PWait => 0 | PStart => 0 | PWoken => 1 | PWrote => 1 | PWrite _ => 2 end.

Lemma own_thread es e : e = Thread \/ e = Write -> reads (es ++ [e]) = reads es /\ seen (es ++ [e]) zero zero = seen es zero zero.
Proof. intros [-> | -> ]; rewrite reads_app, seen_app; cbn; rewrite app_nil_r; auto. Qed.

Lemma drain n : forall m es s q, Qinv n es s -> Holds (negb (is_nil (reads es))) n (q_ring s) q ->
  (q <> [] -> q_thr s <> PWait) -> (3 * length q + rank (q_thr s) <= m)%nat ->
  exists more s', thread_only more /\ pruns wr more s = Done s' /\ Qinv n (es ++ more) s' /\ q_thr s' = PWait /\
    Holds (negb (is_nil (reads es))) n (q_ring s') [] /\ reads (es ++ more) = reads es /\ seen (es ++ more) zero zero = seen es zero zero.
Proof.
  induction m as [|m IH]; intros es s q V H A M.
  - destruct q; [|cbn in M; lia]. exists [], s. rewrite app_nil_r. split; [constructor|]. split; [reflexivity|]. split; [exact V|].
    split; [|auto]. pose proof (u_start _ _ _ V). destruct (q_thr s); cbn in M; try lia; congruence.
  - assert (ONE : forall e s1 q1, e = Thread \/ e = Write -> pstep wr e s = Done s1 -> Holds (negb (is_nil (reads es))) n (q_ring s1) q1 ->
       (q1 <> [] -> q_thr s1 <> PWait) -> (3 * length q1 + rank (q_thr s1) <= m)%nat ->
       exists more s', thread_only more /\ pruns wr more s = Done s' /\ Qinv n (es ++ more) s' /\ q_thr s' = PWait /\
       Holds (negb (is_nil (reads es))) n (q_ring s') [] /\ reads (es ++ more) = reads es /\ seen (es ++ more) zero zero = seen es zero zero).
    { intros e s1 q1 E S1 H1 A1 M1. destruct (Qinv_step n es s e V) as (s1' & S1' & V1).
      { intros x. destruct E; subst; discriminate. } { intros x v. destruct E; subst; discriminate. }
      rewrite S1 in S1'. injection S1' as <-. destruct (own_thread es e E) as [R1 R2].
      destruct (IH (es ++ [e]) s1 q1 V1) as (more & s' & T & P & V' & W & HH & RR & SS); auto. { rewrite R1. exact H1. }
      exists (e :: more), s'. rewrite <- app_assoc in *. cbn [app] in *. rewrite R1 in *. rewrite R2 in *.
      split; [constructor; auto|]. split; [cbn [pruns]; rewrite S1; exact P|]. auto. }
    assert (LOOP : q_thr s = PWoken \/ q_thr s = PWrote -> exists more s', thread_only more /\ pruns wr more s = Done s' /\ Qinv n (es ++ more) s' /\ q_thr s' = PWait /\
       Holds (negb (is_nil (reads es))) n (q_ring s') [] /\ reads (es ++ more) = reads es /\ seen (es ++ more) zero zero = seen es zero zero).
    { intros T. assert (RN : reads es <> []). { intros C. pose proof (u_idle _ _ _ V C). destruct T; congruence. }
      assert (ST : negb (is_nil (reads es)) = true) by (destruct (reads es); [contradiction|reflexivity]). rewrite ST in H, ONE |- *.
      assert (ST' : pstep wr Thread s = thr_loop s) by (cbn [pstep]; rewrite (u_held _ _ _ V); destruct T as [-> | -> ]; reflexivity).
      destruct q as [|x q].
      - apply (ONE Thread (with_ring (q_ring s) PWait s) []); auto.
        + rewrite ST'. unfold thr_loop. rewrite (h_empty _ _ _ _ H). reflexivity.
        + cbn. lia.
      - destruct (pop_cons _ _ _ _ _ H) as (r' & P & H' & _). apply (ONE Thread (with_ring r' (PWrite x) s) q); auto; try discriminate.
        + rewrite ST'. unfold thr_loop. rewrite (h_empty _ _ _ _ H), P. unfold zlen. cbn [length andb].
          replace (Z.of_nat (S (length q)) =? 0) with false by (clear; lia). reflexivity.
        + cbn [length] in M. cbn. lia. }
    destruct (q_thr s) eqn:T; try (apply LOOP; solve [auto]).
    + exfalso. apply (u_start _ _ _ V). exact T.
    + destruct q; [|exfalso; apply A; [discriminate|reflexivity]].
      exists [], s. rewrite app_nil_r. split; [constructor|]. split; [reflexivity|]. auto.
    + apply (ONE Write {| q_ring := q_ring s; q_thr := PWrote; q_held := q_held s; q_plc := q_plc s; q_buf := q_buf s;
                  q_srv := q_srv (srv_set wr x (q_buf s x) s); q_evs := q_evs (srv_set wr x (q_buf s x) s);
                  q_wrote := q_wrote s ++ [(x, q_buf s x)] |} q); auto.
      * cbn [pstep]. rewrite T. reflexivity.
      * cbn [q_thr]. discriminate.
      * cbn [q_thr rank] in *. lia.
Qed.
End Queue.

(** ** C85 *)
(** For tags that are only read: if the thread waits before the first read and reads never find the
    queue full, then the tags are written in the order of the reads, once for each of them, and the
    thread alone brings the tag server to the values of the last reads *)
Theorem C85_written_partial : forall wr n es, (forall x, wr x = false) -> (0 < n)%nat -> no_clients es ->
  roomy wr (Z.of_nat n) es (ready n) ->
  exists s, pruns wr es (ready n) = Done s /\
    (exists waiting, reads es = map fst (q_wrote s) ++ hand s ++ waiting) /\
    exists more s', thread_only more /\ pruns wr more s = Done s' /\ map fst (q_wrote s') = reads es /\
      forall x, q_srv s' x = seen es zero zero x.
Proof.
  intros wr n es WR P NC RM. destruct (Qinv_runs wr WR n P es NC RM) as (s & S & V).
  exists s. split; [exact S|]. destruct (u_q _ _ _ V) as (q & H & Q & A & I). split; [exists q; auto|].
  destruct (drain wr WR (Z.of_nat n) (3 * length q + rank (q_thr s)) es s q V H A (le_n _)) as (more & s' & T & R & V' & W & HH & RR & SS).
  exists more, s'. split; [exact T|]. split; [exact R|].
  destruct (u_q _ _ _ V') as (q' & H' & Q' & A' & I').
  assert (q' = []). { destruct q'; [reflexivity|]. exfalso. apply A'; [discriminate|exact W]. } subst q'.
  assert (HN : hand s' = []) by (unfold hand; rewrite W; reflexivity). rewrite HN in *. cbn [app] in *. rewrite app_nil_r, RR in Q'.
  split; [exact Q'|]. intros x. destruct (I' x) as [[]|J]. rewrite J, (u_buf _ _ _ V'), SS. reflexivity.
Qed.

Definition none (x : Z) : bool := false.
Example C85_ex : let es := [PlcSet 1 5; ReadDone 1; Thread; PlcSet 2 6; ReadDone 2; PlcSet 1 7; ReadDone 1; Write] in
  roomy none 2 es (ready 2) /\ no_clients es /\ seen es zero zero 1 = 7.
Proof.
  cbv zeta. split; [|split; [|reflexivity]].
  - intros es1 x es2 s1 E.
    repeat (destruct es1 as [|e1 es1]; cbn [app] in E;
      [try discriminate E; (injection E as <- <-; intros X; vm_compute in X; injection X as <-; reflexivity)
      |try discriminate E; injection E as <- E]).
  - intros x v I. cbn in I. intuition discriminate.
Qed.

Lemma fill wr n x : forall k st s q, q_held s = false -> Holds st n (q_ring s) q -> zlen q + Z.of_nat k <= n ->
  exists s', pruns wr (repeat (ReadDone x) k) s = Done s' /\ q_held s' = false /\
    Holds (st || negb (k =? 0)%nat) n (q_ring s') (q ++ repeat x k) /\ r_first (q_ring s') = r_first (q_ring s) /\
    q_thr s' = (if (k =? 0)%nat then q_thr s else match q_thr s with PWait => PWoken | th => th end) /\
    q_wrote s' = q_wrote s /\ q_srv s' = q_srv s /\ q_evs s' = q_evs s /\ q_plc s' = q_plc s /\
    (forall y, y <> x -> q_buf s' y = q_buf s y).
Proof.
  induction k as [|k IH]; intros st s q F H L.
  - exists s. cbn. rewrite app_nil_r, orb_false_r. repeat split; auto; apply H.
  - cbn [repeat pruns pstep]. cbv zeta. cbn [q_held q_ring q_thr]. rewrite F.
    destruct (push_room _ _ _ _ x H) as (r' & P & H' & F'); [lia|]. rewrite P. change (0 =? 0) with true. cbv iota.
    match goal with |- context[pruns wr _ ?s1] => destruct (IH true s1 (q ++ [x]) eq_refl H') as (s' & R & A1 & A2 & A3 & A4 & A5 & A6 & A7 & A8 & A9) end.
    { rewrite zlen_app. change (zlen [x]) with 1. lia. }
    exists s'. split; [exact R|]. rewrite orb_true_r. cbn [with_ring q_ring q_thr q_wrote q_srv q_evs q_plc q_buf] in *.
    rewrite <- app_assoc in A2. split; [exact A1|]. split; [exact A2|]. split; [congruence|]. split.
    + rewrite A4. cbn [Nat.eqb]. destruct (k =? 0)%nat; [reflexivity|]. destruct (q_thr s); reflexivity.
    + repeat split; auto. intros y Y. rewrite A9 by exact Y. unfold set_at. replace (y =? x) with false by lia. reflexivity.
Qed.

(** Once a callback has found the queue full, at most the tag in hand is still written *)
Definition to_write (s : psys) : Z := zlen (q_wrote s) + zlen (hand s).
Lemma stuck_step wr e s : q_held s = true -> exists s', pstep wr e s = Done s' /\ q_held s' = true /\ to_write s' <= to_write s.
Proof.
  intros H. destruct e as [x v|x| | | |x v]; cbn [pstep]; cbv zeta; cbn [q_held]; rewrite ?H.
  - eexists; split; [reflexivity|]. split; [first [exact H|reflexivity]|]. apply Z.le_refl.
  - eexists; split; [reflexivity|]. split; [first [exact H|reflexivity]|]. apply Z.le_refl.
  - eexists; split; [reflexivity|]. split; [first [exact H|reflexivity]|]. apply Z.le_refl.
  - destruct (q_thr s) eqn:T; try (eexists; split; [reflexivity|]; split; [first [exact H|reflexivity]|]; apply Z.le_refl).
    eexists; split; [reflexivity|]. split; [first [exact H|reflexivity]|]. unfold to_write, hand. cbn [q_wrote q_thr]. rewrite T, zlen_app. cbn. lia.
  - destruct (q_evs s) as [|[x v] r]; (eexists; split; [reflexivity|]; split; [first [exact H|reflexivity]|]; apply Z.le_refl).
  - eexists; split; [reflexivity|]. split; [first [exact H|reflexivity]|]. apply Z.le_refl.
Qed.
Lemma stuck_runs wr : forall es s, q_held s = true -> exists s', pruns wr es s = Done s' /\ to_write s' <= to_write s.
Proof.
  induction es as [|e es IH]; intros s H; cbn [pruns].
  - exists s. split; [reflexivity|]. apply Z.le_refl.
  - destruct (stuck_step wr e s H) as (s1 & S & H1 & L). rewrite S. destruct (IH s1 H1) as (s' & R & L'). exists s'. split; [exact R|]. lia.
Qed.

Theorem C85_deadlock_refuted : forall wr n x, (1 < n)%nat ->
  exists s, pruns wr ([Thread; ReadDone x; Thread] ++ repeat (ReadDone x) (n + 1)) (psys_init n) = Done s /\ q_wrote s = [] /\
    forall es, exists s', pruns wr es s = Done s' /\ zlen (q_wrote s') <= 1.
Proof.
  intros wr n x N.
  assert (P0 : (0 < n)%nat) by lia.
  destruct (push_room _ _ _ _ x (holds_init n P0)) as (r1 & P1 & H1 & F1); [change (zlen (@nil Z)) with 0; lia|].
  destruct (pop_cons _ _ _ _ _ H1) as (r2 & P2 & H2 & F2).
  assert (E1 : r_empty r1 = false) by (rewrite (h_empty _ _ _ _ H1); reflexivity).
  assert (S1 : exists s1, pruns wr [Thread; ReadDone x; Thread] (psys_init n) = Done s1 /\ q_held s1 = false /\ q_ring s1 = r2 /\ q_thr s1 = PWrite x /\ q_wrote s1 = []).
  { cbn [pruns pstep psys_init q_held q_thr with_ring q_ring q_plc q_buf q_srv q_evs q_wrote]. cbv zeta. cbn [q_held q_ring q_thr].
    rewrite P1. change (0 =? 0) with true. cbv iota. cbn [with_ring q_held q_thr q_ring]. unfold thr_loop. cbn [with_ring q_ring]. rewrite E1, P2.
    eexists. split; [reflexivity|]. cbn. auto. }
  destruct S1 as (s1 & R1 & A1 & A2 & A3 & A4).
  destruct (fill wr (Z.of_nat n) x n true s1 []) as (s2 & R2 & B1 & B2 & B3 & B4 & B5 & _); auto.
  { rewrite A2. exact H2. } { change (zlen (@nil Z)) with 0. lia. }
  cbn [app orb] in B2.
  assert (PF : q_push x (q_ring s2) = Done (-1, q_ring s2)).
  { apply (push_full _ _ _ _ _ B2).
    - unfold zlen. rewrite repeat_length. reflexivity.
    - rewrite B3, A2, F2, F1. cbn [ring_init r_first]. unfold wrap. replace (0 + 1 <? Z.of_nat n) with true by lia. lia. }
  rewrite pruns_app, R1. replace (n + 1)%nat with (n + 1)%nat by lia. rewrite repeat_app, pruns_app, R2.
  cbn [repeat pruns pstep]. cbv zeta. cbn [q_held q_ring]. rewrite B1, PF. change (-1 =? 0) with false. cbv iota.
  eexists. split; [reflexivity|]. cbn [q_wrote]. split; [congruence|].
  assert (TH : q_thr s2 = PWrite x). { rewrite B4, A3. replace (n =? 0)%nat with false by lia. reflexivity. }
  intros es. destruct (stuck_runs wr es {| q_ring := q_ring s2; q_thr := q_thr s2; q_held := true; q_plc := q_plc s2;
     q_buf := set_at (q_buf s2) x (q_plc s2 x); q_srv := q_srv s2; q_evs := q_evs s2; q_wrote := q_wrote s2 |} eq_refl) as (s' & R & L).
  exists s'. split; [exact R|]. unfold to_write, hand in L. cbn [q_wrote q_thr] in L. rewrite TH, B5, A4 in L.
  change (zlen (@nil (Z * Z))) with 0 in L. change (zlen [x]) with 1 in L.
  enough (0 <= zlen match q_thr s' with PWrite y => [y] | _ => [] end) by lia. unfold zlen. lia.
Qed.

(** A full queue that begins at place 0 is not known to be full: the next read wipes it out *)
Theorem C85_overwrite_refuted : forall n v, (0 < n)%nat ->
  exists s, pruns none (PlcSet 1 v :: repeat (ReadDone 1) n ++ [ReadDone 2; Thread; Write; Thread]) (ready n) = Done s /\
    q_thr s = PWait /\ q_wrote s = [(2, 0)] /\ q_srv s 1 = 0 /\ q_held s = false.
Proof.
  intros n v N. cbn [pruns pstep].
  set (s0 := {| q_ring := _; q_thr := _; q_held := _; q_plc := _; q_buf := _; q_srv := _; q_evs := _; q_wrote := _ |}).
  destruct (fill none (Z.of_nat n) 1 n false s0 []) as (s2 & R2 & B1 & B2 & B3 & B4 & B5 & B6 & B7 & B8 & B9); auto.
  { apply holds_init. exact N. } { change (zlen (@nil Z)) with 0. lia. }
  cbn [app orb] in B2. rewrite pruns_app, R2. replace (n =? 0)%nat with false in B4 by lia. cbn in B4.
  destruct (push_over _ _ _ _ 2 B2) as (r3 & P3 & H3).
  { unfold zlen. rewrite repeat_length. reflexivity. } { rewrite B3. reflexivity. }
  destruct (pop_cons _ _ _ _ _ H3) as (r4 & P4 & H4 & _).
  cbn [pruns pstep]. cbv zeta. cbn [q_held q_ring q_thr]. rewrite B1, P3, B4. change (0 =? 0) with true. cbv iota.
  cbn [with_ring q_held q_thr q_ring]. rewrite ?B1. unfold thr_loop at 1. cbn [with_ring q_ring].
  assert (E3 : r_empty r3 = false) by (rewrite (h_empty _ _ _ _ H3); reflexivity). rewrite E3, P4.
  cbn [with_ring q_held q_thr q_ring q_buf srv_set q_srv q_evs q_wrote q_plc]. rewrite ?B1. unfold thr_loop. cbn [q_ring].
  assert (E4 : r_empty r4 = true) by (rewrite (h_empty _ _ _ _ H4); reflexivity). rewrite E4.
  eexists. split; [reflexivity|]. cbn [with_ring q_thr q_wrote q_srv q_held]. rewrite B5, B6, B8.
  unfold set_at. cbn. auto.
Qed.

(** A read that completes before the thread waits stays in the queue until another one completes *)
Theorem C85_lost_wakeup_refuted : forall wr n x es, (0 < n)%nat -> reads es = [] ->
  exists s, pruns wr ([ReadDone x; Thread] ++ es) (psys_init n) = Done s /\ q_wrote s = [] /\ r_empty (q_ring s) = false.
Proof.
  intros wr n x es N R.
  destruct (push_room _ _ _ _ x (holds_init n N)) as (r1 & P1 & H1 & F1); [change (zlen (@nil Z)) with 0; lia|].
  assert (S1 : exists s1, pruns wr [ReadDone x; Thread] (psys_init n) = Done s1 /\ q_thr s1 = PWait /\ q_held s1 = false /\ q_wrote s1 = [] /\ r_empty (q_ring s1) = false).
  { cbn [pruns pstep]. cbv zeta. cbn [psys_init q_held q_ring q_thr]. rewrite P1. change (0 =? 0) with true. cbv iota.
    cbn [with_ring q_held q_thr q_ring]. eexists. split; [reflexivity|]. cbn. rewrite (h_empty _ _ _ _ H1). auto. }
  destruct S1 as (s1 & R1 & A1 & A2 & A3 & A4). rewrite pruns_app, R1. clear R1. revert s1 A1 A2 A3 A4 R.
  induction es as [|e es IH]; intros s1 A1 A2 A3 A4 R; cbn [pruns]; [eauto|].
  destruct e as [y v|y| | | |y v]; cbn [reads] in R; try discriminate; cbn [pstep]; rewrite ?A1, ?A2; try (apply IH; auto; fail).
  destruct (q_evs s1) as [|[y v] r]; apply IH; auto.
Qed.

(** ** C86 *)
(** A tag that is both read and written: the change event of the module's own write throws an
    older value back at the PLC, and the last value the PLC stored is gone from both sides,
    although no other module wrote *)
Definition both (x : Z) : bool := true.
Definition echo : list pev :=
  [PlcSet 1 1; ReadDone 1; Thread; Write; PlcSet 1 2; ReadDone 1; Event; Thread; Write; Thread].
Theorem C86_echo_refuted : exists s, pruns both echo (ready 256) = Done s /\ no_clients echo /\
  q_thr s = PWait /\ q_evs s = [] /\ r_empty (q_ring s) = true /\ plc_own echo zero 1 = 2 /\ q_plc s 1 = 1 /\ q_srv s 1 = 1.
Proof.
  eexists. split; [vm_compute; reflexivity|]. split; [intros x v I; cbn in I; intuition discriminate|].
  split; [reflexivity|]. split; [reflexivity|]. split; [reflexivity|]. split; [reflexivity|]. split; reflexivity.
Qed.

(** The other direction: as long as the program of the PLC leaves the tag alone, the PLC has the
    value of the tag server as soon as no change event is under way *)
Fixpoint last_of (x : Z) (evs : list (Z * Z)) (d : Z) : Z :=
  match evs with [] => d | (y, v) :: r => last_of x r (if y =? x then v else d) end.
Lemma last_of_app x : forall a d y v, last_of x (a ++ [(y, v)]) d = if y =? x then v else last_of x a d.
Proof. induction a as [|[z w] a IH]; intros; cbn; auto. Qed.
Lemma last_of_none x : forall a d, (forall v, ~ In (x, v) a) -> last_of x a d = d.
Proof.
  induction a as [|[y v] a IH]; intros d H; cbn; [reflexivity|]. rewrite IH.
  - destruct (y =? x) eqn:E; [|reflexivity]. exfalso. apply (H v). left. f_equal. lia.
  - intros w I. apply (H w). right. exact I.
Qed.
Definition agree (x : Z) (s : psys) : Prop := last_of x (q_evs s) (q_plc s x) = q_srv s x.
Lemma agree_srv wr x y v s : wr x = true -> agree x s -> agree x (srv_set wr y v s).
Proof.
  unfold agree, srv_set. cbn [q_evs q_plc q_srv]. intros W A. unfold set_at. rewrite (Z.eqb_sym x y). destruct (y =? x) eqn:E.
  - assert (y = x) by lia. subst y. rewrite W. cbn [andb]. destruct (q_srv s x =? v) eqn:F; cbn [negb].
    + rewrite A. lia.
    + rewrite last_of_app. replace (x =? x) with true by lia. reflexivity.
  - destruct (_ && _); [rewrite last_of_app, E|]; exact A.
Qed.
Lemma agree_eq x s s' : q_evs s' = q_evs s -> q_plc s' = q_plc s -> q_srv s' = q_srv s -> agree x s -> agree x s'.
Proof. unfold agree. intros -> -> ->. auto. Qed.
Lemma thr_loop_agree x s s' : thr_loop s = Done s' -> agree x s -> agree x s'.
Proof.
  unfold thr_loop. intros E. destruct (r_empty _); [injection E as <-; apply agree_eq; reflexivity|].
  destruct (q_pop _) as [[[y|] r]|]; try discriminate. injection E as <-. apply agree_eq; reflexivity.
Qed.
Lemma agree_step wr x e s s' : wr x = true -> (forall v, e <> PlcSet x v) -> pstep wr e s = Done s' -> agree x s -> agree x s'.
Proof.
  intros W NP E A. destruct e as [y v|y| | | |y v]; cbn [pstep] in E.
  - injection E as <-. unfold agree in *. cbn [q_evs q_plc q_srv]. unfold set_at.
    destruct (x =? y) eqn:F; [exfalso; apply (NP v); f_equal; lia|exact A].
  - cbv zeta in E. cbn [q_held q_ring q_thr] in E. destruct (q_held s); [injection E as <-; revert A; apply agree_eq; reflexivity|].
    destruct (q_push _ _) as [[c r]|]; [|discriminate].
    destruct (c =? 0); injection E as <-; revert A; apply agree_eq; reflexivity.
  - destruct (q_held s); [injection E as <-; exact A|].
    destruct (q_thr s); try (injection E as <-; exact A); eapply thr_loop_agree; eauto.
  - destruct (q_thr s); try (injection E as <-; exact A). cbv zeta in E. injection E as <-.
    apply (agree_srv wr x x0 (q_buf s x0) s W) in A. revert A. apply agree_eq; reflexivity.
  - destruct (q_evs s) as [|[y v] r] eqn:Q; injection E as <-; [exact A|]. unfold agree in *. rewrite Q in A. cbn [last_of] in A.
    cbn [q_evs q_plc q_srv]. unfold set_at. rewrite (Z.eqb_sym x y). exact A.
  - injection E as <-. apply agree_srv; auto.
Qed.

Theorem C86_out_partial : forall wr n es s x, wr x = true -> (forall v, ~ In (PlcSet x v) es) ->
  pruns wr es (psys_init n) = Done s -> (forall v, ~ In (x, v) (q_evs s)) -> q_plc s x = q_srv s x.
Proof.
  intros wr n es s x W NP R NE.
  assert (A : agree x s).
  { assert (A0 : agree x (psys_init n)) by reflexivity. revert R A0. generalize (psys_init n) as s0.
    induction es as [|e es IH]; intros s0 R A0; cbn [pruns] in R; [injection R as <-; exact A0|].
    destruct (pstep wr e s0) as [s1|] eqn:S; [|discriminate].
    assert (NP' : forall v, ~ In (PlcSet x v) es) by (intros v I; apply (NP v); right; exact I).
    apply (IH NP' s1 R). eapply agree_step; eauto. intros v C. apply (NP v). left. exact C. }
  unfold agree in A. rewrite last_of_none in A by exact NE. exact A.
Qed.

Example C86_ex : exists s, pruns both [Client 1 5; Event; ReadDone 1; Client 1 7; Client 2 9; Event] (psys_init 256) = Done s /\
  q_evs s = [(2, 9)] /\ q_plc s 1 = 7 /\ q_srv s 1 = 7.
Proof. eexists. split; [vm_compute; reflexivity|]. split; [reflexivity|]. split; reflexivity. Qed.
