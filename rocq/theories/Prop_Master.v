(** * Prop_Master: C66 (restart back-off), C67 (exits are noticed), C68 (signals), C69 (argument
    vectors), C70 (credentials) *)
From Verif Require Import Base Master MasterProofs.

(** ** C66: a dead process with the restart flag is started again, no sooner than its delay *)

(** How long a dead process waits, in ms: nothing after a run of more than a
    minute, else its current delay.  (Times are in microseconds; the code
    computes milliseconds and truncates, which leaves one millisecond in which
    either answer is possible.) *)
Definition waits (p : proc) (w : Z) : Prop :=
  let ran := us (p_dead p) - us (p_start p) in
  (ran >= 60001000 -> w = 0) /\ (ran <= 60000000 -> w = p_rdelay p) /\ (w = 0 \/ w = p_rdelay p).

(** The clock has not been set back past the death, nor moved on 24 days *)
Definition sane (p : proc) (now : tv) : Prop := 0 <= us now - us (p_dead p) <= 2147483000000.

Lemma dead_case E m m' r acts i p cfg : mreach cfg m -> scan_procs E m = Done (m', r, acts) ->
  nth_error (m_procs m) i = Some p -> p_restart p = true -> p_state p = Some PS_DEAD -> sane p (e_now E) ->
  exists p' w, nth_error (m_procs m') i = Some p' /\ waits p w /\ 0 <= w <= 60000 /\
   let e := us (e_now E) - us (p_dead p) in
   ((e > 1000 * w /\ exists k, (forall z, In (AFork i z) acts <-> z = k) /\
      p_rdelay p' = Z.min 60000 (if w =? 0 then 100 else 2 * w) /\
      (0 < k -> p_pid p' = k /\ p_state p' = Some PS_STARTED /\ p_start p' = e_now E))
    \/ (e < 1000 * (w + 1) /\ (forall z, ~ In (AFork i z) acts) /\ p_state p' = Some PS_DEAD /\ p_rdelay p' = w /\
        1000 * r <= 1000 * w - e + 1000)).
Proof.
  intros R S N RS ST SN.
  destruct (scan_procs_at _ _ _ _ _ i p S N) as (p' & a & f & f' & k & k' & N' & S1 & K1 & K2 & INC & ONLY).
  destruct (scan_one_cases _ _ _ _ _ _ _ _ _ _ _ S1) as (_ & _ & _ & C).
  pose proof (mreach_inv _ _ R) as (_ & PI & _).
  assert (PP : proc_inv p) by (apply PI; eapply nth_error_In; eauto).
  pose proof (difftimeval_us (p_start p) (p_dead p)) as D1.
  pose proof (difftimeval_us (p_dead p) (e_now E)) as D2. unfold sane in SN.
  assert (SI : s32 (difftimeval (p_dead p) (e_now E)) = difftimeval (p_dead p) (e_now E)) by (apply s32_id; lia).
  rewrite SI in C.
  destruct C as [(_ & _ & w & W1 & W2 & W3 & C)|(C & _)]; [|tauto].
  assert (WB : 0 <= w <= 60000).
  { destruct W1 as [->| ->]; [lia|]. pose proof (pi_delay _ PP) as X. unfold delays in X. cbn [In] in X.
    repeat (destruct X as [X|X]; [lia|]). destruct X. }
  exists p', w. split; [auto|]. split; [|split; [auto|]].
  { unfold waits. split; [intros; apply W2; lia|]. split; [|tauto]. intros; apply W3. lia. }
  cbv zeta. destruct C as [(C1 & z & -> & Z2 & Z3 & _)|(C1 & -> & C2 & C3 & C4 & _ & _ & _ & C5)].
  - left. split; [lia|]. exists z. split; [|split; [auto|]].
    + intros y. split; [intros Y; apply ONLY in Y; destruct Y as [Y|[]]; congruence|].
      intros ->. apply INC. left. reflexivity.
    + intros P. destruct (Z3 P) as (? & ? & ? & _). auto.
  - right. split; [lia|]. split; [intros z Z0; apply ONLY in Z0; destruct Z0|].
    split; [congruence|]. split; [auto|]. specialize (C5 K1). lia.
Qed.

(** When the delay (plus the millisecond of truncation) is over, the next scan starts the process;
    the delay is doubled, from 100 ms up to a minute *)
Theorem C66_due : forall cfg m E m' r acts i p,
  mreach cfg m -> scan_procs E m = Done (m', r, acts) ->
  nth_error (m_procs m) i = Some p -> p_restart p = true -> p_state p = Some PS_DEAD -> sane p (e_now E) ->
  exists w, waits p w /\ (1000 * (w + 1) <= us (e_now E) - us (p_dead p) ->
   exists k p', In (AFork i k) acts /\ nth_error (m_procs m') i = Some p' /\
     p_rdelay p' = Z.min 60000 (if w =? 0 then 100 else 2 * w) /\
     (0 < k -> p_pid p' = k /\ p_state p' = Some PS_STARTED /\ p_start p' = e_now E)).
Proof.
  intros cfg m E m' r acts i p R S N RS ST SN.
  destruct (dead_case _ _ _ _ _ _ _ _ R S N RS ST SN) as (p' & w & N' & W & _ & C). cbv zeta in C.
  exists w. split; [auto|]. intros D. destruct C as [(_ & k & A & B & F)|(C & _)]; [|lia].
  exists k, p'. split; [apply A; reflexivity|]. auto.
Qed.

(** ... and not before: a process is only ever started when it is dead, has the restart flag, and
    its delay is over *)
Theorem C66_not_early : forall cfg m E m' r acts i k,
  mreach cfg m -> scan_procs E m = Done (m', r, acts) -> In (AFork i k) acts ->
  exists p, nth_error (m_procs m) i = Some p /\ p_restart p = true /\ p_state p = Some PS_DEAD /\
   (sane p (e_now E) -> exists w, waits p w /\ us (e_now E) - us (p_dead p) > 1000 * w).
Proof.
  intros cfg m E m' r acts i k R S I.
  destruct (scan_procs_act _ _ _ _ _ _ S I) as (j & p & p' & a & f & f' & z & z' & N & N' & IA & S1 & _).
  destruct (scan_one_cases _ _ _ _ _ _ _ _ _ _ _ S1) as (_ & _ & _ & C).
  assert (j = i /\ p_restart p = true /\ p_state p = Some PS_DEAD) as (-> & RS & ST).
  { destruct C as [(C1 & C2 & w & _ & _ & _ & [(_ & z0 & -> & _)|(_ & -> & _)])|(_ & _ & _ & _ & _ & _ & C & _)].
    - destruct IA as [IA|[]]. injection IA; auto.
    - destruct IA.
    - destruct (C _ IA) as [[X _]|[X _]]; discriminate. }
  exists p. repeat split; auto. intros SN.
  destruct (dead_case _ _ _ _ _ _ _ _ R S N RS ST SN) as (p1 & w & _ & W & _ & D). cbv zeta in D.
  exists w. split; [auto|]. destruct D as [(D & _)|(_ & D & _)]; [auto|]. exfalso. eapply D; eauto.
Qed.

(** The number of milliseconds process_scan returns (the main loop sleeps no longer) does not
    pass the moment at which a waiting process is due *)
Theorem C66_wakeup : forall cfg m E m' r acts i p,
  mreach cfg m -> scan_procs E m = Done (m', r, acts) ->
  nth_error (m_procs m) i = Some p -> p_restart p = true -> p_state p = Some PS_DEAD -> sane p (e_now E) ->
  (forall k, ~ In (AFork i k) acts) ->
  exists w, waits p w /\ us (e_now E) + 1000 * r <= us (p_dead p) + 1000 * (w + 1).
Proof.
  intros cfg m E m' r acts i p R S N RS ST SN NF.
  destruct (dead_case _ _ _ _ _ _ _ _ R S N RS ST SN) as (p' & w & _ & W & _ & D). cbv zeta in D.
  exists w. split; [auto|]. destruct D as [(_ & k & D & _)|(_ & _ & _ & _ & D)]; [|lia].
  exfalso. apply (NF k). apply D. reflexivity.
Qed.

(** The delay is always one of 0, 100 ms doubled any number of times, one minute *)
Theorem C66_delays : forall cfg m p, mreach cfg m -> In p (m_procs m) ->
  p_rdelay p = 0 \/ p_rdelay p = 60000 \/ exists n, 0 <= n <= 9 /\ p_rdelay p = 100 * 2 ^ n.
Proof.
  intros cfg m p R I. pose proof (mreach_inv _ _ R) as (_ & PI & _). pose proof (pi_delay _ (PI p I)) as X.
  unfold delays in X. cbn [In] in X. destruct X as [X|X]; [auto|].
  do 10 (destruct X as [X|X]; [right; right;
    first [exists 0; split; [lia|rewrite <- X; reflexivity] | exists 1; split; [lia|rewrite <- X; reflexivity]
          |exists 2; split; [lia|rewrite <- X; reflexivity] | exists 3; split; [lia|rewrite <- X; reflexivity]
          |exists 4; split; [lia|rewrite <- X; reflexivity] | exists 5; split; [lia|rewrite <- X; reflexivity]
          |exists 6; split; [lia|rewrite <- X; reflexivity] | exists 7; split; [lia|rewrite <- X; reflexivity]
          |exists 8; split; [lia|rewrite <- X; reflexivity] | exists 9; split; [lia|rewrite <- X; reflexivity]]|]).
  destruct X as [X|[]]. auto.
Qed.

(** A supervisor of three processes: 0 is restarted, 1 is restarted and has a memory limit, 2 is
    neither restarted nor limited *)
Definition cfg3 : list (bool * Z * Z) := [(true, 0, 0); (true, 0, 5000); (false, 0, 0)].
Definition sec (s us : Z) : tv := {| t_sec := s; t_usec := us |}.
Definition nostat : Z -> option (Z * Z) := fun _ => None.
Definition env (s us : Z) (forks : list Z) : menv := {| e_now := sec s us; e_forks := forks; e_stat := nostat |}.
Definition m3 := fst (mboot (sec 100 0) [501; 502; 503] cfg3).

(** Process 0 dies at once, is restarted after more than 0 ms, dies again, and then waits for more
    than 100 ms *)
Definition crash1 := [Death 501 1; Clean (sec 101 0); Supervise (env 101 0 []); Clean (sec 101 1500); Supervise (env 101 1500 [504])].
Definition crash2 := [Death 504 1; Clean (sec 102 0); Supervise (env 102 50000 [505])].
Example C66_ex :
  match mexec crash1 m3 with
  | Done (m, a) => a = [AFork 0 504] /\
     match mexec crash2 m with
     | Done (m', b) => b = [] /\ map p_rdelay (m_procs m') = [100; 0; 0] /\
         (match scan_procs (env 102 50000 [505]) m' with Done (_, r, c) => r = 50 /\ c = [] | _ => False end) /\
         (match scan_procs (env 102 101000 [505]) m' with Done (m'', r, c) => c = [AFork 0 505] /\ map p_rdelay (m_procs m'') = [200; 0; 0] | _ => False end)
     | _ => False end
  | _ => False end.
Proof. vm_compute. repeat split; reflexivity. Qed.

Lemma mreach_exec cfg es : forall m m' a, mreach cfg m -> Forall event_ok es -> mexec es m = Done (m', a) -> mreach cfg m'.
Proof.
  induction es as [|e es IH]; intros m m' a R F H; cbn in H; [injection H; intros; subst; auto|].
  inversion F; subst. destruct (mstep e m) as [[m1 a1]|] eqn:S; [|discriminate].
  destruct (mexec es m1) as [[m2 a2]|] eqn:X; [|discriminate]. injection H; intros; subst.
  eapply IH; [|eauto|eauto]. econstructor; eauto.
Qed.

(** The hypotheses of C66 hold in that state *)
Example C66_hyp_ex : exists m p, mreach cfg3 m /\ nth_error (m_procs m) 0 = Some p /\ p_restart p = true /\
  p_state p = Some PS_DEAD /\ sane p (sec 102 101000) /\ waits p 100 /\
  1000 * (100 + 1) <= us (sec 102 101000) - us (p_dead p).
Proof.
  destruct (mexec (crash1 ++ crash2) m3) as [[m a]|] eqn:E; [|vm_compute in E; discriminate].
  exists m. pose proof E as E'. vm_compute in E'. injection E'; intros _ M.
  destruct (nth_error (m_procs m) 0) as [p|] eqn:N; [|subst m; vm_compute in N; discriminate].
  exists p. split.
  { eapply mreach_exec; [| |exact E].
    - unfold m3. constructor. unfold tv_ok; cbn; lia.
    - repeat constructor; cbn; unfold tv_ok; cbn; lia. }
  split; [reflexivity|]. subst m. cbn in N. injection N; intros <-. unfold sane, waits, us. cbn. repeat split; auto; lia.
Qed.

(** ** C67: every exit is noticed *)

(** An exit is written into a free slot if there is one *)
Theorem C67_recorded_partial : forall cfg m pid st, mreach cfg m -> 0 < pid ->
  (length (pending (m_dpq m)) < 10)%nat ->
  exists m', mstep (Death pid st) m = Done (m', []) /\ In (pid, st) (m_dpq m') /\ m_procs m' = m_procs m /\
    forall p s, p <> 0 -> In (p, s) (m_dpq m) -> In (p, s) (m_dpq m').
Proof.
  intros cfg m pid st R P L. pose proof (mreach_inv _ _ R) as (L10 & _).
  destruct (dpq_add_ok pid st (m_dpq m)) as (q & D); [rewrite L10; exact L|].
  destruct (dpq_add_spec _ _ _ _ D) as (_ & a & b & _ & _ & X1 & _ & X2).
  cbn. rewrite D. eexists. split; [reflexivity|]. cbn. repeat split; auto.
Qed.

(** With ten exits pending the handler writes past the end of the queue *)
Theorem C67_overflow : forall cfg m pid st, mreach cfg m ->
  length (pending (m_dpq m)) = 10%nat -> mstep (Death pid st) m = Undef UOob.
Proof.
  intros cfg m pid st R L. pose proof (mreach_inv _ _ R) as (L10 & _).
  cbn. rewrite dpq_add_full; [reflexivity|]. congruence.
Qed.
Definition deaths (l : list Z) : list mevent := map (fun p => Death p 0) l.
Definition cfg11 : list (bool * Z * Z) := repeat (true, 0, 0) 11.
Definition pids11 : list Z := [501; 502; 503; 504; 505; 506; 507; 508; 509; 510; 511].
Theorem C67_overflow_refuted : exists cfg pids, length cfg = length pids /\ NoDup pids /\
  mexec (deaths pids) (fst (mboot (sec 100 0) pids cfg)) = Undef UOob.
Proof.
  exists cfg11, pids11. split; [reflexivity|]. split.
  - repeat constructor; cbn; intuition congruence.
  - vm_compute. reflexivity.
Qed.

(** At most ten configured processes: no exit finds the queue full *)
Lemma scan_pid cfg E m m' r acts i p : mreach cfg m -> scan_procs E m = Done (m', r, acts) ->
  nth_error (m_procs m) i = Some p -> exists p', nth_error (m_procs m') i = Some p' /\ (p_pid p' = p_pid p \/ p_pid p = 0).
Proof.
  intros R S N. destruct (scan_procs_at _ _ _ _ _ i p S N) as (p' & a & f & f' & k & k' & N' & S1 & _).
  exists p'. split; [auto|]. pose proof (mreach_inv _ _ R) as (_ & PI & _).
  pose proof (pi_ds _ (PI p (nth_error_In _ _ N))) as DS.
  destruct (scan_one_cases _ _ _ _ _ _ _ _ _ _ _ S1) as (_ & _ & _ & C).
  destruct C as [(_ & C & _)|(_ & C & _)]; auto.
Qed.
Lemma pending_known cfg w : wreach cfg w -> length (m_procs (w_m w)) = length cfg /\
  forall r, In r (pending (m_dpq (w_m w))) -> exists i p, nth_error (m_procs (w_m w)) i = Some p /\ p_pid p = r.
Proof.
  induction 1 as [now forks m a T B N|w i pid st m' a R [LN IH] I S|w now m' a R [LN IH] T S|w E m' a R [LN IH] T S N F]; cbn [w_m].
  - unfold mboot in B. pose proof (start_all_length now (map (fun c => process_add (fst (fst c)) (snd (fst c)) (snd c)) cfg) 0 forks) as L.
    destruct (start_all now 0 forks _). injection B; intros <- <-. cbn in *. rewrite map_length in L. split; [auto|]. intros r [].
  - destruct (wreach_winv _ _ R) as [A1 _ _ _ _ _]. cbn in S.
    destruct (dpq_add pid st (m_dpq (w_m w))) as [q|] eqn:D; [|discriminate]. injection S; intros <- <-. cbn.
    split; [auto|]. intros r J. apply in_pending in J. destruct J as (NZ & s & J).
    destruct (dpq_add_spec _ _ _ _ D) as (_ & x & y & _ & _ & _ & X & _). destruct (X _ J) as [E|E].
    + injection E; intros; subst. destruct (A1 _ _ I) as (_ & p & NP & EP). eauto.
    + apply IH. apply in_pending. eauto.
  - cbn in S. injection S; intros <- <-. unfold scan_clean.
    pose proof (clean_queue_length now (m_dpq (w_m w)) (m_procs (w_m w))) as [_ L].
    pose proof (clean_queue_zero now (m_dpq (w_m w)) (m_procs (w_m w))) as Z0.
    destruct (clean_queue now _ _) as [q l]. cbn in *. split; [congruence|]. intros r J. apply in_pending in J.
    destruct J as (NZ & s & J). apply Z0 in J. contradiction.
  - cbn in S. destruct (scan_procs E (w_m w)) as [[[m1 r1] a1]|] eqn:SP; [|discriminate]. injection S; intros <- <-.
    destruct (scan_procs_split _ _ _ _ _ SP) as (D & _ & L & _). rewrite D. split; [congruence|]. intros r J.
    destruct (IH r J) as (i & p & NP & EP). destruct (wreach_mreach _ _ R) as [MR _].
    destruct (scan_pid _ _ _ _ _ _ _ _ MR SP NP) as (p' & N' & [C|C]); exists i, p'; split; auto; try congruence.
    apply in_pending in J. destruct J as [NZ _]. congruence.
Qed.
Theorem C67_ten_partial : forall cfg w i pid st, wreach cfg w -> (length cfg <= 10)%nat ->
  In (i, pid) (w_alive w) -> exists m', mstep (Death pid st) (w_m w) = Done (m', []).
Proof.
  intros cfg w i pid st R L I. destruct (wreach_winv _ _ R) as [A1 A2 A3 A4 A5 A6].
  destruct (pending_known _ _ R) as [LN PK]. destruct (wreach_mreach _ _ R) as [MR _].
  destruct (A1 _ _ I) as (P & p & NP & EP).
  assert (LT : (length (pid :: pending (m_dpq (w_m w))) <= length (map p_pid (m_procs (w_m w))))%nat).
  { apply NoDup_incl_length.
    - constructor; [eapply A5; eauto|auto].
    - intros r [<-|J].
      + apply in_map_iff. exists p. split; [auto|]. eapply nth_error_In; eauto.
      + destruct (PK r J) as (j & q & NQ & EQ). apply in_map_iff. exists q. split; [auto|]. eapply nth_error_In; eauto. }
  rewrite map_length in LT. cbn in LT.
  destruct (C67_recorded_partial cfg (w_m w) pid st MR P) as (m' & S & _); [lia|]. eauto.
Qed.

(** A recorded exit of a supervised child: the next clean-up marks exactly that process dead, with
    its status and the time *)
Theorem C67_noticed_partial : forall cfg w now i p st,
  wreach cfg w -> nth_error (m_procs (w_m w)) i = Some p -> p_pid p <> 0 -> In (p_pid p, st) (m_dpq (w_m w)) ->
  exists p', nth_error (m_procs (scan_clean now (w_m w))) i = Some p' /\
    p_state p' = Some PS_DEAD /\ p_exit p' = st /\ p_pid p' = 0 /\ p_dead p' = now /\
    p_restart p' = p_restart p /\ p_rdelay p' = p_rdelay p /\ p_start p' = p_start p.
Proof.
  intros cfg w now i p st R N NZ I. destruct (wreach_winv _ _ R) as [A1 A2 A3 A4 A5 A6].
  assert (H : nth_error (snd (clean_queue now (m_dpq (w_m w)) (m_procs (w_m w)))) i = Some (deadp now st p)).
  { apply clean_queue_hit; auto.
    - intros j p' Nj Ej. symmetry. eapply (A3 i j p p'); eauto.
    - intros s I'. revert A6 I I' NZ. generalize (m_dpq (w_m w)) (p_pid p). intros q z.
      induction q as [|[a b] q IH]; intros A6 C C' NZ; [destruct C|]. unfold pending in A6. cbn in A6.
      destruct C as [C|C]; destruct C' as [C'|C'].
      + congruence.
      + injection C; intros; subst. destruct (z =? 0) eqn:E; [lia|]. cbn in A6. inversion A6; subst.
        exfalso. apply H1. apply in_pending. eauto.
      + injection C'; intros; subst. destruct (z =? 0) eqn:E; [lia|]. cbn in A6. inversion A6; subst.
        exfalso. apply H1. apply in_pending. eauto.
      + apply IH; auto. destruct (negb (a =? 0)); [inversion A6; auto|auto]. }
  exists (deadp now st p). unfold scan_clean. destruct (clean_queue now _ _); cbn in *. auto 10.
Qed.

(** ... and nobody else: a process whose child runs is never taken for dead, and the master has at
    most one running child per configured process.  (Histories in which fork() does not return a
    pid that still waits in the queue.) *)
Theorem C67_one_instance_partial : forall cfg w i a b, wreach cfg w ->
  In (i, a) (w_alive w) -> In (i, b) (w_alive w) ->
  a = b /\ exists p, nth_error (m_procs (w_m w)) i = Some p /\ p_pid p = a /\ p_state p <> Some PS_DEAD.
Proof.
  intros cfg w i a b R IA IB. destruct (wreach_winv _ _ R) as [A1 _ _ _ _ _].
  destruct (A1 _ _ IA) as (P & p & N & E). destruct (A1 _ _ IB) as (_ & p' & N' & E').
  rewrite N in N'. injection N'; intros <-. split; [congruence|]. exists p. repeat split; auto.
  intros D. destruct (wreach_mreach _ _ R) as [MR _]. pose proof (mreach_inv _ _ MR) as (_ & PI & _).
  pose proof (pi_ds _ (PI p (nth_error_In _ _ N)) D). lia.
Qed.

(** A pid that was reaped but not cleaned up yet may be given to the next child.  Then the wrong
    process is marked dead: process 0 (pid 502, running) gets a second instance 505, and process 1
    (really dead) is never restarted. *)
Definition reuse : list mevent :=
  [Death 501 0; Clean (sec 101 0); Death 502 0;               (* process 0 gone; 1 dies after the clean-up *)
   Supervise (env 101 5000 [502]);                              (* 0 restarted; the kernel reuses 502 *)
   Clean (sec 102 0); Supervise (env 103 0 [505])].
Theorem C67_reuse_refuted : exists m,
  mexec reuse m3 = Done (m, [AFork 0 502; AFork 0 505]) /\
  map p_pid (m_procs m) = [505; 502; 503] /\
  map p_state (m_procs m) = [Some PS_STARTED; Some PS_STARTED; Some PS_STARTED].
Proof. eexists. split; [vm_compute; reflexivity|]. split; reflexivity. Qed.

Lemma w3_reach : wreach cfg3 {| w_m := m3; w_alive := [(0%nat, 501); (1%nat, 502); (2%nat, 503)] |}.
Proof.
  refine (wreach_boot cfg3 (sec 100 0) [501; 502; 503] m3 [AFork 0 501; AFork 1 502; AFork 2 503] _ _ _).
  - unfold tv_ok; cbn; lia.
  - reflexivity.
  - cbn. repeat constructor; cbn; intuition congruence.
Qed.
(** Process 1 dies with status 7; the master notices *)
Example C67_ex : exists m1, mstep (Death 502 7) m3 = Done (m1, []) /\
  wreach cfg3 {| w_m := m1; w_alive := [(0%nat, 501); (2%nat, 503)] |} /\
  map p_state (m_procs (scan_clean (sec 101 0) m1)) = [Some PS_STARTED; Some PS_DEAD; Some PS_STARTED] /\
  map p_exit (m_procs (scan_clean (sec 101 0) m1)) = [0; 7; 0].
Proof.
  eexists. split; [reflexivity|]. split; [|split; reflexivity].
  exact (wreach_death cfg3 _ 1%nat 502 7 _ [] w3_reach ltac:(cbn; auto) eq_refl).
Qed.

(** ** C68: the master only signals its own children *)

Definition limits_restart (cfg : list (bool * Z * Z)) : Prop :=
  forall r c m, In (r, c, m) cfg -> r = true \/ (c <= 0 /\ m <= 0).

Record kinv (p : proc) : Prop := {
  ki_cfg : p_restart p = true \/ (p_cpu p <= 0 /\ p_mem p <= 0);
  ki_zero : p_pid p = 0 -> p_state p = None \/ p_state p = Some PS_DEAD }.

Lemma scan_one_kinv now stat count i f k p p' f' k' a :
  scan_one now stat count i f k p = Done (p', f', k', a) -> kinv p -> kinv p' /\
  forall x s, In (AKill x s) a -> x = p_pid p /\ x <> 0.
Proof.
  intros S [A B]. assert (SN : p_state p <> None) by (intros X; unfold scan_one in S; rewrite X in S; discriminate).
  destruct (scan_one_cases _ _ _ _ _ _ _ _ _ _ _ S) as (R1 & R2 & R3 & H).
  destruct H as [(H1 & H2 & w & W1 & W2 & W3 & [(_ & z & -> & Z2 & Z3 & Z4)|(_ & -> & Z2 & Z3 & Z4 & Z5 & Z6 & _)])
                |(H1 & H2 & H3 & H4 & H5 & H6 & H7 & H8)].
  - split; [|intros x s [X|[]]; discriminate]. constructor; [rewrite R1, R2, R3; auto|].
    destruct (Z_lt_le_dec 0 z) as [P|P].
    + destruct (Z3 P) as (-> & _). intros; lia.
    + destruct (Z4 P) as (_ & -> & _). auto.
  - split; [|intros x s []]. constructor; [rewrite R1, R2, R3; auto|]. rewrite Z3, H2. auto.
  - assert (NC : p_state p' = p_state p \/ (p_state p' = Some PS_CONDEMNED /\ p_pid p <> 0)).
    { destruct H8 as [H8|[H8 L]]; [auto|]. right. split; [auto|]. intros Z0.
      destruct (B Z0) as [X|X]; [contradiction|]. destruct A as [A|A]; [|lia]. tauto. }
    split.
    + constructor; [rewrite R1, R2, R3; auto|]. rewrite H2. intros Z0.
      destruct NC as [->|[_ NC]]; [auto|contradiction].
    + intros x s I. destruct (H7 _ I) as [[X Y]|[X Y]]; injection X; intros; subst; (split; [reflexivity|]); intros Z0.
      * destruct (B Z0) as [Q|Q]; rewrite Q in Y; discriminate.
      * destruct NC as [NC|[_ NC]]; [|contradiction]. rewrite NC in Y.
        destruct (B Z0) as [Q|Q]; rewrite Q in Y; discriminate.
Qed.

Lemma mreach_kinv cfg m : limits_restart cfg -> mreach cfg m -> forall p, In p (m_procs m) -> kinv p.
Proof.
  intros LR. induction 1 as [now forks T|m e m' a R IH OK ST].
  - unfold mboot. destruct (start_all now 0 forks _) as [l a] eqn:E. cbn.
    intros p I. apply In_nth_error in I. destruct I as (i & N).
    pose proof (nth_some_lt _ _ _ N) as LT. set (l0 := map _ cfg) in *.
    pose proof (start_all_length now l0 0 forks) as LL. rewrite E in LL. cbn in LL. rewrite LL in LT.
    destruct (nth_lt_some _ _ LT) as (q & NQ).
    destruct (start_all_nth now l0 0 forks i q NQ) as (r & A & _). rewrite E in A. cbn in A.
    rewrite N in A. injection A; intros ->.
    apply nth_error_In in NQ. unfold l0 in NQ. apply in_map_iff in NQ. destruct NQ as ([[c d] g] & <- & IC).
    specialize (LR _ _ _ IC). unfold process_start. destruct (0 <? r) eqn:P; constructor; cbn; auto; lia.
  - destruct e as [pid st|now|E]; cbn in ST.
    + destruct (dpq_add pid st (m_dpq m)) as [q|] eqn:D; [|discriminate]. injection ST; intros <- <-. cbn. auto.
    + injection ST; intros <- <-. unfold scan_clean.
      pose proof (clean_queue_length now (m_dpq m) (m_procs m)) as [L1 L2].
      pose proof (clean_queue_nth now (m_dpq m) (m_procs m)) as CN.
      destruct (clean_queue now (m_dpq m) (m_procs m)) as [q l]. cbn in *.
      intros p I. apply In_nth_error in I. destruct I as (i & N).
      pose proof (nth_some_lt _ _ _ N) as LT. rewrite L2 in LT. destruct (nth_lt_some _ _ LT) as (p0 & N0).
      destruct (CN i p0 N0) as (p' & N' & C). rewrite N in N'. injection N'; intros <-.
      assert (K : kinv p0) by (apply IH; eapply nth_error_In; eauto).
      destruct C as [->|(_ & st & _ & ->)]; [auto|]. destruct K as [K1 K2]. constructor; cbn; auto.
    + destruct (scan_procs E m) as [[[m1 r1] a1]|] eqn:S; [|discriminate]. injection ST; intros <- <-.
      destruct (scan_procs_split _ _ _ _ _ S) as (_ & _ & L & ass & _ & _ & F).
      intros p I. apply In_nth_error in I. destruct I as (i & N).
      pose proof (nth_some_lt _ _ _ N) as LT. rewrite L in LT. destruct (nth_lt_some _ _ LT) as (p0 & N0).
      destruct (F i p0 N0) as (p' & a' & f & f' & k & k' & N' & _ & S1 & _). rewrite N in N'. injection N'; intros <-.
      eapply scan_one_kinv; [exact S1|]. apply IH. eapply nth_error_In; eauto.
Qed.

(** If every process with a CPU or memory limit also has the restart flag, a signal only goes to the
    pid of a child of the master that runs, or has exited so recently that the clean-up has not
    seen it *)
Theorem C68_own_children_partial : forall cfg w E m' a pid sig,
  limits_restart cfg -> wreach cfg w -> mstep (Supervise E) (w_m w) = Done (m', a) -> In (AKill pid sig) a ->
  0 < pid /\ exists i p, nth_error (m_procs (w_m w)) i = Some p /\ p_pid p = pid /\
    (In (i, pid) (w_alive w) \/ In pid (pending (m_dpq (w_m w)))).
Proof.
  intros cfg w E m' a pid sig LR R S I. cbn in S.
  destruct (scan_procs E (w_m w)) as [[[m1 r1] a1]|] eqn:SP; [|discriminate]. injection S; intros <- <-.
  destruct (scan_procs_act _ _ _ _ _ _ SP I) as (i & p & p' & b & f & f' & k & k' & N & _ & IB & S1 & _).
  destruct (wreach_mreach _ _ R) as [MR _].
  pose proof (mreach_kinv _ _ LR MR p (nth_error_In _ _ N)) as K.
  destruct (scan_one_kinv _ _ _ _ _ _ _ _ _ _ _ S1 K) as [_ H]. destruct (H _ _ IB) as [-> NZ].
  pose proof (mreach_inv _ _ MR) as (_ & PI & _). pose proof (pi_pid _ (PI p (nth_error_In _ _ N))).
  split; [lia|]. exists i, p. repeat split; auto. eapply wi_pid; eauto. eapply wreach_winv; eauto.
Qed.

(** A process without the restart flag that went over its memory limit, was told to quit and did:
    its last memory figure is still above the limit, so it is condemned again with pid 0, and the
    master sends SIGQUIT and then SIGKILL to its own process group - itself and all modules. *)
Definition cfgL : list (bool * Z * Z) := [(false, 0, 5000)].
Definition mL := fst (mboot (sec 100 0) [512] cfgL).
Definition fat : menv := {| e_now := sec 101 0; e_forks := []; e_stat := fun _ => Some (0, 9000) |}.
Definition pass (s : Z) : list mevent := [Clean (sec s 0); Supervise (env s 0 [])].
Fixpoint passes (n : nat) (s : Z) : list mevent :=
  match n with O => [] | S n => pass s ++ passes n (s + 1) end.
Theorem C68_group_refuted : exists es, exists m,
  mexec es mL = Done (m, [AKill 512 SIGQUIT; AKill 0 SIGQUIT; AKill 0 SIGKILL; AKill 0 SIGQUIT]).
Proof.
  exists ([Clean (sec 101 0); Supervise fat; Death 512 0] ++ passes 128 102).
  destruct (mexec _ mL) as [[m a]|] eqn:E; [exists m|vm_compute in E; discriminate].
  f_equal. f_equal. apply (f_equal (fun r => match r with Done (_, a) => a | _ => [] end)) in E. rewrite <- E.
  vm_compute. reflexivity.
Qed.

(** A process over its limit is told to quit at its next turn (its turn comes every 64 scans), and
    killed at the turn after that *)
Theorem C68_enforced : forall E m m' r acts i p c rss,
  scan_procs E m = Done (m', r, acts) -> nth_error (m_procs m) i = Some p ->
  p_state p <> Some PS_DEAD -> 0 < p_pid p < 2147483648 -> 0 <= m_count m ->
  (m_count m + p_pid p) mod 64 = 0 -> e_stat E (p_pid p) = Some (c, rss) ->
  (0 < p_cpu p < c \/ 0 < p_mem p < rss) ->
  In (AKill (p_pid p) SIGQUIT) acts /\ (p_state p = Some PS_CONDEMNED -> In (AKill (p_pid p) SIGKILL) acts) /\
  exists p', nth_error (m_procs m') i = Some p' /\ p_state p' = Some PS_CONDEMNED.
Proof.
  intros E m m' r acts i p c rss S N ST PID CN TURN STAT OVER.
  destruct (scan_procs_at _ _ _ _ _ i p S N) as (p' & a & f & f' & k & k' & N' & S1 & _ & _ & INC & _).
  unfold scan_one in S1. destruct (p_state p) as [st|] eqn:PS; [|discriminate].
  assert (ND : (st =? PS_DEAD) = false) by (apply Z.eqb_neq; congruence).
  rewrite ND, andb_false_r in S1.
  assert (T : (u32 (m_count m + u32 (p_pid p)) mod 64 =? 0) = true).
  { unfold u32. rewrite (Z.mod_small (p_pid p)) by lia. apply Z.eqb_eq. rewrite <- TURN.
    rewrite <- Znumtheory.Zmod_div_mod; [reflexivity|lia|lia|]. exists 67108864. reflexivity. }
  rewrite T in S1. cbv zeta in S1.
  unfold get_cpu_stat in S1. replace (p_pid p =? 0) with false in S1 by lia. rewrite STAT in S1.
  set (q1 := upd_stat p c rss) in *.
  set (q2 := if (0 <? p_cpu q1) && (p_cpu q1 <? p_pcpu q1) then upd_state q1 PS_CONDEMNED else q1) in *.
  set (q3 := if (0 <? p_mem q2) && (p_mem q2 <? p_rss q2) then upd_state q2 PS_CONDEMNED else q2) in *.
  assert (Q : p_state q3 = Some PS_CONDEMNED /\ p_pid q3 = p_pid p).
  { unfold q3, q2, q1. cbn. destruct ((0 <? p_cpu p) && (p_cpu p <? c)) eqn:G1; cbn;
    destruct ((0 <? p_mem p) && (p_mem p <? rss)) eqn:G2; cbn; auto. exfalso.
    destruct OVER as [[O1 O2]|[O1 O2]]; [rewrite (proj2 (Z.ltb_lt _ _) O1), (proj2 (Z.ltb_lt _ _) O2) in G1; discriminate|].
    rewrite (proj2 (Z.ltb_lt _ _) O1), (proj2 (Z.ltb_lt _ _) O2) in G2; discriminate. }
  clearbody q3. destruct Q as [Q1 Q2]. rewrite Q1, Q2, Z.eqb_refl in S1.
  injection S1; intros A _ _ P; subst a p'. split; [apply INC; apply in_or_app; right; left; reflexivity|]. split.
  - intros C. injection C; intros ->. apply INC. apply in_or_app. left. rewrite Z.eqb_refl. left. reflexivity.
  - eauto.
Qed.
Theorem C68_turns : forall count pid, exists n, 0 <= n < 64 /\ (count + n + pid) mod 64 = 0.
Proof. intros count pid. exists ((- (count + pid)) mod 64). lia. Qed.

Definition fat3 : menv := {| e_now := sec 101 0; e_forks := []; e_stat := fun p => if p =? 512 then Some (0, 9000) else None |}.
Example C68_ex : let m := fst (mboot (sec 100 0) [501; 512; 503] cfg3) in
  limits_restart cfg3 /\ (m_count m + 512) mod 64 = 0 /\
  (exists m', mstep (Supervise fat3) m = Done (m', [AKill 512 SIGQUIT]) /\ map p_state (m_procs m') = [Some 1; Some PS_CONDEMNED; Some 1]).
Proof.
  split; [|split; [reflexivity|eexists; split; reflexivity]].
  intros r c m I. repeat (destruct I as [I|I]; [injection I; intros; subst; lia|]). destruct I.
Qed.

(** ** C69: the argument vectors *)

(** [Words s ws]: [s] is the words [ws], each non-empty and without spaces, separated by one or more
    spaces, with any number of spaces before the first and after the last *)
Definition spaces (s : list Z) : Prop := Forall (fun c => c = 32) s.
Definition word (s : list Z) : Prop := s <> [] /\ Forall (fun c => c <> 32) s.
Inductive Words : list Z -> list (list Z) -> Prop :=
| Words_nil s : spaces s -> Words s []
| Words_last sp w : spaces sp -> word w -> Words (sp ++ w) [w]
| Words_cons sp w s ws : spaces sp -> word w -> Words (32 :: s) ws -> Words (sp ++ w ++ 32 :: s) (w :: ws).

Lemma Words_space s ws : Words s ws -> Words (32 :: s) ws.
Proof.
  intros H; inversion H; subst.
  - constructor. constructor; auto.
  - change (32 :: sp ++ w) with ((32 :: sp) ++ w). constructor; auto. constructor; auto.
  - change (32 :: sp ++ w ++ 32 :: s0) with ((32 :: sp) ++ w ++ 32 :: s0). constructor; auto. constructor; auto.
Qed.
Lemma tokens_words s : forall cur, Forall (fun c => c <> 32) cur -> Words (rev cur ++ s) (tokens cur s).
Proof.
  induction s as [|c s IH]; intros cur F; cbn.
  - rewrite app_nil_r. destruct cur as [|x cur]; [constructor; constructor|].
    apply (Words_last [] (rev (x :: cur))); [constructor|]. split.
    + intros E. apply (f_equal (@length Z)) in E. rewrite rev_length in E. discriminate.
    + apply Forall_rev. exact F.
  - destruct (c =? 32) eqn:E.
    + assert (c = 32) by lia. subst c. destruct cur as [|x cur].
      * cbn. apply Words_space. apply (IH [] (Forall_nil _)).
      * apply (Words_cons [] (rev (x :: cur))); [constructor| |].
        -- split; [|apply Forall_rev; exact F]. intros X. apply (f_equal (@length Z)) in X. rewrite rev_length in X. discriminate.
        -- apply Words_space. apply (IH [] (Forall_nil _)).
    + specialize (IH (c :: cur)). cbn [rev] in IH. rewrite <- app_assoc in IH. cbn in IH.
      destruct cur; apply IH; constructor; auto; lia.
Qed.

Lemma Words_fun s ws : Words s ws -> forall ws', Words s ws' -> ws = ws'.
Proof.
  assert (T : forall s ws, Words s ws -> tokens [] s = ws).
  { assert (SP : forall sp s, spaces sp -> tokens [] (sp ++ s) = tokens [] s).
    { induction 1 as [|x sp -> _ IH]; auto. }
    assert (WD : forall w s cur, Forall (fun c => c <> 32) w -> tokens cur (w ++ s) = tokens (rev w ++ cur) s).
    { induction w as [|x w IH]; intros s0 cur F; [reflexivity|]. inversion F; subst. cbn.
      replace (x =? 32) with false by lia. rewrite IH by auto. rewrite <- app_assoc. reflexivity. }
    induction 1 as [s0 H|sp w H [W1 W2]|sp w s0 ws0 H [W1 W2] _ IH].
    - rewrite <- (app_nil_r s0). rewrite SP by auto. reflexivity.
    - rewrite SP by auto. rewrite <- (app_nil_r w) at 1. rewrite WD by auto. rewrite app_nil_r. cbn.
      destruct (rev w) eqn:E; [|rewrite <- E, rev_involutive; reflexivity].
      apply (f_equal (@length Z)) in E. rewrite rev_length in E. destruct w; [contradiction|discriminate].
    - rewrite SP by auto. rewrite WD by auto. rewrite app_nil_r. cbn in *.
      destruct (rev w) eqn:E; [|rewrite <- E, rev_involutive, IH; reflexivity].
      apply (f_equal (@length Z)) in E. rewrite rev_length in E. destruct w; [contradiction|discriminate]. }
  intros H ws' H'. rewrite <- (T _ _ H), <- (T _ _ H'). reflexivity.
Qed.

(** With an argument string, the program gets its path and the words of the string *)
Theorem C69_args_partial : forall path s, exists ws,
  exec_args (arglist_tok path (Some s)) = Done (path :: ws) /\ Words s ws /\
  forall ws', Words s ws' -> ws' = ws.
Proof.
  intros path s. exists (tokens [] s).
  pose proof (tokens_words s [] (Forall_nil _)) as W. cbn [rev app] in W. split.
  - cbn. assert (H : forall l, exec_args (map CStr l ++ [CNull]) = Done l).
    { induction l as [|x l IH]; [reflexivity|]. cbn. rewrite IH. reflexivity. }
    rewrite H. reflexivity.
  - split; [exact W|]. intros ws' W'. exact (Words_fun _ _ W' _ W).
Qed.
(** Without one (no [args] in the configuration) the vector has no terminating NULL *)
Theorem C69_no_args_refuted : forall path, exec_args (arglist_tok path None) = Undef UUninit.
Proof. reflexivity. Qed.

(** The start-up listing reads past the vectors of any process that has fewer arguments than the
    one before it: it is defined exactly when the numbers of arguments never decrease *)
Definition argc (s : list Z) : nat := S (length (tokens [] s)).
Fixpoint nondecr (n : nat) (l : list nat) : Prop :=
  match l with [] => True | m :: r => (n <= m)%nat /\ nondecr m r end.
Lemma skipn_S_app {A} n (l : list A) x : (n <= length l)%nat -> skipn n (l ++ [x]) = skipn n l ++ [x].
Proof.
  revert l; induction n as [|n IH]; intros l L; [reflexivity|]. destruct l; cbn in *; [lia|]. apply IH. lia.
Qed.
Theorem C69_listing_partial : forall cfg n,
  (exists k, print_list (map (fun c => arglist_tok (fst c) (Some (snd c))) cfg) n = Done k)
  <-> nondecr n (map (fun c : list Z * list Z => argc (snd c)) cfg).
Proof.
  induction cfg as [|[path s] cfg IH]; intros n; cbn [map print_list fst snd nondecr]; [split; eauto|].
  set (arr := arglist_tok path (Some s)).
  assert (A : arr = map CStr (path :: tokens [] s) ++ [CNull]) by reflexivity.
  assert (L : length (map CStr (path :: tokens [] s)) = argc s) by (rewrite map_length; reflexivity).
  assert (P : forall l k, print_args (map CStr l ++ [CNull]) k = Done (k + length l)%nat).
  { induction l as [|x l IHl]; intros k; cbn; [f_equal; lia|]. rewrite IHl. f_equal. lia. }
  destruct (le_gt_dec n (argc s)) as [G|G].
  - assert (PA : print_args (skipn n arr) n = Done (argc s)).
    { rewrite A, skipn_S_app by lia. rewrite skipn_map, P. f_equal. rewrite skipn_length.
      unfold argc in *. cbn [length]. lia. }
    rewrite PA. cbn [rbind]. rewrite IH. tauto.
  - assert (SK : skipn n arr = []).
    { apply skipn_all2. rewrite A, app_length, L. cbn [length]. lia. }
    rewrite SK. cbn. split; [intros [k K]; discriminate|lia].
Qed.
Definition ascii_list (s : string) : list Z := map (fun c => Z.of_nat (nat_of_ascii c)) (list_ascii_of_string s).
Theorem C69_listing_refuted :
  print_list [arglist_tok (ascii_list "server") (Some (ascii_list "-v -C x.conf")); arglist_tok (ascii_list "modbus") (Some [])] 0
  = Undef UOob.
Proof. vm_compute. reflexivity. Qed.
Example C69_ex : exec_args (arglist_tok (ascii_list "server") (Some (ascii_list " -v  -C x.conf"))) =
  Done [ascii_list "server"; ascii_list "-v"; ascii_list "-C"; ascii_list "x.conf"].
Proof. vm_compute. reflexivity. Qed.

(** ** C70: the credentials of a child *)

(** The ids an entry asks for: the number if given, else that of the named user, else that of the
    user "opendax" *)
Definition wants (name : option string) (num : option Z) (db : string -> option Z) (id : Z) : Prop :=
  match num with
  | Some n => 0 <= n /\ id = n
  | None => db (match name with Some s => s | None => "opendax"%string end) = Some id
  end.
Definition root (c : creds) : Prop := euid c = 0.

(** Started by root (or setuid root): a child whose user can be found runs as that user only *)
Theorem C70_user_partial : forall pw gr i c u,
  (forall s x, pw s = Some x -> 0 <= x) ->
  root c -> wants (i_user i) (i_uid i) pw u -> u <> 0 ->
  ruid (child_creds pw gr i c) = u /\ euid (child_creds pw gr i c) = u /\ suid (child_creds pw gr i c) = u.
Proof.
  intros pw gr i c u PW RT W NZ. unfold child_creds, set_user_group, set_uid_gid.
  assert (U : (let uid := match i_uid i with Some u => u | None => -1 end in
     if uid <? 0 then match pw (dflt (i_user i)) with Some u => u | None => uid end else uid) = u /\ 0 <= u).
  { unfold wants in W. destruct (i_uid i) as [n|].
    - destruct W as [W ->]. cbv zeta. replace (n <? 0) with false by lia. auto.
    - cbv zeta. unfold dflt. rewrite W. split; [reflexivity|]. eapply PW; eauto. }
  cbv zeta in U. destruct U as [U UP]. cbv zeta. rewrite U.
  set (g := if _ <? 0 then match gr _ with Some g => g | None => _ end else _). unfold root in RT.
  replace ((0 <=? u) && negb (u =? euid c)) with true by (rewrite RT; symmetry; apply andb_true_intro; split; lia).
  unfold k_setuid. rewrite RT, Z.eqb_refl. cbn [fst].
  destruct ((0 <=? g) && negb (g =? egid c)); [|cbn; auto].
  unfold k_setgid. cbn. destruct (u =? 0) eqn:E; [lia|]. destruct (_ || _); cbn; auto.
Qed.

(** ... but it never gets the group: root's group stays, whatever group is configured, because the
    user is changed first and an ordinary user may not change the group *)
Theorem C70_group_refuted : forall pw gr i c u,
  (forall s x, pw s = Some x -> 0 <= x) ->
  ruid c = 0 -> euid c = 0 -> suid c = 0 -> rgid c = 0 -> egid c = 0 -> sgid c = 0 ->
  wants (i_user i) (i_uid i) pw u -> u <> 0 ->
  egid (child_creds pw gr i c) = 0 /\ rgid (child_creds pw gr i c) = 0 /\ sgid (child_creds pw gr i c) = 0.
Proof.
  intros pw gr i c u PW R1 R2 R3 G1 G2 G3 W NZ. unfold child_creds, set_user_group, set_uid_gid.
  assert (U : (let uid := match i_uid i with Some u => u | None => -1 end in
     if uid <? 0 then match pw (dflt (i_user i)) with Some u => u | None => uid end else uid) = u /\ 0 <= u).
  { unfold wants in W. destruct (i_uid i) as [n|].
    - destruct W as [W ->]. cbv zeta. replace (n <? 0) with false by lia. auto.
    - cbv zeta. unfold dflt. rewrite W. split; [reflexivity|]. eapply PW; eauto. }
  cbv zeta in U. destruct U as [U UP]. cbv zeta. rewrite U.
  set (g := if _ <? 0 then match gr _ with Some g => g | None => _ end else _).
  replace ((0 <=? u) && negb (u =? euid c)) with true by (rewrite R2; symmetry; apply andb_true_intro; split; lia).
  unfold k_setuid. rewrite R2, Z.eqb_refl. cbn [fst]. rewrite G2.
  destruct ((0 <=? g) && negb (g =? 0)) eqn:G; [|cbn; auto].
  unfold k_setgid. cbn. destruct (u =? 0) eqn:E; [lia|]. rewrite G1, G3.
  apply andb_prop in G. destruct G as [_ G]. destruct (g =? 0); [discriminate|]. cbn. auto.
Qed.

(** A user that does not exist: the child keeps the master's identity *)
Theorem C70_unknown_refuted : forall pw gr i c,
  i_uid i = None -> pw (match i_user i with Some s => s | None => "opendax"%string end) = None ->
  ruid (child_creds pw gr i c) = ruid c /\ euid (child_creds pw gr i c) = euid c /\ suid (child_creds pw gr i c) = suid c.
Proof.
  intros pw gr i c N W. unfold child_creds, set_user_group, set_uid_gid. rewrite N. cbv zeta. unfold dflt. rewrite W.
  set (g := if _ <? 0 then match gr _ with Some g => g | None => _ end else _). cbn.
  destruct ((0 <=? g) && _); [|auto]. unfold k_setgid. destruct (euid c =? 0); [cbn; auto|].
  destruct (_ || _); cbn; auto.
Qed.

Definition rootc : creds := {| ruid := 0; euid := 0; suid := 0; rgid := 0; egid := 0; sgid := 0 |}.
Definition etc (s : string) : option Z := if String.eqb s "opendax" then Some 117 else None.
Definition plain : ident := {| i_user := None; i_group := None; i_uid := None; i_gid := None |}.
Example C70_ex : wants (i_user plain) (i_uid plain) etc 117 /\ wants (i_group plain) (i_gid plain) etc 117 /\
  child_creds etc etc plain rootc = {| ruid := 117; euid := 117; suid := 117; rgid := 0; egid := 0; sgid := 0 |} /\
  child_creds etc etc {| i_user := Some "webuser"%string; i_group := None; i_uid := None; i_gid := None |} rootc
  = {| ruid := 0; euid := 0; suid := 0; rgid := 117; egid := 117; sgid := 117 |}.
Proof. repeat split; reflexivity. Qed.
