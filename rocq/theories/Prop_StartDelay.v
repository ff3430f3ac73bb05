(** * C174: the configured delay passes before the next process is started *)
From Verif Require Import Base Const Lib StartDelay.

(** What a signal can leave: a valid time, not longer than the one asked for *)
Fixpoint sane (t : Z) (outs : list sleep) : Prop :=
  match outs with
  | [] => True
  | Whole :: _ => True
  | Signal l :: r => ts_valid l = true /\ ns l <= t /\ sane (ns l) r
  end.
(** The sleep comes to an end *)
Definition ends (outs : list sleep) : Prop := In Whole outs.

Lemma nap_ok outs : forall errno t, errno <> 22 -> ts_valid t = true -> sane (ns t) outs -> ends outs ->
  exists e, nap errno t outs = Done (ns t, e).
Proof.
  induction outs as [|o r IH]; intros errno t E V S W; [destruct W|]. cbn [nap]. rewrite V. cbn [negb].
  destruct o as [|l].
  - replace (errno =? EINVAL) with false by (unfold EINVAL; lia). cbn [Z.eqb]. eauto.
  - destruct S as (VL & _ & S). destruct W as [W|W]; [discriminate|]. cbn [EINTR EINVAL Z.eqb Pos.eqb].
    destruct (IH EINTR l ltac:(unfold EINTR; lia) VL S W) as (e & ->). cbn [rbind fst snd].
    exists e. f_equal. f_equal. lia.
Qed.
Lemma asked_valid delay : 0 < delay ->
  ts_valid (mkTs (Z.quot delay 1000) (Z.rem delay 1000 * 1000000)) = true /\
  ns (mkTs (Z.quot delay 1000) (Z.rem delay 1000 * 1000000)) = delay * 1000000.
Proof.
  intros H. unfold ts_valid, ns. cbn [ts_sec ts_nsec].
  assert (Q := Z.quot_rem' delay 1000). assert (R := Z.rem_bound_pos delay 1000 ltac:(lia) ltac:(lia)).
  assert (P := Z.quot_pos delay 1000 ltac:(lia) ltac:(lia)).
  split; [|lia]. apply andb_true_iff. split; [apply andb_true_iff; split|]; apply Z.leb_le; lia.
Qed.

(** The time at which each process is due: the sum of the delays before it *)
Fixpoint due (now : Z) (delays : list Z) : list Z :=
  match delays with [] => [] | d :: r => now :: due (now + Z.max 0 d * 1000000) r end.

(** However many signals interrupt the sleeps, and if errno happens not to be EINVAL, each process
    starts exactly the delays of the processes before it after the first *)
Theorem C174_due_partial : forall l now,
  (forall errno delay outs, In (errno, delay, outs) l -> errno <> 22 /\ sane (Z.max 0 delay * 1000000) outs /\ ends outs) ->
  exists e, start_times now l = Done (due now (map (fun x => snd (fst x)) l), e).
Proof.
  induction l as [|[[errno delay] outs] r IH]; intros now H; [exists now; reflexivity|].
  cbn [start_times map fst snd due]. destruct (H errno delay outs (or_introl eq_refl)) as (E & S & W).
  assert (P : pause errno delay outs = Done (Z.max 0 delay * 1000000)).
  { unfold pause. destruct (Z.ltb_spec 0 delay) as [L|L].
    - destruct (asked_valid delay L) as (V & N). rewrite Z.max_r in S |- * by lia. rewrite <- N in S.
      destruct (nap_ok outs errno _ E V S W) as (e & ->). cbn [rbind fst]. rewrite N. reflexivity.
    - rewrite Z.max_l by lia. reflexivity. }
  rewrite P. cbn [rbind]. destruct (IH (now + Z.max 0 delay * 1000000)) as (e & ->).
  { intros a b c I. apply H. right. exact I. }
  cbn [rbind fst snd]. eauto.
Qed.

(** errno is looked at although nanosleep did not fail: a value left by an earlier call stops the master *)
Theorem C174_errno_refuted : forall now delay outs r, 0 < delay ->
  start_times now ((22, delay, Whole :: outs) :: r) = Undef UAbort.
Proof.
  intros * H. cbn [start_times]. unfold pause. replace (0 <? delay) with true by lia. cbn [nap].
  rewrite (proj1 (asked_valid delay H)). reflexivity.
Qed.

(** A signal overwrites the stale value: an interrupted sleep is exact whatever errno was *)
Theorem C174_signal : forall errno delay l outs, 0 < delay ->
  sane (delay * 1000000) (Signal l :: outs) -> ends outs -> pause errno delay (Signal l :: outs) = Done (delay * 1000000).
Proof.
  intros * H (VL & _ & S) W. destruct (asked_valid delay H) as (V & N). unfold pause.
  replace (0 <? delay) with true by lia. cbn [nap]. rewrite V. cbn [negb EINTR EINVAL Z.eqb Pos.eqb].
  destruct (nap_ok outs 4 l ltac:(lia) VL S W) as (e & E). change EINTR with 4. rewrite E. cbn [rbind fst snd]. rewrite N. f_equal. lia.
Qed.

Example C174_ex :
  let sig s n := Signal (mkTs s n) in
  start_times 5 [(0, 1500, [sig 1 250000000; sig 0 1; Whole]); (4, 0, [Whole]); (0, -3, [Whole]); (2, 20, [Whole]); (0, 0, [Whole])]
    = Done ([5; 1500000005; 1500000005; 1500000005; 1520000005], 1520000005).
Proof. vm_compute. reflexivity. Qed.
