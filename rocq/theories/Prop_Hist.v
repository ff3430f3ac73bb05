(** * Prop_Hist: C71 (what the historical logger records), C72 (gaps and order) *)
From Verif Require Import Base Const Hist.

(** The number held by the bytes of a value *)
Definition num (type : Z) (b : list Z) : Z :=
  let u := le_val b in
  if (type =? T_SINT) || (type =? T_CHAR) then (if u <? 128 then u else u - 256)
  else if type =? T_INT then (if u <? 32768 then u else u - 65536)
  else if type =? T_DINT then (if u <? 2147483648 then u else u - 4294967296)
  else if type =? T_LINT then (if u <? 9223372036854775808 then u else u - 18446744073709551616)
  else u.

(** The types the change rule handles, with their sizes *)
Definition covered (type size : Z) : Prop :=
  ((type = T_BYTE \/ type = T_SINT \/ type = T_CHAR) /\ size = 1) \/ (type = T_INT /\ size = 2) \/
  (type = T_DINT /\ size = 4) \/ (type = T_LINT /\ size = 8).
(** Differences of two such numbers do not overflow *)
Definition moderate (type x : Z) : Prop :=
  (type = T_DINT -> Z.abs x < 2 ^ 30) /\ (type = T_LINT -> Z.abs x < 2 ^ 62).

Definition value (size : Z) (e : hev) : list Z := slice 0 size (he_buff e).
Definition hev_ok (type size : Z) (e : hev) : Prop :=
  length (he_buff e) = 8%nat /\ bytes_ok (he_buff e) /\ moderate type (num type (value size e)).

(** ** The comparison *)
Lemma slice0 n b : slice 0 n b = firstn (Z.to_nat n) b.
Proof. unfold slice. reflexivity. Qed.
Lemma bytes_ok_firstn n b : bytes_ok b -> bytes_ok (firstn n b).
Proof.
  intros H. unfold bytes_ok in *. revert n; induction H as [|x l P _ IH]; intros [|n]; cbn; constructor; auto.
Qed.
Lemma le_val_bound b : bytes_ok b -> 0 <= le_val b < 256 ^ zlen b.
Proof.
  induction 1 as [|x l P _ IH]; [cbn; lia|]. cbn [le_val]. unfold zlen in *. cbn [length].
  rewrite Nat2Z.inj_succ, Z.pow_succ_r by lia. lia.
Qed.
Lemma firstn_whole (b : list Z) n : zlen b = n -> slice 0 n b = b.
Proof. intros <-. rewrite slice0. unfold zlen. rewrite Nat2Z.id. apply firstn_all. Qed.
Lemma rd_whole n b : zlen b = n -> rd_u n b = Done (le_val b).
Proof. intros H. unfold rd_u. rewrite firstn_whole by auto. destruct (n <=? zlen b) eqn:E; [reflexivity|lia]. Qed.
Lemma rd_prefix n b : n <= zlen b -> rd_u n b = Done (le_val (slice 0 n b)).
Proof. intros H. unfold rd_u. destruct (n <=? zlen b) eqn:E; [reflexivity|lia]. Qed.
Lemma zlen_slice0 n b : 0 <= n <= zlen b -> zlen (slice 0 n b) = n.
Proof. intros H. rewrite slice0. unfold zlen in *. rewrite firstn_length. lia. Qed.

Lemma diff_int_ok a b thr : Z.abs (a - b) < 2147483648 -> diff_int a b thr = Done (thr <=? Z.abs (a - b)).
Proof.
  intros H. unfold diff_int, fits32.
  destruct (_ && _) eqn:E; [reflexivity|]. exfalso. lia.
Qed.
Lemma diff_long_ok a b thr : Z.abs (a - b) < 9223372036854775808 -> diff_long a b thr = Done (thr <=? Z.abs (a - b)).
Proof.
  intros H. unfold diff_long, fits64.
  destruct (_ && _) eqn:E; [reflexivity|]. exfalso. lia.
Qed.

Lemma test_exact fdiff type size c b thr : covered type size -> zlen c = size -> bytes_ok c ->
  length b = 8%nat -> bytes_ok b -> moderate type (num type c) -> moderate type (num type (slice 0 size b)) ->
  test_difference fdiff c b type thr = Done (thr <=? Z.abs (num type c - num type (slice 0 size b))).
Proof.
  intros CV LC BC LB BB MC MB.
  assert (L8 : zlen b = 8) by (unfold zlen; lia).
  pose proof (le_val_bound c BC) as BV. rewrite LC in BV.
  assert (S8 : size <= 8 /\ 0 <= size) by (destruct CV as [[_ ->]|[[_ ->]|[[_ ->]|[_ ->]]]]; lia).
  assert (BV2 : 0 <= le_val (slice 0 size b) < 256 ^ size).
  { pose proof (le_val_bound (slice 0 size b)) as X. rewrite zlen_slice0 in X by lia. apply X.
    rewrite slice0. apply bytes_ok_firstn. exact BB. }
  destruct CV as [[CV ->]|[[-> ->]|[[-> ->]|[-> ->]]]].
  - destruct CV as [-> | [-> | -> ]]; unfold test_difference; cbn [Z.eqb T_BYTE T_SINT T_CHAR Pos.eqb orb];
      rewrite rd_whole by auto; cbn [rbind]; rewrite rd_prefix by lia; cbn [rbind].
    + unfold num. cbn [Z.eqb T_BYTE T_SINT T_CHAR T_INT T_DINT T_LINT Pos.eqb orb]. apply diff_int_ok. lia.
    + unfold num. cbn [Z.eqb T_BYTE T_SINT T_CHAR T_INT T_DINT T_LINT Pos.eqb orb].
      replace (s8 (le_val c)) with (if le_val c <? 128 then le_val c else le_val c - 256) by (unfold s8; rewrite Z.mod_small by lia; reflexivity).
      replace (s8 (le_val (slice 0 1 b))) with (if le_val (slice 0 1 b) <? 128 then le_val (slice 0 1 b) else le_val (slice 0 1 b) - 256) by (unfold s8; rewrite Z.mod_small by lia; reflexivity).
      apply diff_int_ok. destruct (_ <? 128); destruct (le_val (slice 0 1 b) <? 128); lia.
    + unfold num. cbn [Z.eqb T_BYTE T_SINT T_CHAR T_INT T_DINT T_LINT Pos.eqb orb].
      replace (s8 (le_val c)) with (if le_val c <? 128 then le_val c else le_val c - 256) by (unfold s8; rewrite Z.mod_small by lia; reflexivity).
      replace (s8 (le_val (slice 0 1 b))) with (if le_val (slice 0 1 b) <? 128 then le_val (slice 0 1 b) else le_val (slice 0 1 b) - 256) by (unfold s8; rewrite Z.mod_small by lia; reflexivity).
      apply diff_int_ok. destruct (_ <? 128); destruct (le_val (slice 0 1 b) <? 128); lia.
  - unfold test_difference. cbn [Z.eqb T_BYTE T_SINT T_CHAR T_INT T_UINT T_WORD Pos.eqb orb].
    rewrite rd_whole by auto. cbn [rbind]. rewrite rd_prefix by lia. cbn [rbind].
    unfold num. cbn [Z.eqb T_BYTE T_SINT T_CHAR T_INT T_DINT T_LINT Pos.eqb orb].
    replace (s16 (le_val c)) with (if le_val c <? 32768 then le_val c else le_val c - 65536) by (unfold s16; rewrite Z.mod_small by lia; reflexivity).
    replace (s16 (le_val (slice 0 2 b))) with (if le_val (slice 0 2 b) <? 32768 then le_val (slice 0 2 b) else le_val (slice 0 2 b) - 65536) by (unfold s16; rewrite Z.mod_small by lia; reflexivity).
    apply diff_int_ok. destruct (_ <? 32768); destruct (le_val (slice 0 2 b) <? 32768); lia.
  - destruct MC as [MC _]. destruct MB as [MB _]. specialize (MC eq_refl). specialize (MB eq_refl).
    unfold test_difference. cbn [Z.eqb T_BYTE T_SINT T_CHAR T_INT T_UINT T_WORD T_UDINT T_DWORD T_TIME T_DINT Pos.eqb orb].
    rewrite rd_whole by auto. cbn [rbind]. rewrite rd_prefix by lia. cbn [rbind].
    assert (N1 : s32 (le_val c) = num T_DINT c).
    { unfold num, s32. cbn [Z.eqb T_SINT T_CHAR T_INT T_DINT Pos.eqb orb]. rewrite Z.mod_small by lia. reflexivity. }
    assert (N2 : s32 (le_val (slice 0 4 b)) = num T_DINT (slice 0 4 b)).
    { unfold num, s32. cbn [Z.eqb T_SINT T_CHAR T_INT T_DINT Pos.eqb orb]. rewrite Z.mod_small by lia. reflexivity. }
    rewrite N1, N2. apply diff_int_ok. lia.
  - destruct MC as [_ MC]. destruct MB as [_ MB]. specialize (MC eq_refl). specialize (MB eq_refl).
    unfold test_difference.
    cbn [Z.eqb T_BYTE T_SINT T_CHAR T_INT T_UINT T_WORD T_UDINT T_DWORD T_TIME T_DINT T_ULINT T_LWORD T_LINT Pos.eqb orb].
    rewrite rd_whole by auto. cbn [rbind]. rewrite rd_prefix by lia. cbn [rbind].
    assert (N1 : s64 (le_val c) = num T_LINT c).
    { unfold num, s64. cbn [Z.eqb T_SINT T_CHAR T_INT T_DINT T_LINT Pos.eqb orb]. rewrite Z.mod_small by lia. reflexivity. }
    assert (N2 : s64 (le_val (slice 0 8 b)) = num T_LINT (slice 0 8 b)).
    { unfold num, s64. cbn [Z.eqb T_SINT T_CHAR T_INT T_DINT T_LINT Pos.eqb orb]. rewrite Z.mod_small by lia. reflexivity. }
    rewrite N1, N2. apply diff_long_ok. lia.
Qed.

(** ** Histories *)
Lemma hist_app fdiff a : forall b t log,
  hist fdiff (a ++ b) t log = match hist fdiff a t log with Done (t', l') => hist fdiff b t' l' | Undef u => Undef u end.
Proof.
  induction a as [|e a IH]; intros b t log; [reflexivity|]. cbn.
  destruct (event_callback _ _ _ _ _) as [[t' r]|]; auto.
Qed.

Record tag_ok (type size thr timeout : Z) (t : htag) : Prop := {
  to_trig : ht_trigger t = ON_CHANGE; to_type : ht_type t = type; to_size : ht_size t = size;
  to_thr : ht_thr t = thr; to_to : ht_timeout t = timeout;
  to_len : zlen (ht_cmp t) = size; to_bytes : bytes_ok (ht_cmp t); to_mod : moderate type (num type (ht_cmp t)) }.

Lemma value_ok type size e : covered type size -> hev_ok type size e ->
  zlen (value size e) = size /\ bytes_ok (value size e).
Proof.
  intros CV (L & B & _). unfold value. split.
  - apply zlen_slice0. unfold zlen. destruct CV as [[_ ->]|[[_ ->]|[[_ ->]|[_ ->]]]]; lia.
  - rewrite slice0. apply bytes_ok_firstn. exact B.
Qed.

Lemma change_step fdiff type size thr timeout t e : covered type size -> tag_ok type size thr timeout t -> hev_ok type size e ->
  exists t' r, event_callback fdiff (he_buff e) (he_now e) (he_now2 e) t = Done (t', r) /\
    tag_ok type size thr timeout t' /\ ht_lastts t' = he_now e /\
  ((0 < timeout /\ timeout < he_now e - ht_lastts t /\ r = [(None, he_now e - timeout); (Some (value size e), he_now e)] /\
    ht_cmp t' = value size e /\ ht_good t' = true)
   \/ (~ (0 < timeout /\ timeout < he_now e - ht_lastts t) /\ thr <= Z.abs (num type (ht_cmp t) - num type (value size e)) /\
       r = (if ht_good t then [] else [(Some (ht_lastv t), ht_lastts t)]) ++ [(Some (value size e), he_now e)] /\
       ht_cmp t' = value size e /\ ht_good t' = true)
   \/ (~ (0 < timeout /\ timeout < he_now e - ht_lastts t) /\ Z.abs (num type (ht_cmp t) - num type (value size e)) < thr /\
       r = [] /\ ht_cmp t' = ht_cmp t /\ ht_good t' = false /\ ht_lastv t' = value size e)).
Proof.
  intros CV [T1 T2 T3 T4 T5 T6 T7 T8] EO. destruct (value_ok _ _ _ CV EO) as [V1 V2]. destruct EO as (E1 & E2 & E3).
  unfold event_callback. rewrite T3, T5, T1. fold (value size e).
  destruct ((0 <? timeout) && (timeout <? he_now e - ht_lastts t)) eqn:G.
  - apply andb_prop in G. destruct G as [G1 G2]. cbn [Z.eqb ON_CHANGE ON_WRITE Pos.eqb].
    eexists; eexists. split; [reflexivity|]. split; [constructor; cbn; auto|]. split; [reflexivity|].
    left. cbn. repeat split; auto; lia.
  - assert (NG : ~ (0 < timeout /\ timeout < he_now e - ht_lastts t)) by lia.
    cbn [Z.eqb ON_CHANGE ON_WRITE Pos.eqb]. rewrite T2, T4.
    rewrite (test_exact fdiff type size) by auto. cbn [rbind]. fold (value size e).
    destruct (thr <=? _) eqn:D.
    + eexists; eexists. split; [reflexivity|]. split; [constructor; cbn; auto|]. split; [reflexivity|].
      right; left. cbn. repeat split; auto; lia.
    + eexists; eexists. split; [reflexivity|]. split; [constructor; cbn; auto|]. split; [reflexivity|].
      right; right. cbn. repeat split; auto; lia.
Qed.

Lemma hist_grow fdiff es : forall t log,
  match hist fdiff es t [] with
  | Done (t', r) => hist fdiff es t log = Done (t', log ++ r)
  | Undef u => hist fdiff es t log = Undef u
  end.
Proof.
  induction es as [|e es IH]; intros t log; cbn; [rewrite app_nil_r; reflexivity|].
  destruct (event_callback _ _ _ _ _) as [[t1 r1]|]; [|reflexivity].
  pose proof (IH t1 r1) as A. pose proof (IH t1 (log ++ r1)) as B.
  destruct (hist fdiff es t1 []) as [[t2 r2]|]; rewrite A, B; [rewrite app_assoc|]; reflexivity.
Qed.

Lemma hist_ok fdiff type size thr timeout : covered type size -> forall es t log,
  tag_ok type size thr timeout t -> Forall (hev_ok type size) es ->
  exists t' r, hist fdiff es t log = Done (t', log ++ r) /\ tag_ok type size thr timeout t'.
Proof.
  intros CV. induction es as [|e es IH]; intros t log T F; cbn.
  - exists t, []. rewrite app_nil_r. auto.
  - inversion F; subst. destruct (change_step fdiff type size thr timeout t e CV T H1) as (t1 & r1 & S & T' & _).
    rewrite S. destruct (IH t1 (log ++ r1) T' H2) as (t2 & r2 & S2 & T2). exists t2, (r1 ++ r2).
    rewrite app_assoc. auto.
Qed.

(** The state in which a change-triggered tag of a covered type starts *)
Definition begin (type size thr timeout : Z) (e0 : hev) : htag * list record :=
  start_tag ON_CHANGE type size thr timeout (he_buff e0) (he_now e0).
Lemma begin_ok type size thr timeout e0 : covered type size -> hev_ok type size e0 ->
  tag_ok type size thr timeout (fst (begin type size thr timeout e0)).
Proof.
  intros CV EO. destruct (value_ok _ _ _ CV EO) as [V1 V2]. destruct EO as (E1 & E2 & E3).
  constructor; cbn; auto.
Qed.

(** Invariant: the comparison value is the last record *)
Lemma hist_last fdiff type size thr timeout : covered type size -> 0 < thr -> forall es t log t' log',
  tag_ok type size thr timeout t -> Forall (hev_ok type size) es ->
  (exists l0 x, log = l0 ++ [(Some (ht_cmp t), x)]) ->
  hist fdiff es t log = Done (t', log') ->
  (exists l0 x, log' = l0 ++ [(Some (ht_cmp t'), x)]) /\
  (forall e, es <> [] -> e = last es e -> Z.abs (num type (ht_cmp t') - num type (value size e)) < thr).
Proof.
  intros CV TP. induction es as [|e es IH]; intros t log t' log' T F L H; cbn in H.
  - injection H; intros; subst. split; [auto|]. intros e X. contradiction.
  - inversion F; subst. destruct (change_step fdiff type size thr timeout t e CV T H2) as (t1 & r1 & S & T' & _ & C).
    rewrite S in H.
    assert (L1 : (exists l0 x, log ++ r1 = l0 ++ [(Some (ht_cmp t1), x)]) /\
                 Z.abs (num type (ht_cmp t1) - num type (value size e)) < thr).
    { destruct C as [(_ & _ & -> & -> & _)|[(_ & _ & -> & -> & _)|(_ & B & -> & -> & _)]].
      - split; [|rewrite Z.sub_diag; cbn; lia]. exists (log ++ [(None, he_now e - timeout)]), (he_now e). rewrite <- app_assoc. reflexivity.
      - split; [|rewrite Z.sub_diag; cbn; lia]. eexists; eexists. rewrite app_assoc. reflexivity.
      - split; [|exact B]. rewrite app_nil_r. exact L. }
    destruct L1 as [L1 B1]. destruct (IH t1 (log ++ r1) t' log' T' H3 L1 H) as [P1 P2]. split; [exact P1|].
    intros e0 _ E. destruct es as [|e2 es].
    + cbn in E. subst e0. cbn in H. injection H; intros; subst. exact B1.
    + apply P2; [discriminate|exact E].
Qed.

(** C71.  After every event the last record is within the threshold of the value received (whatever
    the timeout), and nothing undefined happens *)
Theorem C71_tracks_partial : forall fdiff type size thr timeout e0 es e,
  covered type size -> 0 < thr -> hev_ok type size e0 -> Forall (hev_ok type size) (es ++ [e]) ->
  exists t log v time,
    hist fdiff (es ++ [e]) (fst (begin type size thr timeout e0)) (snd (begin type size thr timeout e0))
      = Done (t, log ++ [(Some v, time)]) /\
    Z.abs (num type v - num type (value size e)) < thr.
Proof.
  intros fdiff type size thr timeout e0 es e CV TP E0 F.
  pose proof (begin_ok type size thr timeout e0 CV E0) as T.
  destruct (hist_ok fdiff type size thr timeout CV (es ++ [e]) _ (snd (begin type size thr timeout e0)) T F) as (t & r & H & _).
  assert (L0 : exists l0 x, snd (begin type size thr timeout e0) = l0 ++ [(Some (ht_cmp (fst (begin type size thr timeout e0))), x)]).
  { exists [(None, he_now e0)], (he_now e0). reflexivity. }
  destruct (hist_last fdiff type size thr timeout CV TP _ _ _ _ _ T F L0 H) as [(l0 & x & L) B].
  exists t, l0, (ht_cmp t), x. rewrite L in H. split; [exact H|]. apply B.
  - destruct es; discriminate.
  - rewrite last_last. reflexivity.
Qed.

(** [Sub a b]: [a] is [b] with some elements left out *)
Inductive Sub {A} : list A -> list A -> Prop :=
| Sub_nil : Sub [] []
| Sub_skip x a b : Sub a b -> Sub a (x :: b)
| Sub_take x a b : Sub a b -> Sub (x :: a) (x :: b).
Lemma Sub_empty {A} (b : list A) : Sub [] b.
Proof. induction b; constructor; auto. Qed.

Definition rec_of (size : Z) (e : hev) : record := (Some (value size e), he_now e).

(** Without a timeout: the records are values received, with their times, in the order received *)
Theorem C71_only_partial : forall fdiff type size thr e0 es,
  covered type size -> hev_ok type size e0 -> Forall (hev_ok type size) es ->
  exists t r, hist fdiff es (fst (begin type size thr 0 e0)) (snd (begin type size thr 0 e0))
      = Done (t, snd (begin type size thr 0 e0) ++ r) /\ Sub r (map (rec_of size) es).
Proof.
  intros fdiff type size thr e0 es CV E0 F.
  assert (G : forall es t, tag_ok type size thr 0 t -> Forall (hev_ok type size) es ->
    exists t' r, hist fdiff es t [] = Done (t', r) /\
      Sub r ((if ht_good t then [] else [(Some (ht_lastv t), ht_lastts t)]) ++ map (rec_of size) es)).
  { clear es F. induction es as [|e es IH]; intros t T F.
    - exists t, []. split; [reflexivity|apply Sub_empty].
    - inversion F; subst. destruct (change_step fdiff type size thr 0 t e CV T H1) as (t1 & r1 & S & T' & TS & C).
      destruct (IH t1 T' H2) as (t2 & r2 & H & SB). pose proof (hist_grow fdiff es t1 r1) as HG. rewrite H in HG.
      cbn. rewrite S. exists t2, (r1 ++ r2). split; [exact HG|].
      destruct C as [(C & _)|[(_ & _ & -> & C1 & C2)|(_ & _ & -> & C1 & C2 & C3)]]; [lia| |].
      + rewrite C2 in SB. cbn [app] in SB. rewrite <- app_assoc. destruct (ht_good t); cbn; repeat constructor; exact SB.
      + rewrite C2, C3, TS in SB. cbn [app] in *. change (map (rec_of size) (e :: es)) with (rec_of size e :: map (rec_of size) es).
        destruct (ht_good t); cbn [app]; [exact SB|apply Sub_skip; exact SB]. }
  destruct (G es _ (begin_ok type size thr 0 e0 CV E0) F) as (t & r & H & SB).
  exists t, r. split; [|exact SB]. pose proof (hist_grow fdiff es (fst (begin type size thr 0 e0)) (snd (begin type size thr 0 e0))) as HG.
  rewrite H in HG. exact HG.
Qed.

(** When a value is further than the threshold from the last record, it is recorded, and so is the
    value received just before it *)
Theorem C71_before_partial : forall fdiff type size thr e0 es e1 e2 t1 log v time,
  covered type size -> hev_ok type size e0 -> Forall (hev_ok type size) (es ++ [e1; e2]) ->
  hist fdiff (es ++ [e1]) (fst (begin type size thr 0 e0)) (snd (begin type size thr 0 e0)) = Done (t1, log ++ [(Some v, time)]) ->
  0 < thr <= Z.abs (num type v - num type (value size e2)) ->
  exists t2 l, hist fdiff (es ++ [e1; e2]) (fst (begin type size thr 0 e0)) (snd (begin type size thr 0 e0))
      = Done (t2, l ++ [rec_of size e1; rec_of size e2]).
Proof.
  intros fdiff type size thr e0 es e1 e2 t1 log v time CV E0 F H D.
  assert (F1 : Forall (hev_ok type size) es /\ hev_ok type size e1 /\ hev_ok type size e2).
  { apply Forall_app in F. destruct F as [F1 F2]. inversion F2; subst. inversion H3; subst. auto. }
  destruct F1 as (Fes & F1 & F2).
  pose proof (begin_ok type size thr 0 e0 CV E0) as T.
  assert (CMP : v = ht_cmp t1).
  { assert (L0 : exists l0 x, snd (begin type size thr 0 e0) = l0 ++ [(Some (ht_cmp (fst (begin type size thr 0 e0))), x)]).
    { exists [(None, he_now e0)], (he_now e0). reflexivity. }
    assert (FF : Forall (hev_ok type size) (es ++ [e1])) by (apply Forall_app; auto).
    destruct (hist_last fdiff type size thr 0 CV (proj1 D) _ _ _ _ _ T FF L0 H) as [(l0 & x & L) _].
    apply app_inj_tail in L. destruct L as [_ L]. congruence. }
  subst v.
  rewrite hist_app in H.
  destruct (hist_ok fdiff type size thr 0 CV es _ (snd (begin type size thr 0 e0)) T Fes) as (ta & ra & HA & TA).
  set (log0 := snd (begin type size thr 0 e0)) in *. rewrite HA in H. cbn in H.
  destruct (change_step fdiff type size thr 0 ta e1 CV TA F1) as (tb & rb & SB & TB & TSB & CB). rewrite SB in H.
  assert (TBE : tb = t1 /\ (log0 ++ ra) ++ rb = log ++ [(Some (ht_cmp t1), time)]) by (injection H; auto).
  clear H. destruct TBE as [-> LB].
  destruct (change_step fdiff type size thr 0 t1 e2 CV TB F2) as (tc & rc & SC & TC & TSC & CC).
  replace (es ++ [e1; e2]) with (es ++ [e1] ++ [e2]) by reflexivity. rewrite hist_app, HA. cbn. rewrite SB, SC.
  destruct CC as [(C & _)|[(_ & C1 & -> & _)|(_ & C1 & _)]]; [lia| |lia].
  destruct CB as [(C & _)|[(_ & B1 & -> & B2 & B3)|(_ & B1 & -> & B2 & B3 & B4)]]; [lia| |].
  - rewrite B3. cbn [app]. exists tc, ((log0 ++ ra) ++ (if ht_good ta then [] else [(Some (ht_lastv ta), ht_lastts ta)])).
    f_equal. f_equal. rewrite <- !app_assoc. reflexivity.
  - rewrite B3. exists tc, (log0 ++ ra). f_equal. f_equal. rewrite B4, TSB. rewrite app_nil_r. reflexivity.
Qed.

(** With the WRITE trigger every value is recorded *)
Theorem C71_write : forall fdiff type size thr e0 es,
  exists t, hist fdiff es (fst (start_tag ON_WRITE type size thr 0 (he_buff e0) (he_now e0)))
                 (snd (start_tag ON_WRITE type size thr 0 (he_buff e0) (he_now e0)))
    = Done (t, [(None, he_now e0); (Some (value size e0), he_now e0)] ++ map (fun e => (Some (value size e), he_now2 e)) es).
Proof.
  intros fdiff type size thr e0 es.
  set (s := start_tag ON_WRITE type size thr 0 (he_buff e0) (he_now e0)).
  assert (G : forall es t log, ht_trigger t = ON_WRITE -> ht_timeout t = 0 -> ht_size t = size ->
    exists t', hist fdiff es t log = Done (t', log ++ map (fun e => (Some (value size e), he_now2 e)) es)).
  { clear. induction es as [|e es IH]; intros t log T1 T2 T3; cbn; [exists t; rewrite app_nil_r; reflexivity|].
    unfold event_callback. rewrite T1, T2, T3. cbn [Z.ltb Z.compare andb Z.eqb ON_WRITE Pos.eqb].
    destruct (IH (set_ts t (he_now e)) (log ++ [(Some (slice 0 size (he_buff e)), he_now2 e)])) as (t' & H); auto.
    exists t'. rewrite H. rewrite <- app_assoc. reflexivity. }
  exact (G es (fst s) (snd s) eq_refl eq_refl eq_refl).
Qed.

(** BOOL: no change is ever recorded *)
Theorem C71_bool_refuted : forall fdiff thr e0 es,
  exists t, hist fdiff es (fst (begin T_BOOL 1 thr 0 e0)) (snd (begin T_BOOL 1 thr 0 e0))
    = Done (t, snd (begin T_BOOL 1 thr 0 e0)).
Proof.
  intros fdiff thr e0 es. generalize (snd (begin T_BOOL 1 thr 0 e0)) as log. intros log.
  assert (G : forall es t, ht_trigger t = ON_CHANGE -> ht_timeout t = 0 -> ht_type t = T_BOOL ->
    exists t', hist fdiff es t log = Done (t', log)).
  { clear. induction es as [|e es IH]; intros t T1 T2 T3; cbn; [eauto|].
    unfold event_callback. rewrite T1, T2, T3. cbn [Z.ltb Z.compare andb Z.eqb ON_WRITE ON_CHANGE Pos.eqb].
    cbn [test_difference Z.eqb Pos.eqb T_BOOL T_BYTE T_SINT T_CHAR T_UINT T_WORD T_INT T_UDINT T_DWORD T_TIME T_DINT
         T_ULINT T_LWORD T_LINT T_REAL T_LREAL orb rbind]. rewrite app_nil_r. apply IH; auto. }
  apply G; reflexivity.
Qed.
(** UINT and WORD: the first event reads past the stored value *)
Theorem C71_uint_refuted : forall fdiff type thr e0 e es, type = T_UINT \/ type = T_WORD ->
  length (he_buff e0) = 8%nat ->
  hist fdiff (e :: es) (fst (begin type 2 thr 0 e0)) (snd (begin type 2 thr 0 e0)) = Undef UOob.
Proof.
  intros fdiff type thr e0 e es C L.
  assert (Z2 : zlen (slice 0 2 (he_buff e0)) = 2) by (apply zlen_slice0; unfold zlen; lia).
  assert (R : rd_u 4 (slice 0 2 (he_buff e0)) = Undef UOob) by (unfold rd_u; rewrite Z2; reflexivity).
  assert (D : test_difference fdiff (slice 0 2 (he_buff e0)) (he_buff e) type thr = Undef UOob).
  { unfold test_difference. destruct C as [-> | ->]; cbn [Z.eqb Pos.eqb T_BYTE T_SINT T_CHAR T_UINT T_WORD orb]; rewrite R; reflexivity. }
  unfold begin. cbn [hist]. unfold event_callback. cbn [ht_timeout start_tag fst ht_trigger ht_type ht_cmp ht_thr].
  cbn [Z.ltb Z.compare andb Z.eqb ON_WRITE ON_CHANGE Pos.eqb]. rewrite D. reflexivity.
Qed.

Definition ev (v : Z) (t : Z) : hev := {| he_buff := le_bytes 8 v; he_now := t; he_now2 := t |}.
Definition nofloat : Z -> list Z -> list Z -> Z -> bool := fun _ _ _ _ => false.
Definition logged (type size thr timeout v0 : Z) (es : list hev) : run (list record) :=
  match hist nofloat es (fst (begin type size thr timeout (ev v0 1000))) (snd (begin type size thr timeout (ev v0 1000))) with
  | Done (_, l) => Done l
  | Undef u => Undef u
  end.
Definition shown (type : Z) (r : run (list record)) : run (list (option Z * Z)) :=
  match r with
  | Done l => Done (map (fun r => (match fst r with Some b => Some (num type b) | None => None end, snd r)) l)
  | Undef u => Undef u
  end.
(** UDINT: a rise by almost 2^32 is missed, a rise by one is recorded (threshold 10) *)
Theorem C71_udint_refuted :
  shown T_UDINT (logged T_UDINT 4 10 0 0 [ev 4294967291 1001]) = Done [(None, 1000); (Some 0, 1000)] /\
  shown T_UDINT (logged T_UDINT 4 10 0 0 [ev 1 1001]) = Done [(None, 1000); (Some 0, 1000); (Some 1, 1001)].
Proof. split; vm_compute; reflexivity. Qed.
(** TIME: only 32 of 64 bits are compared *)
Theorem C71_time_refuted :
  shown T_TIME (logged T_TIME 8 10 0 0 [ev 4294967296 1001]) = Done [(None, 1000); (Some 0, 1000)].
Proof. vm_compute. reflexivity. Qed.
(** DINT: the difference overflows *)
Theorem C71_overflow_refuted : logged T_DINT 4 10 0 (-2147483648) [ev 1 1001] = Undef UOverflow.
Proof. vm_compute. reflexivity. Qed.

(** INT with threshold 10: 100, then 103, 105 (kept back), 120 (recorded, with 105 before it), 135 *)
Example C71_ex : shown T_INT (logged T_INT 2 10 0 100 [ev 103 1001; ev 105 1002; ev 120 1003; ev (-5) 1004])
  = Done [(None, 1000); (Some 100, 1000); (Some 105, 1002); (Some 120, 1003); (Some (-5), 1004)].
Proof. vm_compute. reflexivity. Qed.
Example C71_hyp_ex : covered T_INT 2 /\ Forall (hev_ok T_INT 2) [ev 103 1001; ev 105 1002; ev 120 1003; ev (-5) 1004].
Proof.
  split; [right; left; split; reflexivity|].
  repeat constructor; try (vm_compute; congruence); unfold moderate; try discriminate; cbn; try lia.
Qed.

(** ** C72: gaps and order *)

(** An event later than the timeout after the previous one: NULL is recorded a timeout before it,
    after the previous event, then the value *)
Theorem C72_gap : forall fdiff type size thr timeout e0 es e1 e2 t1 log,
  covered type size -> hev_ok type size e0 -> Forall (hev_ok type size) (es ++ [e1; e2]) ->
  0 < timeout -> timeout < he_now e2 - he_now e1 ->
  hist fdiff (es ++ [e1]) (fst (begin type size thr timeout e0)) (snd (begin type size thr timeout e0)) = Done (t1, log) ->
  exists t2, hist fdiff (es ++ [e1; e2]) (fst (begin type size thr timeout e0)) (snd (begin type size thr timeout e0))
    = Done (t2, log ++ [(None, he_now e2 - timeout); rec_of size e2]) /\ he_now e1 < he_now e2 - timeout.
Proof.
  intros fdiff type size thr timeout e0 es e1 e2 t1 log CV E0 F TP GP H.
  assert (F1 : Forall (hev_ok type size) es /\ hev_ok type size e1 /\ hev_ok type size e2).
  { apply Forall_app in F. destruct F as [F1 F2]. inversion F2; subst. inversion H3; subst. auto. }
  destruct F1 as (Fes & F1 & F2).
  pose proof (begin_ok type size thr timeout e0 CV E0) as T. rewrite hist_app in H.
  destruct (hist_ok fdiff type size thr timeout CV es _ (snd (begin type size thr timeout e0)) T Fes) as (ta & ra & HA & TA).
  rewrite HA in H. cbn in H.
  destruct (change_step fdiff type size thr timeout ta e1 CV TA F1) as (tb & rb & SB & TB & TSB & CB). rewrite SB in H.
  injection H; intros; subst t1 log. clear H.
  destruct (change_step fdiff type size thr timeout tb e2 CV TB F2) as (tc & rc & SC & TC & TSC & CC).
  replace (es ++ [e1; e2]) with (es ++ [e1] ++ [e2]) by reflexivity. rewrite hist_app, HA. cbn. rewrite SB, SC.
  rewrite TSB in CC. destruct CC as [(_ & _ & -> & _)|[(C & _)|(C & _)]]; [|tauto|tauto].
  exists tc. split; [|lia]. reflexivity.
Qed.

(** No other NULL: as long as no two events are further apart than the timeout, none is recorded
    after the first event *)
Fixpoint close (timeout x : Z) (l : list Z) : Prop :=
  match l with [] => True | y :: r => y - x <= timeout /\ close timeout y r end.
Theorem C72_no_gap : forall fdiff type size thr timeout e0 e1 es,
  covered type size -> hev_ok type size e0 -> Forall (hev_ok type size) (e1 :: es) ->
  close timeout (he_now e1) (map he_now es) ->
  exists t1 l1 t2 r, hist fdiff [e1] (fst (begin type size thr timeout e0)) (snd (begin type size thr timeout e0)) = Done (t1, l1) /\
    hist fdiff (e1 :: es) (fst (begin type size thr timeout e0)) (snd (begin type size thr timeout e0)) = Done (t2, l1 ++ r) /\
    Forall (fun x => fst x <> None) r.
Proof.
  intros fdiff type size thr timeout e0 e1 es CV E0 F RS. inversion F; subst.
  pose proof (begin_ok type size thr timeout e0 CV E0) as T.
  destruct (change_step fdiff type size thr timeout _ e1 CV T H1) as (t1 & r1 & S & T1 & TS & _).
  assert (G : forall es t, tag_ok type size thr timeout t -> Forall (hev_ok type size) es -> close timeout (ht_lastts t) (map he_now es) ->
    exists t' r, hist fdiff es t [] = Done (t', r) /\ Forall (fun x => fst x <> None) r).
  { clear - CV. induction es as [|e es IH]; intros t T F R; cbn in *; [exists t, []; cbn; auto|].
    inversion F; subst. destruct R as [R1 R2].
    destruct (change_step fdiff type size thr timeout t e CV T H1) as (t1 & r1 & S & T' & TS & C).
    rewrite S. rewrite <- TS in R2. destruct (IH t1 T' H2 R2) as (t2 & r2 & H & RR).
    pose proof (hist_grow fdiff es t1 r1) as HG. rewrite H in HG. exists t2, (r1 ++ r2). split; [exact HG|].
    apply Forall_app. split; [|exact RR].
    destruct C as [(C1 & C2 & -> & _)|[(_ & _ & -> & _)|(_ & _ & -> & _)]]; [lia| |constructor].
    destruct (ht_good t); cbn; repeat constructor; cbn; discriminate. }
  rewrite <- TS in RS. destruct (G es t1 T1 H2 RS) as (t2 & r & H & RR).
  pose proof (hist_grow fdiff es t1 (snd (begin type size thr timeout e0) ++ r1)) as HG. rewrite H in HG.
  exists t1, (snd (begin type size thr timeout e0) ++ r1), t2, r. cbn [hist]. rewrite S. split; [reflexivity|].
  split; [exact HG|exact RR].
Qed.

(** Times of the records do not go back, from the first event on *)
Fixpoint rising (x : Z) (l : list Z) : Prop :=
  match l with [] => True | y :: r => x <= y /\ rising y r end.
Lemma rising_app x a b m : rising x a -> (forall y, In y (x :: a) -> y <= m) -> rising m b -> rising x (a ++ b).
Proof.
  revert x; induction a as [|y a IH]; intros x R M B; cbn in *.
  - destruct b as [|z b]; cbn in *; [exact Logic.I|]. destruct B as [B1 B2]. split; [|exact B2]. specialize (M x (or_introl eq_refl)). lia.
  - destruct R as [R1 R2]. split; [auto|]. apply IH; auto.
Qed.
Theorem C72_order_partial : forall fdiff type size thr timeout e0 e1 es,
  covered type size -> hev_ok type size e0 -> Forall (hev_ok type size) (e1 :: es) ->
  rising (he_now e1) (map he_now es) ->
  exists t1 l1 t2 r, hist fdiff [e1] (fst (begin type size thr timeout e0)) (snd (begin type size thr timeout e0)) = Done (t1, l1) /\
    hist fdiff (e1 :: es) (fst (begin type size thr timeout e0)) (snd (begin type size thr timeout e0)) = Done (t2, l1 ++ r) /\
    rising (he_now e1) (map snd r).
Proof.
  intros fdiff type size thr timeout e0 e1 es CV E0 F RS. inversion F; subst.
  pose proof (begin_ok type size thr timeout e0 CV E0) as T.
  destruct (change_step fdiff type size thr timeout _ e1 CV T H1) as (t1 & r1 & S & T1 & TS & _).
  assert (G : forall es t, tag_ok type size thr timeout t -> Forall (hev_ok type size) es -> rising (ht_lastts t) (map he_now es) ->
    exists t' r, hist fdiff es t [] = Done (t', r) /\ rising (ht_lastts t) (map snd r)).
  { clear - CV. induction es as [|e es IH]; intros t T F R; cbn in *; [exists t, []; cbn; auto|].
    inversion F; subst. destruct R as [R1 R2].
    destruct (change_step fdiff type size thr timeout t e CV T H1) as (t1 & r1 & S & T' & TS & C).
    rewrite S. rewrite <- TS in R2. destruct (IH t1 T' H2 R2) as (t2 & r2 & H & RR).
    pose proof (hist_grow fdiff es t1 r1) as HG. rewrite H in HG. exists t2, (r1 ++ r2). split; [exact HG|].
    rewrite map_app. apply rising_app with (m := he_now e); [| |rewrite <- TS; exact RR].
    - destruct C as [(C1 & C2 & -> & _)|[(_ & _ & -> & _)|(_ & _ & -> & _)]]; cbn; [lia| |auto].
      destruct (ht_good t); cbn; lia.
    - intros y Y. destruct C as [(C1 & C2 & -> & _)|[(_ & _ & -> & _)|(_ & _ & -> & _)]]; cbn in Y.
      + lia.
      + destruct (ht_good t); cbn in Y; lia.
      + lia. }
  rewrite <- TS in RS. destruct (G es t1 T1 H2 RS) as (t2 & r & H & RR).
  pose proof (hist_grow fdiff es t1 (snd (begin type size thr timeout e0) ++ r1)) as HG. rewrite H in HG.
  exists t1, (snd (begin type size thr timeout e0) ++ r1), t2, r. cbn [hist]. rewrite S. split; [reflexivity|].
  split; [exact HG|]. rewrite <- TS. exact RR.
Qed.

(** The first event after the start: the time of the previous one is 0, so a NULL is recorded,
    before the records of the start *)
Theorem C72_first_refuted :
  shown T_INT (logged T_INT 2 10 60 100 [ev 100 1001]) = Done [(None, 1000); (Some 100, 1000); (None, 941); (Some 100, 1001)].
Proof. vm_compute. reflexivity. Qed.
(** The value kept back before a gap is lost: 105 was the value from 1002 on *)
Theorem C72_lost_refuted :
  shown T_INT (logged T_INT 2 10 60 100 [ev 100 1001; ev 105 1002; ev 105 1100]) =
  Done [(None, 1000); (Some 100, 1000); (None, 941); (Some 100, 1001); (None, 1040); (Some 105, 1100)].
Proof. vm_compute. reflexivity. Qed.
Example C72_ex : rising 1001 (map he_now [ev 105 1002; ev 105 1100]) /\ 60 < he_now (ev 105 1100) - he_now (ev 105 1002) /\
  Forall (hev_ok T_INT 2) [ev 100 1001; ev 105 1002; ev 105 1100].
Proof.
  split; [cbn; lia|]. split; [cbn; lia|].
  repeat constructor; try (vm_compute; congruence); unfold moderate; try discriminate; cbn; try lia.
Qed.
