(** * MasterProofs: lemmas about the supervisor *)
From Verif Require Import Base Master.

(** ** Time *)
Definition us (t : tv) : Z := t_sec t * 1000000 + t_usec t.
Definition tv_ok (t : tv) : Prop := 0 <= t_usec t < 1000000.

Lemma quot_bounds a : Z.abs (1000 * Z.quot a 1000 - a) < 1000.
Proof.
  pose proof (Z.quot_rem' a 1000). pose proof (Z.rem_bound_abs a 1000 ltac:(lia)).
  rewrite (Z.abs_eq 1000) in * by lia. lia.
Qed.
Lemma difftimeval_us a b : Z.abs (1000 * difftimeval a b - (us b - us a)) < 1000.
Proof. unfold difftimeval, us. pose proof (quot_bounds (t_usec b - t_usec a)). lia. Qed.

Lemma s32_id x : -2147483648 <= x < 2147483648 -> s32 x = x.
Proof. intros H. unfold s32. destruct (_ <? _) eqn:E; lia. Qed.

(** ** The pass over the list, process by process *)
Lemma scan_one_mono now stat count i f r p p' f' r' a :
  r <= 60000 -> scan_one now stat count i f r p = Done (p', f', r', a) -> r' <= r.
Proof.
  intros L H. unfold scan_one in H. destruct (p_state p); [|discriminate].
  destruct (_ && _).
  - cbv zeta in H. destruct (_ <? s32 _) eqn:E; [injection H; intros; lia|].
    set (q := if _ <? difftimeval _ _ then _ else _) in *.
    destruct (_ <? r) eqn:E2; [|injection H; intros; lia].
    assert (R : r' = s32 (p_rdelay q - s32 (difftimeval (p_dead q) now))) by (injection H; auto).
    rewrite R. rewrite s32_id; lia.
  - destruct (_ =? 0); injection H; intros; lia.
Qed.

Lemma scan_list_split now stat count l : forall i0 forks rs l' rs' acts, rs <= 60000 ->
  scan_list now stat count i0 forks rs l = Done (l', rs', acts) ->
  exists ass : list (list act), acts = concat ass /\ length ass = length l /\ length l' = length l /\
  rs' <= rs /\
  forall i p, nth_error l i = Some p ->
    exists p' a f f' r r', nth_error l' i = Some p' /\ nth_error ass i = Some a /\
      scan_one now stat count (i0 + i) f r p = Done (p', f', r', a) /\ r <= 60000 /\ rs' <= r'.
Proof.
  induction l as [|p l IH]; intros i0 forks rs l' rs' acts L H; cbn [scan_list] in H.
  - injection H; intros; subst. exists []. cbn. repeat split; try lia. intros [|i] p N; discriminate.
  - destruct (scan_one now stat count i0 forks rs p) as [[[[p1 f1] r1] a1]|] eqn:E1; [|discriminate].
    pose proof (scan_one_mono _ _ _ _ _ _ _ _ _ _ _ L E1) as M1.
    destruct (scan_list now stat count (S i0) f1 r1 l) as [[[l2 r2] a2]|] eqn:E2; [|discriminate].
    injection H; intros; subst acts rs' l'; clear H.
    assert (L1 : r1 <= 60000) by lia.
    destruct (IH _ _ _ _ _ _ L1 E2) as (ass & A1 & A2 & A3 & A4 & A5).
    exists (a1 :: ass). cbn. subst a2. repeat split; try lia.
    intros [|i] q N; cbn in N.
    + injection N; intros; subst q. exists p1, a1, forks, f1, rs, r1. cbn.
      rewrite Nat.add_0_r. repeat split; auto; lia.
    + destruct (A5 i q N) as (p' & a & f & f' & r & r' & B1 & B2 & B3 & B4 & B5).
      exists p', a, f, f', r, r'. cbn. replace (i0 + S i)%nat with (S i0 + i)%nat by lia. auto.
Qed.

Lemma In_concat_nth {A} (x : A) ls : In x (concat ls) <-> exists i l, nth_error ls i = Some l /\ In x l.
Proof.
  rewrite in_concat. split.
  - intros (l & L & X). apply In_nth_error in L. destruct L as (i & N). eauto.
  - intros (i & l & N & X). apply nth_error_In in N. eauto.
Qed.

(** What one process can go through in a pass *)
Lemma scan_one_cases now stat count i f r p p' f' r' a :
  scan_one now stat count i f r p = Done (p', f', r', a) ->
  p_restart p' = p_restart p /\ p_cpu p' = p_cpu p /\ p_mem p' = p_mem p /\
  ( (* restarted *)
    (p_restart p = true /\ p_state p = Some PS_DEAD /\
     exists w, (w = 0 \/ w = p_rdelay p) /\
       (60000 < difftimeval (p_start p) (p_dead p) -> w = 0) /\
       (difftimeval (p_start p) (p_dead p) <= 60000 -> w = p_rdelay p) /\
     ((w < s32 (difftimeval (p_dead p) now) /\
       exists k, a = [AFork i k] /\ p_rdelay p' = Z.min 60000 (if w =? 0 then 100 else 2 * w) /\
         (0 < k -> p_pid p' = k /\ p_state p' = Some PS_STARTED /\ p_start p' = now /\ p_exit p' = 0
                   /\ p_dead p' = p_dead p) /\
         (k <= 0 -> p_pid p' = p_pid p /\ p_state p' = Some PS_DEAD /\ p_start p' = p_start p
                   /\ p_dead p' = p_dead p /\ p_exit p' = p_exit p))
      \/
      (s32 (difftimeval (p_dead p) now) <= w /\ a = [] /\ p_pid p' = p_pid p /\ p_state p' = p_state p /\
       p_rdelay p' = w /\ p_start p' = p_start p /\ p_dead p' = p_dead p /\ p_exit p' = p_exit p /\
       (r <= 60000 -> r' <= w - s32 (difftimeval (p_dead p) now)))))
    \/
    (* looked at *)
    (~ (p_restart p = true /\ p_state p = Some PS_DEAD) /\
     p_pid p' = p_pid p /\ p_rdelay p' = p_rdelay p /\ p_start p' = p_start p /\ p_dead p' = p_dead p /\
     p_exit p' = p_exit p /\
     (forall x, In x a -> (x = AKill (p_pid p) SIGKILL /\ p_state p = Some PS_CONDEMNED) \/
                          (x = AKill (p_pid p) SIGQUIT /\ p_state p' = Some PS_CONDEMNED)) /\
     (p_state p' = p_state p \/
      (p_state p' = Some PS_CONDEMNED /\ (0 < p_cpu p \/ 0 < p_mem p))))).
Proof.
  intros H. unfold scan_one in H. destruct (p_state p) as [st|] eqn:ST; [|discriminate].
  destruct (p_restart p && (st =? PS_DEAD)) eqn:C.
  - apply andb_prop in C. destruct C as [C1 C2]. apply Z.eqb_eq in C2. subst st. cbv zeta in H.
    set (d := difftimeval (p_start p) (p_dead p)) in *.
    set (q := if 60000 <? d then upd_rdelay p 0 else p) in *.
    assert (Q : p_dead q = p_dead p /\ p_restart q = p_restart p /\ p_cpu q = p_cpu p /\ p_mem q = p_mem p /\
      p_pid q = p_pid p /\ p_state q = p_state p /\ p_start q = p_start p /\ p_exit q = p_exit p /\
      (p_rdelay q = 0 \/ p_rdelay q = p_rdelay p) /\ (60000 < d -> p_rdelay q = 0) /\ (d <= 60000 -> p_rdelay q = p_rdelay p)).
    { unfold q. destruct (60000 <? d) eqn:D; cbn; repeat split; auto; lia. }
    destruct Q as (Q1 & Q2 & Q3 & Q4 & Q5 & Q6 & Q7 & Q8 & Q9 & Q10 & Q11). clearbody q.
    rewrite Q1 in H.
    destruct (p_rdelay q <? s32 (difftimeval (p_dead p) now)) eqn:E.
    + injection H; intros; subst a r' f' p'; clear H.
      assert (R : let z := process_restart now (hd (-1) f) q in
         p_restart z = p_restart q /\ p_cpu z = p_cpu q /\ p_mem z = p_mem q /\
         p_rdelay z = Z.min 60000 (if p_rdelay q =? 0 then 100 else 2 * p_rdelay q) /\
         (0 < hd (-1) f -> p_pid z = hd (-1) f /\ p_state z = Some PS_STARTED /\ p_start z = now /\ p_exit z = 0
            /\ p_dead z = p_dead q) /\
         (hd (-1) f <= 0 -> p_pid z = p_pid q /\ p_state z = p_state q /\ p_start z = p_start q
            /\ p_dead z = p_dead q /\ p_exit z = p_exit q)).
      { unfold process_restart, process_start. generalize (hd (-1) f); intros k.
        destruct (0 <? k) eqn:K; cbv zeta.
        - destruct (60000 <? _) eqn:G; cbn -[Z.mul Z.min Z.ltb] in *; destruct (p_rdelay q =? 0); repeat (split || intro); auto; try lia; try (exfalso; lia).
        - destruct (60000 <? _) eqn:G; cbn -[Z.mul Z.min Z.ltb] in *; destruct (p_rdelay q =? 0); repeat (split || intro); auto; try lia; try (exfalso; lia). }
      cbv zeta in R. destruct R as (R1 & R2 & R3 & R4 & R5 & R6).
      rewrite R1, R2, R3. repeat split; auto. left. repeat split; auto.
      exists (p_rdelay q). repeat split; auto. left. split; [lia|].
      exists (hd (-1) f). split; [reflexivity|]. split; [assumption|]. split.
      * intros K. destruct (R5 K) as (a1 & a2 & a3 & a4 & a5). rewrite a5. auto.
      * intros K. destruct (R6 K) as (a1 & a2 & a3 & a4 & a5). rewrite a1, a2, a3, a4, a5, Q6, ST. auto.
    + assert (P' : p' = q /\ a = [] /\
        r' = (if p_rdelay q - s32 (difftimeval (p_dead p) now) <? r
              then s32 (p_rdelay q - s32 (difftimeval (p_dead p) now)) else r)) by (injection H; auto).
      clear H. destruct P' as (-> & -> & ->). repeat split; auto. left. repeat split; auto.
      exists (p_rdelay q). repeat split; auto. right. repeat split; auto; try lia; try congruence.
      intros L. destruct (_ <? r) eqn:G; [rewrite s32_id; lia|lia].
  - assert (NR : ~ (p_restart p = true /\ Some st = Some PS_DEAD)).
    { intros [X Y]. injection Y; intros ->. rewrite X in C. discriminate. }
    destruct (_ =? 0) in H; cycle 1.
    { injection H; intros; subst. repeat split; auto. right. split; [exact NR|]. repeat split; auto.
      intros x []. }
    cbv zeta in H.
    set (q1 := get_cpu_stat stat p) in *.
    set (q2 := if (0 <? p_cpu q1) && (p_cpu q1 <? p_pcpu q1) then upd_state q1 PS_CONDEMNED else q1) in *.
    set (q3 := if (0 <? p_mem q2) && (p_mem q2 <? p_rss q2) then upd_state q2 PS_CONDEMNED else q2) in *.
    assert (Q1 : p_restart q1 = p_restart p /\ p_cpu q1 = p_cpu p /\ p_mem q1 = p_mem p /\ p_pid q1 = p_pid p /\
       p_rdelay q1 = p_rdelay p /\ p_start q1 = p_start p /\ p_dead q1 = p_dead p /\ p_exit q1 = p_exit p /\ p_state q1 = p_state p).
    { unfold q1, get_cpu_stat. destruct (_ =? 0); [auto 10|]. destruct (stat _) as [[? ?]|]; cbn; auto 10. }
    clearbody q1.
    assert (Q2 : p_restart q2 = p_restart q1 /\ p_cpu q2 = p_cpu q1 /\ p_mem q2 = p_mem q1 /\ p_pid q2 = p_pid q1 /\
       p_rdelay q2 = p_rdelay q1 /\ p_start q2 = p_start q1 /\ p_dead q2 = p_dead q1 /\ p_exit q2 = p_exit q1 /\
       (p_state q2 = p_state q1 \/ (p_state q2 = Some PS_CONDEMNED /\ (0 < p_cpu q1 \/ 0 < p_mem q1)))).
    { unfold q2. destruct ((0 <? p_cpu q1) && _) eqn:G; [|auto 10].
      apply andb_prop in G. destruct G. cbn. repeat split; auto. right. split; auto. left. lia. }
    clearbody q2.
    assert (Q3 : p_restart q3 = p_restart q2 /\ p_cpu q3 = p_cpu q2 /\ p_mem q3 = p_mem q2 /\ p_pid q3 = p_pid q2 /\
       p_rdelay q3 = p_rdelay q2 /\ p_start q3 = p_start q2 /\ p_dead q3 = p_dead q2 /\ p_exit q3 = p_exit q2 /\
       (p_state q3 = p_state q2 \/ (p_state q3 = Some PS_CONDEMNED /\ (0 < p_cpu q2 \/ 0 < p_mem q2)))).
    { unfold q3. destruct ((0 <? p_mem q2) && _) eqn:G; [|auto 10].
      apply andb_prop in G. destruct G. cbn. repeat split; auto. right. split; auto. right. lia. }
    clearbody q3.
    destruct Q1 as (A1 & A2 & A3 & A4 & A5 & A6 & A7 & A8 & A9).
    destruct Q2 as (B1 & B2 & B3 & B4 & B5 & B6 & B7 & B8 & B9).
    destruct Q3 as (C1 & C2 & C3 & C4 & C5 & C6 & C7 & C8 & C9).
    injection H; intros; subst p' a f' r'; clear H.
    split; [congruence|]. split; [congruence|]. split; [congruence|].
    right. split; [exact NR|].
    split; [congruence|]. split; [congruence|]. split; [congruence|]. split; [congruence|]. split; [congruence|]. split.
    + intros x I. apply in_app_or in I. destruct I as [I|I].
      * left. destruct (st =? PS_CONDEMNED) eqn:G; [|destruct I]. apply Z.eqb_eq in G. subst st.
        destruct I as [<-|[]]. auto.
      * right. destruct (p_state q3) as [s|]; [|destruct I]. destruct (s =? PS_CONDEMNED) eqn:G; [|destruct I].
        apply Z.eqb_eq in G. subst s. destruct I as [<-|[]]. split; auto. congruence.
    + rewrite B2, B3, A2, A3 in C9. rewrite A2, A3 in B9.
      destruct C9 as [C9|[C9 C9']]; [|right; auto].
      destruct B9 as [B9|[B9 B9']]; [left; congruence|right]. split; [congruence|exact B9'].
Qed.

(** ** The clean-up half *)
Lemma cleanup_length now pid st l : length (cleanup now pid st l) = length l.
Proof. induction l as [|p l IH]; cbn; [reflexivity|]. destruct (_ =? _); cbn; auto. Qed.

Definition deadp now st p := upd_dead (upd_state (upd_exit (upd_pid p 0) st) PS_DEAD) now.

(** Either nobody has that pid, or the first one that has it is marked *)
Lemma cleanup_nth now pid st l i p : nth_error l i = Some p ->
  exists p', nth_error (cleanup now pid st l) i = Some p' /\
    (p' = p \/ (p_pid p = pid /\ p' = deadp now st p)).
Proof.
  revert i; induction l as [|q l IH]; intros [|i] N; cbn in *; try discriminate.
  - injection N; intros ->. destruct (p_pid p =? pid) eqn:E; cbn; eexists; split; eauto.
    right. split; [lia|reflexivity].
  - destruct (_ =? _); cbn; eauto.
Qed.
Lemma cleanup_hit now pid st l i p : nth_error l i = Some p -> p_pid p = pid ->
  (forall j q, nth_error l j = Some q -> p_pid q = pid -> j = i) ->
  nth_error (cleanup now pid st l) i = Some (deadp now st p).
Proof.
  revert i; induction l as [|q l IH]; intros i N P U; [destruct i; discriminate|].
  cbn. destruct (p_pid q =? pid) eqn:E.
  - assert (0%nat = i) by (apply (U 0%nat q); [reflexivity|lia]). subst i.
    cbn in *. injection N; intros ->. reflexivity.
  - destruct i as [|i]; cbn in N; [injection N; intros; subst q; lia|].
    cbn. apply IH; auto. intros j q' N' P'. specialize (U (S j) q' N' P'). lia.
Qed.

Lemma clean_queue_length now q : forall l,
  length (fst (clean_queue now q l)) = length q /\ length (snd (clean_queue now q l)) = length l.
Proof.
  induction q as [|[pid st] q IH]; intros l; [auto|]. cbn [clean_queue].
  destruct (pid =? 0).
  - destruct (IH l) as [A B]. destruct (clean_queue now q l); cbn in *; auto.
  - destruct (IH (cleanup now pid st l)) as [A B]. destruct (clean_queue now q (cleanup now pid st l)); cbn in *.
    rewrite cleanup_length in B. auto.
Qed.

Lemma clean_queue_zero now q : forall l x, In x (fst (clean_queue now q l)) -> fst x = 0.
Proof.
  induction q as [|[pid st] q IH]; intros l x I; [destruct I|]. cbn [clean_queue] in I.
  destruct (pid =? 0) eqn:E.
  - specialize (IH l). destruct (clean_queue now q l); cbn in *. destruct I as [<-|I]; [cbn; lia|auto].
  - specialize (IH (cleanup now pid st l)). destruct (clean_queue now q (cleanup now pid st l)); cbn in *.
    destruct I as [<-|I]; [reflexivity|auto].
Qed.

Lemma clean_queue_nth now q : forall l i p, nth_error l i = Some p ->
  exists p', nth_error (snd (clean_queue now q l)) i = Some p' /\
    (p' = p \/ (p_pid p <> 0 /\ exists st, In (p_pid p, st) q /\ p' = deadp now st p)).
Proof.
  induction q as [|[pid st] q IH]; intros l i p N; [cbn; eauto|]. cbn [clean_queue].
  destruct (pid =? 0) eqn:E.
  - destruct (IH l i p N) as (p' & N' & C). destruct (clean_queue now q l); cbn in *.
    exists p'. split; auto. destruct C as [C|(C & s & S1 & S2)]; eauto. right. eauto.
  - destruct (cleanup_nth now pid st l i p N) as (p1 & N1 & C1).
    destruct (IH _ i p1 N1) as (p' & N' & C).
    destruct (clean_queue now q (cleanup now pid st l)); cbn in *.
    exists p'. split; auto.
    destruct C1 as [->|[P1 ->]].
    + destruct C as [C|(C & s & S1 & S2)]; eauto. right. eauto.
    + assert (p' = deadp now st p) as ->.
      { destruct C as [C|(C & _)]; auto. exfalso. apply C. reflexivity. }
      right. split; [lia|]. exists st. rewrite P1. auto.
Qed.

Lemma clean_queue_hit now q : forall l i p st, nth_error l i = Some p -> p_pid p <> 0 ->
  (forall j p', nth_error l j = Some p' -> p_pid p' = p_pid p -> j = i) ->
  In (p_pid p, st) q -> (forall s, In (p_pid p, s) q -> s = st) ->
  nth_error (snd (clean_queue now q l)) i = Some (deadp now st p).
Proof.
  induction q as [|[pid s] q IH]; intros l i p st N NZ U IQ UQ; [destruct IQ|]. cbn [clean_queue].
  destruct (pid =? 0) eqn:E.
  - destruct IQ as [IQ|IQ]; [congruence || (injection IQ; intros; lia)|].
    specialize (IH l i p st N NZ U IQ (fun s0 I => UQ s0 (or_intror I))).
    destruct (clean_queue now q l); cbn in *; auto.
  - destruct (Z.eq_dec (p_pid p) pid) as [P|P].
    + assert (s = st) by (apply UQ; left; congruence). subst s pid.
      pose proof (cleanup_hit now (p_pid p) st l i p N eq_refl U) as H.
      destruct (clean_queue_nth now q _ _ _ H) as (p' & N' & C).
      destruct C as [->|(C & _)]; [|exfalso; apply C; reflexivity].
      destruct (clean_queue now q (cleanup now (p_pid p) st l)); cbn in *; auto.
    + destruct IQ as [IQ|IQ]; [exfalso; apply P; congruence|].
      destruct (cleanup_nth now pid s l i p N) as (p1 & N1 & [->|[C1 _]]); [|congruence].
      assert (U1 : forall j p', nth_error (cleanup now pid s l) j = Some p' -> p_pid p' = p_pid p -> j = i).
      { intros j p' N' P'.
        assert (exists p0, nth_error l j = Some p0) as (p0 & N0).
        { destruct (nth_error l j) eqn:X; eauto. apply nth_error_None in X.
          rewrite <- (cleanup_length now pid s) in X. apply nth_error_None in X. congruence. }
        destruct (cleanup_nth now pid s l j p0 N0) as (p2 & N2 & C2).
        rewrite N' in N2. injection N2; intros <-. destruct C2 as [->|[_ ->]]; [eauto|].
        cbn in P'. congruence. }
      specialize (IH _ i p st N1 NZ U1 IQ (fun s0 I => UQ s0 (or_intror I))).
      destruct (clean_queue now q (cleanup now pid s l)); cbn in *; auto.
Qed.

(** ** The queue of exits *)
Definition pending (q : list (Z * Z)) : list Z := filter (fun x => negb (x =? 0)) (map fst q).

Lemma dpq_add_spec pid st q q' : dpq_add pid st q = Done q' ->
  length q' = length q /\ exists a b, pending q = a ++ b /\ (pid <> 0 -> pending q' = a ++ pid :: b) /\
  In (pid, st) q' /\ (forall x, In x q' -> x = (pid, st) \/ In x q) /\
  (forall x, In x q -> fst x <> 0 -> In x q').
Proof.
  revert q'; induction q as [|[p s] q IH]; intros q' H; cbn in H; [discriminate|].
  destruct (p =? 0) eqn:E.
  - injection H; intros <-. split; [reflexivity|]. exists [], (pending q). unfold pending. cbn. rewrite E. cbn.
    split; [reflexivity|]. split.
    + intros NZ. destruct (pid =? 0) eqn:E2; [lia|reflexivity].
    + split; [auto|]. split; [intros x [<-|I]; auto|]. intros x [<-|I] F; [cbn in F; lia|auto].
  - destruct (dpq_add pid st q) as [r|] eqn:D; [|discriminate]. cbn in H. injection H; intros <-.
    destruct (IH r eq_refl) as (L & a & b & A & B & C & D1 & D2).
    split; [cbn; lia|]. exists (p :: a), b. unfold pending in *. cbn. rewrite E. cbn. rewrite A.
    split; [reflexivity|]. split; [intros NZ; rewrite (B NZ); reflexivity|].
    split; [auto|]. split; [intros x [<-|I]; [auto|destruct (D1 x I); auto]|].
    intros x [<-|I] F; auto.
Qed.

Lemma dpq_add_ok pid st q : (length (pending q) < length q)%nat -> exists q', dpq_add pid st q = Done q'.
Proof.
  induction q as [|[p s] q IH]; cbn; [lia|]. unfold pending. cbn. destruct (p =? 0) eqn:E; cbn; [eauto|].
  intros L. destruct IH as (q' & ->); [unfold pending; lia|]. cbn. eauto.
Qed.
Lemma dpq_add_full pid st q : length (pending q) = length q -> dpq_add pid st q = Undef UOob.
Proof.
  assert (LE : forall q : list (Z * Z), (length (pending q) <= length q)%nat).
  { intros r. unfold pending. rewrite <- (map_length fst r). generalize (map fst r). intros l.
    induction l; cbn; [lia|]. destruct (negb _); cbn; lia. }
  induction q as [|[p s] q IH]; cbn; [auto|]. unfold pending. cbn. destruct (p =? 0) eqn:E; cbn.
  - intros L. specialize (LE q). unfold pending in LE. lia.
  - intros L. rewrite IH; [reflexivity|]. unfold pending. lia.
Qed.
Lemma in_pending q x : In x (pending q) <-> x <> 0 /\ exists s, In (x, s) q.
Proof.
  unfold pending. rewrite filter_In, in_map_iff. split.
  - intros [([y s] & <- & I) N]. cbn in *. split; [lia|eauto].
  - intros (N & s & I). split; [exists (x, s); auto|]. lia.
Qed.

(** ** Reachable supervisors *)
Definition event_ok (e : mevent) : Prop :=
  match e with
  | Death pid _ => 0 < pid
  | Clean now => tv_ok now
  | Supervise E => tv_ok (e_now E)
  end.

Inductive mreach (cfg : list (bool * Z * Z)) : master -> Prop :=
| mreach_boot now forks : tv_ok now -> mreach cfg (fst (mboot now forks cfg))
| mreach_step m e m' a : mreach cfg m -> event_ok e -> mstep e m = Done (m', a) -> mreach cfg m'.

Lemma scan_procs_split E m m' r acts : scan_procs E m = Done (m', r, acts) ->
  m_dpq m' = m_dpq m /\ m_count m' = u32 (m_count m + 1) /\ length (m_procs m') = length (m_procs m) /\
  exists ass, acts = concat ass /\ length ass = length (m_procs m) /\
  forall i p, nth_error (m_procs m) i = Some p ->
    exists p' a f f' k k', nth_error (m_procs m') i = Some p' /\ nth_error ass i = Some a /\
      scan_one (e_now E) (e_stat E) (m_count m) i f k p = Done (p', f', k', a) /\ k <= 60000 /\ r <= k'.
Proof.
  intros H. unfold scan_procs in H. destruct (scan_list _ _ _ _ _ _ _) as [[[l k] a]|] eqn:S; [|discriminate].
  assert (L : 60000 <= 60000) by lia.
  destruct (scan_list_split _ _ _ _ _ _ _ _ _ _ L S) as (ass & A1 & A2 & A3 & A4 & A5).
  injection H; intros; subst; clear H. cbn. repeat split; auto.
  exists ass. repeat split; auto.
Qed.

Lemma nth_none {A} (l : list A) i : (length l <= i)%nat -> nth_error l i = None.
Proof. apply nth_error_None. Qed.
Lemma nth_some_lt {A} (l : list A) i x : nth_error l i = Some x -> (i < length l)%nat.
Proof. intros H. apply nth_error_Some. congruence. Qed.
Lemma nth_lt_some {A} (l : list A) i : (i < length l)%nat -> exists x, nth_error l i = Some x.
Proof. intros H. destruct (nth_error l i) eqn:E; eauto. apply nth_error_None in E. lia. Qed.

(** An action of the pass belongs to one process *)
Lemma scan_procs_act E m m' r acts x : scan_procs E m = Done (m', r, acts) -> In x acts ->
  exists i p p' a f f' k k', nth_error (m_procs m) i = Some p /\ nth_error (m_procs m') i = Some p' /\ In x a /\
    scan_one (e_now E) (e_stat E) (m_count m) i f k p = Done (p', f', k', a) /\ incl a acts.
Proof.
  intros H I. destruct (scan_procs_split _ _ _ _ _ H) as (_ & _ & L & ass & -> & LA & S).
  apply In_concat_nth in I. destruct I as (i & a & N & I).
  pose proof (nth_some_lt _ _ _ N) as LT. rewrite LA in LT.
  destruct (nth_lt_some _ _ LT) as (p & NP).
  destruct (S i p NP) as (p' & a' & f & f' & k & k' & N' & NA & S1 & _).
  rewrite N in NA. injection NA; intros <-. exists i, p, p', a, f, f', k, k'. repeat split; auto.
  intros y Y. apply In_concat_nth. eauto.
Qed.
Lemma scan_procs_at E m m' r acts i p : scan_procs E m = Done (m', r, acts) -> nth_error (m_procs m) i = Some p ->
  exists p' a f f' k k', nth_error (m_procs m') i = Some p' /\
    scan_one (e_now E) (e_stat E) (m_count m) i f k p = Done (p', f', k', a) /\ k <= 60000 /\ r <= k' /\
    incl a acts /\ (forall z, In (AFork i z) acts -> In (AFork i z) a).
Proof.
  intros H N. destruct (scan_procs_split _ _ _ _ _ H) as (_ & _ & L & ass & -> & LA & S).
  destruct (S i p N) as (p' & a & f & f' & k & k' & N' & NA & S1 & K1 & K2).
  exists p', a, f, f', k, k'. repeat split; auto.
  - intros y Y. apply In_concat_nth. eauto.
  - intros z Y. apply In_concat_nth in Y. destruct Y as (j & b & NB & Y).
    pose proof (nth_some_lt _ _ _ NB) as LT. rewrite LA in LT.
    destruct (nth_lt_some _ _ LT) as (q & NQ).
    destruct (S j q NQ) as (q' & b' & g & g' & h & h' & M' & MB & S2 & _).
    rewrite NB in MB. injection MB; intros <-.
    destruct (scan_one_cases _ _ _ _ _ _ _ _ _ _ _ S2) as (_ & _ & _ & C).
    assert (j = i) as ->.
    { destruct C as [(_ & _ & w & _ & _ & _ & [(_ & z' & -> & _)|(_ & -> & _)])|(_ & _ & _ & _ & _ & _ & C & _)].
      - destruct Y as [Y|[]]. congruence.
      - destruct Y.
      - destruct (C _ Y) as [[X _]|[X _]]; discriminate. }
    congruence.
Qed.

(** Processes of the master, whatever happens *)
Definition delays : list Z := [0; 100; 200; 400; 800; 1600; 3200; 6400; 12800; 25600; 51200; 60000].

Record proc_inv (p : proc) : Prop := {
  pi_start : tv_ok (p_start p);
  pi_dead : tv_ok (p_dead p);
  pi_delay : In (p_rdelay p) delays;
  pi_pid : 0 <= p_pid p;
  pi_ds : p_state p = Some PS_DEAD -> p_pid p = 0 }.

Lemma delays_next w : In w delays -> In (Z.min 60000 (if w =? 0 then 100 else 2 * w)) delays.
Proof.
  unfold delays. cbn [In]. intros H.
  repeat (destruct H as [<-|H]; [vm_compute; tauto|]). destruct H.
Qed.

Lemma deadp_inv now st p : tv_ok now -> proc_inv p -> proc_inv (deadp now st p).
Proof. intros T [A B C D F]. constructor; cbn; auto. lia. Qed.

Lemma scan_one_inv now stat count i f k p p' f' k' a : tv_ok now ->
  scan_one now stat count i f k p = Done (p', f', k', a) -> proc_inv p -> proc_inv p'.
Proof.
  intros T S [A B C D F]. destruct (scan_one_cases _ _ _ _ _ _ _ _ _ _ _ S) as (R1 & R2 & R3 & H).
  destruct H as [(H1 & H2 & w & W1 & W2 & W3 & [(_ & z & Z1 & Z2 & Z3 & Z4)|(_ & Z1 & Z2 & Z3 & Z4 & Z5 & Z6 & _)])
                |(H1 & H2 & H3 & H4 & H5 & H6 & H7 & H8)].
  - assert (In w delays) by (destruct W1 as [->| ->]; [left; reflexivity|auto]).
    pose proof (delays_next _ H) as N. rewrite <- Z2 in N.
    destruct (Z_lt_le_dec 0 z) as [P|P].
    + destruct (Z3 P) as (A1 & A2 & A3 & A4 & A5). constructor; rewrite ?A1, ?A2, ?A3, ?A4, ?A5; auto; try lia. discriminate.
    + destruct (Z4 P) as (A1 & A2 & A3 & A4 & A5). constructor; rewrite ?A1, ?A2, ?A3, ?A4, ?A5; auto.
  - constructor; rewrite ?Z2, ?Z3, ?Z5, ?Z6; auto. rewrite Z4. destruct W1 as [->| ->]; [left; reflexivity|auto].
  - constructor; rewrite ?H2, ?H3, ?H4, ?H5; auto. intros X. destruct H8 as [H8|[H8 _]]; [|rewrite H8 in X; discriminate].
    apply F. congruence.
Qed.

Lemma start_all_nth now l : forall i forks j p, nth_error l j = Some p ->
  exists r, nth_error (fst (start_all now i forks l)) j = Some (process_start now r p) /\
            In (AFork (i + j) r) (snd (start_all now i forks l)).
Proof.
  induction l as [|q l IH]; intros i forks [|j] p N; cbn in *; try discriminate.
  - injection N; intros ->. exists (hd (-1) forks). destruct (start_all now (S i) (tl forks) l). cbn.
    rewrite Nat.add_0_r. auto.
  - destruct (IH (S i) (tl forks) j p N) as (r & A & B). destruct (start_all now (S i) (tl forks) l). cbn in *.
    exists r. rewrite Nat.add_succ_r. auto.
Qed.
Lemma start_all_length now l : forall i forks, length (fst (start_all now i forks l)) = length l.
Proof.
  induction l as [|q l IH]; intros i forks; cbn; [reflexivity|].
  specialize (IH (S i) (tl forks)). destruct (start_all now (S i) (tl forks) l). cbn in *. auto.
Qed.
Lemma start_all_act now l : forall i forks x, In x (snd (start_all now i forks l)) ->
  exists j r p, x = AFork (i + j) r /\ nth_error l j = Some p /\
    nth_error (fst (start_all now i forks l)) j = Some (process_start now r p).
Proof.
  induction l as [|q l IH]; intros i forks x I; cbn in *; [destruct I|].
  specialize (IH (S i) (tl forks)). destruct (start_all now (S i) (tl forks) l). cbn in *.
  destruct I as [<-|I].
  - exists 0%nat, (hd (-1) forks), q. rewrite Nat.add_0_r. auto.
  - destruct (IH x I) as (j & r & p & A & B & C). exists (S j), r, p. rewrite Nat.add_succ_r. auto.
Qed.

Lemma boot_inv now r c m g : tv_ok now -> proc_inv (process_start now r (process_add c m g)).
Proof.
  intros T. unfold process_start. destruct (0 <? r) eqn:E; constructor; cbn; auto; try lia; try discriminate;
  try (unfold tv_ok; cbn; lia); try (left; reflexivity).
Qed.

Lemma mreach_inv cfg m : mreach cfg m -> length (m_dpq m) = 10%nat /\ (forall p, In p (m_procs m) -> proc_inv p) /\
  (forall x, In x (m_dpq m) -> 0 <= fst x).
Proof.
  induction 1 as [now forks T|m e m' a R IH OK ST].
  - unfold mboot. destruct (start_all now 0 forks _) as [l a] eqn:E. cbn. split; [reflexivity|]. split.
    + intros p I. apply In_nth_error in I. destruct I as (i & N).
      pose proof (nth_some_lt _ _ _ N) as LT.
      set (l0 := map _ cfg) in *.
      pose proof (start_all_length now l0 0 forks) as LL. rewrite E in LL. cbn in LL. rewrite LL in LT.
      destruct (nth_lt_some _ _ LT) as (q & NQ).
      destruct (start_all_nth now l0 0 forks i q NQ) as (r & A & _). rewrite E in A. cbn in A.
      rewrite N in A. injection A; intros ->.
      apply nth_error_In in NQ. unfold l0 in NQ. apply in_map_iff in NQ. destruct NQ as (c & <- & _).
      apply boot_inv; auto.
    + intros x I. repeat (destruct I as [<-|I]; [cbn; lia|]). destruct I.
  - destruct IH as (IH1 & IH2 & IH3). destruct e as [pid st|now|E]; cbn in ST.
    + destruct (dpq_add pid st (m_dpq m)) as [q|] eqn:D; [|discriminate]. injection ST; intros <- <-. cbn.
      destruct (dpq_add_spec _ _ _ _ D) as (L & _ & _ & _ & _ & _ & I & _). split; [congruence|]. split; [auto|].
      intros x X. destruct (I x X) as [->|Y]; [cbn; cbn in OK; lia|auto].
    + injection ST; intros <- <-. unfold scan_clean.
      pose proof (clean_queue_length now (m_dpq m) (m_procs m)) as [L1 L2].
      pose proof (clean_queue_zero now (m_dpq m) (m_procs m)) as Z0.
      pose proof (clean_queue_nth now (m_dpq m) (m_procs m)) as CN.
      destruct (clean_queue now (m_dpq m) (m_procs m)) as [q l]. cbn in *. split; [congruence|]. split.
      * intros p I. apply In_nth_error in I. destruct I as (i & N).
        pose proof (nth_some_lt _ _ _ N) as LT. rewrite L2 in LT. destruct (nth_lt_some _ _ LT) as (p0 & N0).
        destruct (CN i p0 N0) as (p' & N' & C). rewrite N in N'. injection N'; intros <-.
        assert (proc_inv p0) by (apply IH2; eapply nth_error_In; eauto).
        destruct C as [->|(_ & st & _ & ->)]; [auto|]. apply deadp_inv; auto.
      * intros x X. rewrite (Z0 x X). lia.
    + destruct (scan_procs E m) as [[[m1 r1] a1]|] eqn:S; [|discriminate]. injection ST; intros <- <-.
      destruct (scan_procs_split _ _ _ _ _ S) as (D & _ & L & ass & _ & _ & F). rewrite D.
      split; [auto|]. split; [|auto]. intros p I. apply In_nth_error in I. destruct I as (i & N).
      pose proof (nth_some_lt _ _ _ N) as LT. rewrite L in LT. destruct (nth_lt_some _ _ LT) as (p0 & N0).
      destruct (F i p0 N0) as (p' & a' & f & f' & k & k' & N' & _ & S1 & _). rewrite N in N'. injection N'; intros <-.
      eapply scan_one_inv; eauto. apply IH2. eapply nth_error_In; eauto.
Qed.

(** ** The supervisor together with the children that really run *)
Definition forked (acts : list act) : list (nat * Z) :=
  flat_map (fun a => match a with AFork i r => if 0 <? r then [(i, r)] else [] | _ => [] end) acts.

Record world := { w_m : master; w_alive : list (nat * Z) }.

(** [wreach cfg w]: a history in which a child dies once, and fork() returns a
    pid that no running child has and that is not waiting in the dead process
    queue. *)
Inductive wreach (cfg : list (bool * Z * Z)) : world -> Prop :=
| wreach_boot now forks m a : tv_ok now -> mboot now forks cfg = (m, a) ->
    NoDup (map snd (forked a)) -> wreach cfg {| w_m := m; w_alive := forked a |}
| wreach_death w i pid st m' a : wreach cfg w -> In (i, pid) (w_alive w) ->
    mstep (Death pid st) (w_m w) = Done (m', a) ->
    wreach cfg {| w_m := m'; w_alive := filter (fun c => negb (snd c =? pid)) (w_alive w) |}
| wreach_clean w now m' a : wreach cfg w -> tv_ok now -> mstep (Clean now) (w_m w) = Done (m', a) ->
    wreach cfg {| w_m := m'; w_alive := w_alive w |}
| wreach_super w E m' a : wreach cfg w -> tv_ok (e_now E) -> mstep (Supervise E) (w_m w) = Done (m', a) ->
    NoDup (map snd (w_alive w ++ forked a)) ->
    (forall i r, In (i, r) (forked a) -> ~ In r (pending (m_dpq (w_m w)))) ->
    wreach cfg {| w_m := m'; w_alive := w_alive w ++ forked a |}.

Lemma in_forked i r acts : In (i, r) (forked acts) <-> In (AFork i r) acts /\ 0 < r.
Proof.
  unfold forked. rewrite in_flat_map. split.
  - intros ([j k|? ?] & I & H); [|destruct H]. destruct (0 <? k) eqn:E; [|destruct H].
    destruct H as [H|[]]. injection H; intros; subst. split; [auto|lia].
  - intros [I P]. exists (AFork i r). split; [auto|]. destruct (0 <? r) eqn:E; [left; reflexivity|lia].
Qed.

Record winv (w : world) : Prop := {
  wi_alive : forall i r, In (i, r) (w_alive w) -> 0 < r /\ exists p, nth_error (m_procs (w_m w)) i = Some p /\ p_pid p = r;
  wi_pid : forall i p, nth_error (m_procs (w_m w)) i = Some p -> p_pid p <> 0 ->
             In (i, p_pid p) (w_alive w) \/ In (p_pid p) (pending (m_dpq (w_m w)));
  wi_uniq : forall i j p q, nth_error (m_procs (w_m w)) i = Some p -> nth_error (m_procs (w_m w)) j = Some q ->
             p_pid p <> 0 -> p_pid p = p_pid q -> i = j;
  wi_nodup : NoDup (map snd (w_alive w));
  wi_disj : forall i r, In (i, r) (w_alive w) -> ~ In r (pending (m_dpq (w_m w)));
  wi_pend : NoDup (pending (m_dpq (w_m w))) }.

Lemma wreach_mreach cfg w : wreach cfg w -> mreach cfg (w_m w) /\ forall i r, In (i, r) (w_alive w) -> 0 < r.
Proof.
  induction 1 as [now forks m a T B N|w i pid st m' a R [IH1 IH2] I S|w now m' a R [IH1 IH2] T S|w E m' a R [IH1 IH2] T S N F]; cbn [w_m w_alive].
  - split; [|intros i r I; apply in_forked in I; tauto]. change m with (fst (m, a)). rewrite <- B. constructor; auto.
  - split; [|intros j r J; apply filter_In in J; eapply IH2; apply J]. econstructor; eauto. cbn. eauto.
  - split; [|auto]. econstructor; eauto. exact T.
  - split; [econstructor; eauto; exact T|]. intros i r I. apply in_app_or in I. destruct I as [I|I]; [eauto|].
    apply in_forked in I. tauto.
Qed.

Lemma NoDup_snd_fun {A} (l : list (A * Z)) i j r : NoDup (map snd l) -> In (i, r) l -> In (j, r) l -> i = j.
Proof.
  induction l as [|[a b] l IH]; cbn; intros N I J; [destruct I|]. inversion N; subst.
  destruct I as [I|I]; destruct J as [J|J].
  - congruence.
  - injection I; intros; subst. exfalso. apply H1. apply in_map_iff. exists (j, r). auto.
  - injection J; intros; subst. exfalso. apply H1. apply in_map_iff. exists (i, r). auto.
  - auto.
Qed.

Lemma NoDup_filter_map {A} (f : A -> bool) (g : A -> Z) l : NoDup (map g l) -> NoDup (map g (filter f l)).
Proof.
  induction l as [|a l IH]; cbn; intros N; [constructor|]. inversion N; subst.
  destruct (f a); cbn; auto. constructor; auto. intros I. apply H1. apply in_map_iff in I.
  destruct I as (x & E & X). apply filter_In in X. apply in_map_iff. exists x. tauto.
Qed.

Lemma wreach_winv cfg w : wreach cfg w -> winv w.
Proof.
  induction 1 as [now forks m a T B N|w i pid st m' a R IH I S|w now m' a R IH T S|w E m' a R IH T S N F].
  - unfold mboot in B. destruct (start_all now 0 forks _) as [l a'] eqn:SA. injection B; intros <- <-. clear B.
    set (l0 := map _ cfg) in *.
    assert (P0 : forall p, In p l0 -> p_pid p = 0).
    { intros p I. unfold l0 in I. apply in_map_iff in I. destruct I as (c & <- & _). reflexivity. }
    assert (F : forall i p, nth_error l i = Some p -> p_pid p <> 0 -> In (i, p_pid p) (forked a')).
    { intros i p NP NZ. pose proof (nth_some_lt _ _ _ NP) as LT.
      pose proof (start_all_length now l0 0 forks) as LL. rewrite SA in LL. cbn in LL. rewrite LL in LT.
      destruct (nth_lt_some _ _ LT) as (q & NQ).
      destruct (start_all_nth now l0 0 forks i q NQ) as (r & A & A2). rewrite SA in A, A2. cbn in A, A2.
      rewrite NP in A. injection A; intros ->. apply nth_error_In in NQ. apply P0 in NQ.
      unfold process_start in *. destruct (0 <? r) eqn:E; [|congruence]. cbn. apply in_forked. split; [auto|lia]. }
    constructor; cbn.
    + intros i r IR. apply in_forked in IR. destruct IR as [IR P]. split; [auto|].
      destruct (start_all_act now l0 0 forks (AFork i r)) as (j & r' & p & A & B & C); [rewrite SA; exact IR|].
      cbn in A. injection A; intros; subst. rewrite SA in C. cbn in C. eexists. split; [exact C|].
      unfold process_start. destruct (0 <? r') eqn:E; [reflexivity|lia].
    + auto.
    + intros i j p q NP NQ NZ PE. apply (NoDup_snd_fun (forked a') i j (p_pid p)); auto.
      rewrite PE. apply F; auto. congruence.
    + exact N.
    + intros i r _ J. exact J.
    + constructor.
  - (* a child dies *)
    destruct IH as [A1 A2 A3 A4 A5 A6]. cbn in S.
    destruct (dpq_add pid st (m_dpq (w_m w))) as [q|] eqn:D; [|discriminate]. injection S; intros <- <-. clear S.
    destruct (A1 _ _ I) as (PP & p0 & N0 & P0).
    destruct (dpq_add_spec _ _ _ _ D) as (L & x & y & X1 & X2 & X3 & X4 & X5).
    assert (NZ : pid <> 0) by lia. specialize (X2 NZ).
    assert (PEND : forall z, In z (pending q) <-> z = pid \/ In z (pending (m_dpq (w_m w)))).
    { intros z. rewrite X2, X1, !in_app_iff. cbn. intuition. }
    constructor; cbn [w_m w_alive m_procs m_dpq].
    + intros j r J. apply filter_In in J. destruct J as [J _]. auto.
    + intros j p NJ NZ'. destruct (A2 j p NJ NZ') as [B|B].
      * destruct (Z.eq_dec (p_pid p) pid) as [E|E]; [right; apply PEND; auto|].
        left. apply filter_In. split; [auto|]. cbn. lia.
      * right. apply PEND. auto.
    + exact A3.
    + apply NoDup_filter_map. exact A4.
    + intros j r J C. apply filter_In in J. destruct J as [J K]. cbn in K. apply PEND in C.
      destruct C as [C|C]; [lia|]. eapply A5; eauto.
    + rewrite X2. rewrite X1 in A6. apply NoDup_Add with (a := pid) (l := x ++ y); [apply Add_app|].
      split; [exact A6|]. rewrite <- X1. exact (A5 _ _ I).
  - (* clean-up *)
    destruct IH as [A1 A2 A3 A4 A5 A6]. cbn in S. injection S; intros <- <-. clear S. unfold scan_clean.
    set (m := w_m w) in *.
    pose proof (clean_queue_length now (m_dpq m) (m_procs m)) as [L1 L2].
    pose proof (clean_queue_zero now (m_dpq m) (m_procs m)) as Z0.
    pose proof (clean_queue_nth now (m_dpq m) (m_procs m)) as CN.
    pose proof (clean_queue_hit now (m_dpq m) (m_procs m)) as CH.
    destruct (clean_queue now (m_dpq m) (m_procs m)) as [q l]. cbn in *.
    assert (PE : pending q = []).
    { unfold pending. clear -Z0. induction q as [|x q IH]; [reflexivity|]. cbn.
      rewrite (Z0 x (or_introl eq_refl)). cbn. apply IH. intros y I. apply Z0. right. exact I. }
    assert (BK : forall i p, nth_error l i = Some p -> p_pid p <> 0 -> nth_error (m_procs m) i = Some p /\
       ~ In (p_pid p) (pending (m_dpq m))).
    { intros i p NP NZ. pose proof (nth_some_lt _ _ _ NP) as LT. rewrite L2 in LT. destruct (nth_lt_some _ _ LT) as (p0 & N0).
      destruct (CN i p0 N0) as (p' & N' & C). rewrite NP in N'. injection N'; intros <-.
      destruct C as [->|(_ & st & _ & ->)]; [|exfalso; apply NZ; reflexivity]. split; [auto|].
      intros C. apply in_pending in C. destruct C as (_ & st & C).
      assert (H : nth_error l i = Some (deadp now st p0)).
      { apply CH; auto.
        - intros j p' Nj Ej. symmetry. eapply (A3 i j p0 p'); eauto.
        - intros s C'. clear -A6 C C' NZ. revert A6 C C' NZ. generalize (m_dpq m) (p_pid p0). intros q z.
          induction q as [|[a b] q IH]; intros A6 C C' NZ; [destruct C|]. unfold pending in A6. cbn in A6.
          destruct C as [C|C]; destruct C' as [C'|C'].
          + congruence.
          + injection C; intros; subst. destruct (z =? 0) eqn:E; [lia|]. cbn in A6. inversion A6; subst.
            exfalso. apply H1. apply in_pending. eauto.
          + injection C'; intros; subst. destruct (z =? 0) eqn:E; [lia|]. cbn in A6. inversion A6; subst.
            exfalso. apply H1. apply in_pending. eauto.
          + apply IH; auto. destruct (negb (a =? 0)); [inversion A6; auto|auto]. }
      rewrite NP in H. injection H; intros HH. apply (f_equal p_pid) in HH. cbn in HH. lia. }
    constructor; cbn.
    + intros i r I. destruct (A1 i r I) as (P & p & NP & EP). split; [auto|]. exists p. split; [|auto].
      destruct (CN i p NP) as (p' & N' & [->|(_ & st & C & _)]); [auto|].
      exfalso. apply (A5 i r I). apply in_pending. rewrite <- EP. split; [lia|eauto].
    + intros i p NP NZ. destruct (BK i p NP NZ) as [B1 B2]. destruct (A2 i p B1 NZ); [auto|contradiction].
    + intros i j p p2 NP NQ NZ E. assert (NZ2 : p_pid p2 <> 0) by congruence.
      destruct (BK i p NP NZ) as [B1 _]. destruct (BK j p2 NQ NZ2) as [B2 _]. eauto.
    + exact A4.
    + intros i r _ J. change (In r (pending q)) in J. rewrite PE in J. exact J.
    + change (NoDup (pending q)). rewrite PE. constructor.
  - (* the pass over the processes *)
    pose proof (wreach_mreach _ _ R) as [MR _]. pose proof (mreach_inv _ _ MR) as (_ & PI & _).
    destruct IH as [A1 A2 A3 A4 A5 A6]. cbn in S.
    destruct (scan_procs E (w_m w)) as [[[m1 r1] a1]|] eqn:SP; [|discriminate]. injection S; intros <- <-. clear S.
    set (m := w_m w) in *.
    pose proof (scan_procs_split _ _ _ _ _ SP) as (D & _ & L & _).
    pose proof (fun i p => scan_procs_at _ _ _ _ _ i p SP) as AT.
    (* how the pid of process i changes *)
    assert (CH : forall i p, nth_error (m_procs m) i = Some p -> exists p', nth_error (m_procs m1) i = Some p' /\
       ((p_pid p' = p_pid p /\ forall z, 0 < z -> ~ In (AFork i z) a1) \/
        (p_pid p = 0 /\ 0 < p_pid p' /\ In (AFork i (p_pid p')) a1 /\ forall z, In (AFork i z) a1 -> z = p_pid p'))).
    { intros i p NP. destruct (AT i p NP) as (p' & b & f & f' & k & k' & N' & S1 & _ & _ & INC & ONLY).
      exists p'. split; [auto|]. assert (PP : proc_inv p) by (apply PI; eapply nth_error_In; eauto).
      destruct (scan_one_cases _ _ _ _ _ _ _ _ _ _ _ S1) as (_ & _ & _ & C).
      destruct C as [(C1 & C2 & z0 & _ & _ & _ & [(_ & z & -> & _ & C3 & C4)|(_ & -> & C3 & _)])|(_ & C1 & _ & _ & _ & _ & C2 & _)].
      - destruct (Z_lt_le_dec 0 z) as [P|P].
        + right. destruct (C3 P) as (E1 & _). rewrite E1. repeat split; auto.
          * apply (pi_ds _ PP). exact C2.
          * apply INC. left. reflexivity.
          * intros y Y. apply ONLY in Y. destruct Y as [Y|[]]. congruence.
        + left. destruct (C4 P) as (E1 & _). split; [auto|]. intros y Y1 Y. apply ONLY in Y. destruct Y as [Y|[]].
          injection Y; intros; lia.
      - left. split; [auto|]. intros y Y1 Y. apply ONLY in Y. destruct Y.
      - left. split; [auto|]. intros y Y1 Y. apply ONLY in Y. destruct (C2 _ Y) as [[X _]|[X _]]; discriminate. }
    assert (NOF : forall i z, In (AFork i z) a1 -> exists p, nth_error (m_procs m) i = Some p).
    { intros i z Y. destruct (scan_procs_act _ _ _ _ _ _ SP Y) as (j & p & p' & b & f & f' & k & k' & N0 & _ & IB & S1 & _).
      destruct (scan_one_cases _ _ _ _ _ _ _ _ _ _ _ S1) as (_ & _ & _ & C).
      destruct C as [(C1 & C2 & z0 & _ & _ & _ & [(_ & z1 & -> & _)|(_ & -> & _)])|(_ & C1 & _ & _ & _ & _ & C2 & _)].
      - destruct IB as [IB|[]]. injection IB; intros; subst. eauto.
      - destruct IB.
      - destruct (C2 _ IB) as [[X _]|[X _]]; discriminate. }
    assert (BK : forall i p', nth_error (m_procs m1) i = Some p' -> exists p, nth_error (m_procs m) i = Some p).
    { intros i p' N'. pose proof (nth_some_lt _ _ _ N') as LT. rewrite L in LT. apply nth_lt_some. exact LT. }
    assert (LIVE : forall i p', nth_error (m_procs m1) i = Some p' -> p_pid p' <> 0 ->
       In (i, p_pid p') (w_alive w ++ forked a1) \/ In (p_pid p') (pending (m_dpq m))).
    { intros i p' N' NZ. destruct (BK i p' N') as (p & NP). destruct (CH i p NP) as (p2 & N2 & C).
      rewrite N' in N2. injection N2; intros <-. destruct C as [[C1 C2]|(C1 & C2 & C3 & C4)].
      - rewrite C1 in *. destruct (A2 i p NP NZ); [left; apply in_or_app; auto|auto].
      - left. apply in_or_app. right. apply in_forked. auto. }
    constructor; cbn [w_m w_alive]; try rewrite D.
    + intros i r I. apply in_app_or in I. destruct I as [I|I].
      * destruct (A1 i r I) as (P & p & NP & EP). split; [auto|]. destruct (CH i p NP) as (p' & N' & C).
        exists p'. split; [auto|]. destruct C as [[C _]|(C & _)]; [congruence|lia].
      * apply in_forked in I. destruct I as [I P]. split; [auto|]. destruct (NOF _ _ I) as (p & NP).
        destruct (CH i p NP) as (p' & N' & C). exists p'. split; [auto|].
        destruct C as [[_ C]|(_ & _ & _ & C)]; [exfalso; eapply C; eauto|]. symmetry. apply C. exact I.
    + exact LIVE.
    + intros i j p q NP NQ NZ EQ. assert (NZ2 : p_pid q <> 0) by congruence.
      destruct (BK i p NP) as (p0 & NP0). destruct (CH i p0 NP0) as (p1 & N1 & C1). rewrite NP in N1. injection N1; intros <-.
      destruct (BK j q NQ) as (q0 & NQ0). destruct (CH j q0 NQ0) as (q1 & M1 & D1). rewrite NQ in M1. injection M1; intros <-.
      destruct (LIVE i p NP NZ) as [X|X]; destruct (LIVE j q NQ NZ2) as [Y|Y].
      * rewrite <- EQ in Y. exact (NoDup_snd_fun _ _ _ _ N X Y).
      * rewrite <- EQ in Y. exfalso. apply in_app_or in X. destruct X as [X|X]; [eapply A5; eauto|eapply F; eauto].
      * rewrite EQ in X. exfalso. apply in_app_or in Y. destruct Y as [Y|Y]; [eapply A5; eauto|eapply F; eauto].
      * destruct C1 as [[C1 _]|(_ & C1 & C2 & _)]; cycle 1.
        { exfalso. eapply F; [apply in_forked; eauto|exact X]. }
        destruct D1 as [[D1 _]|(_ & D1 & D2 & _)]; cycle 1.
        { exfalso. eapply F; [apply in_forked; eauto|exact Y]. }
        eapply (A3 i j p0 q0); eauto; congruence.
    + exact N.
    + intros i r I. apply in_app_or in I. destruct I as [I|I]; eauto.
    + exact A6.
Qed.
