(** * C173: the master in the background *)
From Verif Require Import Base Const Types Lib Text Daemon.

(** A daemon: in a session of which it is not the leader, without controlling terminal, in the
    root directory, with nothing open but the three standard descriptors on /dev/null *)
Record daemon (p : dproc) (pid sid : Z) : Prop := {
  dm_pid : dp_pid p = pid;
  dm_sid : dp_sid p = sid;
  dm_leader : dp_pid p <> dp_sid p;
  dm_group : dp_pid p <> dp_pgid p;
  dm_tty : dp_tty p = None;
  dm_cwd : dp_cwd p = str "/";
  dm_umask : dp_umask p = 0;
  dm_std : forall n, 0 <= n <= 2 -> dp_fds p n = Some (str "/dev/null");
  dm_rest : forall n, n < 0 \/ 2 < n -> dp_fds p n = None }.

Lemma dec_rev_9 : forall f n k, 0 <= n < 10 ^ Z.of_nat k -> (0 < k)%nat -> (length (dec_rev f n) <= k)%nat.
Proof.
  induction f as [|f IH]; intros n k H K; cbn [dec_rev]; [cbn; lia|]. destruct (n <? 10) eqn:Q; cbn [length]; [lia|]. destruct k as [|k]; [lia|]. destruct k as [|k]; [change (10 ^ Z.of_nat 1) with 10 in H; lia|].
  specialize (IH (n / 10) (Datatypes.S k)). assert (A : 10 ^ Z.of_nat (Datatypes.S (Datatypes.S k)) = 10 * 10 ^ Z.of_nat (Datatypes.S k)) by (rewrite (Nat2Z.inj_succ (Datatypes.S k)), Z.pow_succ_r by lia; reflexivity).
  assert (length (dec_rev f (n / 10)) <= Datatypes.S k)%nat; [apply IH; [|lia] | lia]. rewrite A in H. split; [apply Z.div_pos; lia | apply Z.div_lt_upper_bound; lia].
Qed.
Lemma pid_text_ok pid : 0 <= pid < 1000000000 -> exists t, pid_text pid = Done t /\ t = print_dec pid.
Proof.
  intros H. unfold pid_text.
  assert (L : zlen (print_dec pid) <= 9).
  { unfold print_dec. replace (pid <? 0) with false by lia. unfold zlen. unfold dec_str. rewrite rev_length.
    assert (Q := dec_rev_9 20 pid 9%nat). change (10 ^ Z.of_nat 9) with 1000000000 in Q. lia. }
  replace (zlen (print_dec pid) <? 10) with true by lia. eauto.
Qed.

Lemma open_max max ok f file f' n : k_open max ok f file = (f', n) -> forall k, max <= k -> f' k = f k.
Proof.
  assert (L : forall m g a b, lowest g a m = Some b -> a <= b < a + Z.of_nat m).
  { induction m as [|m IH]; intros g a b H; cbn [lowest] in H; [discriminate|].
    destruct (g a); [apply IH in H; lia | inversion H; lia]. }
  unfold k_open. intros H k K. destruct ok; [|inversion H; reflexivity].
  destruct (lowest f 0 (Z.to_nat max)) as [b|] eqn:E; inversion H; subst; [|reflexivity].
  apply L in E. unfold fd_set. destruct (Z.eqb_spec k n) as [->|]; [|reflexivity].
  destruct (Z_le_gt_dec 0 max); lia.
Qed.

Lemma null_fds max f (file : name) : 3 <= max -> (forall k, 0 <= k <= max -> f k = None) ->
  exists n f1, k_open max true f file = (f1, n) /\
    (forall k, 0 <= k <= 2 -> k_dup max (k_dup max f1 n) n k = Some file) /\
    (forall k, k < 0 \/ 2 < k -> k_dup max (k_dup max f1 n) n k = f k).
Proof.
  intros M C. replace (Z.to_nat max) with (3 + Z.to_nat (max - 3))%nat by lia.
  unfold k_open, k_dup. replace (Z.to_nat max) with (3 + Z.to_nat (max - 3))%nat by lia.
  cbn [Nat.add lowest]. rewrite (C 0) by lia.
  exists 0, (fd_set f 0 (Some file)). split; [reflexivity|].
  assert (E0 : fd_set f 0 (Some file) 0 = Some file) by reflexivity.
  assert (E1 : fd_set f 0 (Some file) (0 + 1) = None) by (unfold fd_set; cbn; apply C; lia).
  unfold k_open. replace (Z.to_nat max) with (3 + Z.to_nat (max - 3))%nat by lia.
  cbn [Nat.add lowest]. rewrite E0, E1. cbn [fst].
  set (g := fd_set (fd_set f 0 (Some file)) (0 + 1) (Some file)).
  assert (G0 : g 0 = Some file) by reflexivity.
  assert (G1 : g (0 + 1) = Some file) by reflexivity.
  assert (G2 : g (0 + 1 + 1) = None) by (unfold g, fd_set; cbn; apply C; lia).
  rewrite G0, G1, G2. cbn [fst]. split.
  - intros k K. unfold fd_set at 1. destruct (Z.eqb_spec k (0 + 1 + 1)); [reflexivity|].
    unfold g, fd_set. destruct (Z.eqb_spec k (0 + 1)); [reflexivity|]. destruct (Z.eqb_spec k 0); [reflexivity | lia].
  - intros k K. unfold g, fd_set. destruct (Z.eqb_spec k (0 + 1 + 1)); [lia|].
    destruct (Z.eqb_spec k (0 + 1)); [lia|]. destruct (Z.eqb_spec k 0); [lia | reflexivity].
Qed.

(** With new process ids, room for three descriptors and /dev/null, whatever the state of the
    caller and whether or not the file for the process id can be opened: the caller's child's
    child is a daemon, and the caller's standard error was told its id *)
Theorem C173_daemon : forall max f1 f2 pid_ok prog p w,
  0 < f1 -> f1 <> dp_pgid p -> 0 < f2 < 1000000000 -> f2 <> f1 -> 3 <= max ->
  (forall k, k < 0 \/ max <= k -> dp_fds p k = None) ->
  exists p' w', daemonize max f1 f2 pid_ok true prog p w = Done (p', w', 0) /\ daemon p' f2 f1 /\
    forall term, dp_fds p 2 = Some term -> exists r, dw_out w' = dw_out w ++ (term, print_dec f2) :: r.
Proof.
  intros * F1 G F2 N M O. unfold daemonize. replace (f1 <? 0) with false by lia.
  unfold k_setsid, child. cbn [dp_pid dp_pgid dp_sid dp_tty dp_cwd dp_umask dp_fds].
  replace (f1 =? dp_pgid p) with false by lia. replace (f1 <? 0) with false by lia. replace (f2 <? 0) with false by lia.
  cbn [dp_pid dp_pgid dp_sid dp_tty dp_cwd dp_umask dp_fds].
  destruct (pid_text_ok f2 ltac:(lia)) as (t & T & ET). rewrite T. cbn [rbind].
  set (p2 := mkD f2 f1 f1 None (str "/") 0 (dp_fds p)). set (w2 := k_write p2 w 2 t).
  unfold writepidfile. cbv zeta. destruct (k_open max pid_ok (dp_fds p2) (pid_path prog)) as [fds fd] eqn:K.
  cbn [dp_pid dp_pgid dp_sid dp_tty dp_cwd p2]. set (p3 := mkD f2 f1 f1 None (str "/") 0 fds).
  set (w3 := if 0 <=? fd then _ else w2).
  assert (W : exists w4, (if fd =? 0 then Done w3 else t0 <-- pid_text f2 ;; Done (k_write p3 w3 fd t0)) = Done w4 /\
                         exists r, dw_out w4 = dw_out w2 ++ r).
  { assert (W3 : dw_out w3 = dw_out w2) by (unfold w3; destruct (0 <=? fd); reflexivity).
    destruct (fd =? 0); [exists w3; split; [reflexivity|]; exists []; rewrite app_nil_r; exact W3|].
    rewrite T. cbn [rbind]. eexists. split; [reflexivity|]. unfold k_write. destruct (dp_fds p3 fd) as [q|].
    - cbn [dw_out]. rewrite W3. eauto.
    - exists []. rewrite app_nil_r. exact W3. }
  destruct W as (w4 & -> & r & R). cbn [rbind]. cbn [dp_fds p3].
  assert (CL : forall k, 0 <= k <= max -> close_all max fds k = None).
  { intros k Hk. unfold close_all. replace ((0 <=? k) && (k <=? max)) with true by lia. reflexivity. }
  destruct (null_fds max (close_all max fds) (str "/dev/null") M CL) as (n & g & -> & A & B).
  eexists. eexists. split; [reflexivity|]. split.
  - constructor; cbn [dp_pid dp_pgid dp_sid dp_tty dp_cwd dp_umask dp_fds]; trivial.
    intros k Hk. rewrite B by exact Hk. unfold close_all. destruct ((0 <=? k) && (k <=? max)) eqn:E; [reflexivity|].
    destruct (Z_lt_ge_dec k 0) as [L|L].
    + assert (X : fds k = dp_fds p k).
      { clear - K L. unfold k_open in K. destruct pid_ok; [|inversion K; reflexivity].
        destruct (lowest (dp_fds p2) 0 (Z.to_nat max)) as [b|] eqn:E; inversion K; subst; [|reflexivity].
        assert (Q : forall m h a c, lowest h a m = Some c -> a <= c).
        { induction m as [|m IH]; intros h a c H; cbn [lowest] in H; [discriminate|].
          destruct (h a); [apply IH in H; lia | inversion H; lia]. }
        apply Q in E. unfold fd_set. destruct (Z.eqb_spec k fd); [lia | reflexivity]. }
      rewrite X. apply O. lia.
    + rewrite (open_max _ _ _ _ _ _ K) by lia. apply O. lia.
  - intros term E. cbn [dw_out]. rewrite R. unfold w2, k_write. cbn [dp_fds p2]. rewrite E. cbn [dw_out].
    exists r. rewrite <- app_assoc, ET. reflexivity.
Qed.

(** Without /dev/null the result is the same 0, and nothing takes the place of the standard
    descriptors: the files opened next get their numbers and what is printed *)
Theorem C173_null_refuted : forall max f1 f2 pid_ok prog p w,
  0 < f1 -> f1 <> dp_pgid p -> 0 < f2 < 1000000000 -> 3 <= max ->
  (forall k, k < 0 \/ max <= k -> dp_fds p k = None) ->
  exists p' w', daemonize max f1 f2 pid_ok false prog p w = Done (p', w', 0) /\ forall k, dp_fds p' k = None.
Proof.
  intros * F1 G F2 M O. unfold daemonize. replace (f1 <? 0) with false by lia.
  unfold k_setsid, child. cbn [dp_pid dp_pgid dp_sid dp_tty dp_cwd dp_umask dp_fds].
  replace (f1 =? dp_pgid p) with false by lia. replace (f1 <? 0) with false by lia. replace (f2 <? 0) with false by lia.
  cbn [dp_pid dp_pgid dp_sid dp_tty dp_cwd dp_umask dp_fds].
  destruct (pid_text_ok f2 ltac:(lia)) as (t & T & ET). rewrite T. cbn [rbind].
  unfold writepidfile. cbv zeta. cbn [dp_pid dp_pgid dp_sid dp_tty dp_cwd dp_fds].
  destruct (k_open max pid_ok (dp_fds p) (pid_path prog)) as [fds fd] eqn:K. rewrite T. cbn [rbind].
  assert (CL : forall k, close_all max fds k = None).
  { intros k. unfold close_all. destruct ((0 <=? k) && (k <=? max)) eqn:E; [reflexivity|].
    destruct (Z_lt_ge_dec k 0) as [L|L].
    - assert (X : fds k = dp_fds p k).
      { clear - K L. unfold k_open in K. destruct pid_ok; [|inversion K; reflexivity].
        destruct (lowest (dp_fds p) 0 (Z.to_nat max)) as [b|] eqn:E; inversion K; subst; [|reflexivity].
        assert (Q : forall m h a c, lowest h a m = Some c -> a <= c).
        { induction m as [|m IH]; intros h a c H; cbn [lowest] in H; [discriminate|].
          destruct (h a); [apply IH in H; lia | inversion H; lia]. }
        apply Q in E. unfold fd_set. destruct (Z.eqb_spec k fd); [lia | reflexivity]. }
      rewrite X. apply O. lia.
    - rewrite (open_max _ _ _ _ _ _ K) by lia. apply O. lia. }
  unfold k_open, k_dup. destruct (fd =? 0); cbn [rbind dp_fds]; rewrite !CL; (eexists; eexists; split; [reflexivity | exact CL]).
Qed.

(** The file for the process id: unlinked as soon as it is written, so that there is none while
    the master runs; the name is fixed, and the file configured (C170) is never written *)
Theorem C173_pidfile_refuted : forall max f1 f2 pid_ok null_ok p w p' w',
  0 < f1 -> f1 <> dp_pgid p -> 0 < f2 -> (forall k, k < 0 -> dp_fds p k = None) ->
  (forall f, dp_fds p 2 = Some f -> dw_files w f = None) ->
  daemonize max f1 f2 pid_ok null_ok (str "opendax") p w = Done (p', w', 0) ->
  dw_files w' (str "/var/run/opendax") = None /\
  forall q, q <> str "/var/run/opendax" -> dw_files w' q = dw_files w q.
Proof.
  intros * F1 G F2 Ng O H. unfold daemonize in H. replace (f1 <? 0) with false in H by lia.
  unfold k_setsid, child in H. cbn [dp_pid dp_pgid dp_sid dp_tty dp_cwd dp_umask dp_fds] in H.
  replace (f1 =? dp_pgid p) with false in H by lia. replace (f1 <? 0) with false in H by lia. replace (f2 <? 0) with false in H by lia.
  cbn [dp_pid dp_pgid dp_sid dp_tty dp_cwd dp_umask dp_fds] in H.
  apply rbind_done in H as (t & T & H). cbv zeta in H.
  apply rbind_done in H as (x & X & H). unfold writepidfile in X. cbv zeta in X.
  change (pid_path (str "opendax")) with (str "/var/run/opendax") in X.
  set (P := str "/var/run/opendax") in *.
  cbn [dp_pid dp_pgid dp_sid dp_tty dp_cwd dp_umask dp_fds] in X.
  destruct (k_open max pid_ok (dp_fds p) P) as [fds fd] eqn:K.
  set (p2 := mkD f2 f1 f1 None (str "/") 0 (dp_fds p)) in X. set (w2 := k_write p2 w 2 t) in X.
  assert (W2 : forall q, dw_files w2 q = dw_files w q).
  { intros q. unfold w2, k_write. cbn [dp_fds p2]. destruct (dp_fds p 2) as [f|] eqn:E; [|reflexivity].
    cbn [dw_files]. rewrite (O f eq_refl). reflexivity. }
  apply rbind_done in X as (w4 & X4 & X). inversion X; subst x; clear X.
  assert (W4 : forall q, q <> P -> dw_files w4 q = dw_files w q).
  { intros q Q. assert (NQ : name_eqb q P = false) by (apply name_eqb_neq; exact Q).
    set (w3 := if 0 <=? fd then _ else w2) in X4.
    assert (W3 : dw_files w3 q = dw_files w q).
    { unfold w3. destruct (0 <=? fd); [|apply W2]. cbn [dw_files]. unfold file_upd. rewrite NQ. apply W2. }
    destruct (fd =? 0) eqn:Z0; [inversion X4; subst; exact W3|].
    apply rbind_done in X4 as (t' & _ & X4). inversion X4; subst w4; clear X4. unfold k_write. cbn [dp_fds].
    assert (FD : fds fd = Some P \/ fds fd = dp_fds p fd /\ fd = -1).
    { unfold k_open in K. destruct pid_ok; [|inversion K; auto].
      destruct (lowest (dp_fds p) 0 (Z.to_nat max)) as [b|]; inversion K; subst; [|auto].
      left. unfold fd_set. rewrite Z.eqb_refl. reflexivity. }
    destruct FD as [E | (E & E1)].
    - rewrite E. cbn [dw_files]. destruct (dw_files w3 P); [|exact W3]. unfold file_upd at 1. rewrite NQ. exact W3.
    - rewrite E. destruct (dp_fds p fd) as [f|] eqn:Ef; [|exact W3]. rewrite Ng in Ef by lia. discriminate. }
  destruct (k_open max null_ok _ _) as [g n] in H. inversion H; subst w'; clear H. cbn [dw_files]. split.
  - unfold file_upd. rewrite name_eqb_refl. reflexivity.
  - intros q Q. unfold file_upd. assert (NQ : name_eqb q P = false) by (apply name_eqb_neq; exact Q). rewrite NQ. apply W4, Q.
Qed.

(** A case: the master started by group leader 100 from a terminal *)
Definition from_tty : dproc := mkD 100 100 50 (Some (str "/dev/pts/1")) (str "/root") 18
  (fun k => if (0 <=? k) && (k <=? 2) then Some (str "/dev/pts/1") else None).
Definition empty_world : dworld := mkW (fun _ => None) [].

(** The return value tells: 0 only in the child of the child, and -1 when a fork failed or setsid
    did, with nothing written *)
Theorem C173_result : forall max f1 f2 pid_ok null_ok prog p w p' w' r,
  daemonize max f1 f2 pid_ok null_ok prog p w = Done (p', w', r) ->
  (r = 0 /\ 0 <= f1 /\ f1 <> dp_pgid p /\ 0 <= f2 /\ dp_pid p' = f2 /\ dp_sid p' = f1 /\ dp_tty p' = None) \/
  (r = -1 /\ w' = w /\ dp_fds p' = dp_fds p /\ (f1 < 0 \/ f1 = dp_pgid p \/ f2 < 0)).
Proof.
  intros * H. unfold daemonize in H. destruct (Z.ltb_spec f1 0) as [L|L].
  { inversion H; subst. right. auto. }
  unfold k_setsid, child in H. cbn [dp_pid dp_pgid dp_sid dp_tty dp_cwd dp_umask dp_fds] in H.
  destruct (Z.eqb_spec f1 (dp_pgid p)) as [E|E].
  { cbn [Z.ltb Z.compare] in H. inversion H; subst. right. cbn [dp_fds]. split; [reflexivity|]. split; [reflexivity|]. split; [reflexivity|]. auto. }
  replace (f1 <? 0) with false in H by lia. destruct (Z.ltb_spec f2 0) as [L2|L2].
  { inversion H; subst. right. cbn [dp_fds]. split; [reflexivity|]. split; [reflexivity|]. split; [reflexivity|]. auto. }
  left. cbn [dp_pid dp_pgid dp_sid dp_tty dp_cwd dp_umask dp_fds] in H.
  apply rbind_done in H as (t & _ & H). cbv zeta in H. apply rbind_done in H as ((p3 & w3) & X & H).
  unfold writepidfile in X. cbv zeta in X. cbn [dp_pid dp_pgid dp_sid dp_tty dp_cwd dp_umask dp_fds] in X.
  destruct (k_open max pid_ok (dp_fds p) (pid_path prog)) as [fds fd]. apply rbind_done in X as (w4 & _ & X).
  inversion X; subst p3 w3; clear X. cbn [dp_pid dp_pgid dp_sid dp_tty dp_cwd dp_umask dp_fds] in H.
  destruct (k_open max null_ok _ _) as [g n] in H. inversion H; subst. cbn [dp_pid dp_sid dp_tty]. repeat split; trivial.
Qed.

(** The return value is not looked at: when a fork fails the master that was told to go to the
    background goes on in the foreground *)
Theorem C173_fork_refuted : forall max f1 f2 a b p w, f1 < 0 ->
  go_background max f1 f2 a b true p w = Done (p, w).
Proof. intros * H. unfold go_background, daemonize. replace (f1 <? 0) with true by lia. reflexivity. Qed.

Example C173_ex : exists p' w', daemonize 1024 101 102 true true (str "opendax") from_tty empty_world = Done (p', w', 0) /\
  dp_pid p' = 102 /\ dp_sid p' = 101 /\
  (dp_fds p' 0 = Some (str "/dev/null")) /\ (dp_fds p' 2 = Some (str "/dev/null")) /\ (dp_fds p' 3 = None) /\
  (dw_out w' = [(str "/dev/pts/1", str "102"); (str "/var/run/opendax", str "102")]) /\
  (dw_files w' (str "/var/run/opendax") = None).
Proof. eexists. eexists. split; [reflexivity|]. repeat split; vm_compute; reflexivity. Qed.
