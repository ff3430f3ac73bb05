(** * MbPortProofs: facts about the functions of MbPort *)
From Verif Require Import Base Const Lib Modbus MbPort.

Lemma upd_same t fd f : upd t fd f fd = f.
Proof. unfold upd. rewrite Z.eqb_refl. reflexivity. Qed.
Lemma upd_other t fd f x : x <> fd -> upd t fd f x = t x.
Proof. intros H. unfold upd. destruct (x =? fd) eqn:E; [lia|reflexivity]. Qed.
Lemma free_spec w fd : free_fd w fd = true <-> 0 <= fd /\ w_fds w fd = None.
Proof.
  unfold free_fd. rewrite andb_true_iff. destruct (w_fds w fd); split; intros H; destruct H; try discriminate; split; try lia; reflexivity.
Qed.

(** the parts of a command that sending leaves alone *)
Definition same_cmd (c c' : cmd) : Prop :=
  c_id c' = c_id c /\ c_enable c' = c_enable c /\ c_cont c' = c_cont c /\ c_addr c' = c_addr c /\ c_port c' = c_port c /\
  c_interval c' = c_interval c /\ c_icount c' = c_icount c.
Lemma same_refl c : same_cmd c c.
Proof. repeat split. Qed.
Lemma same_counted c a b d e f g : same_cmd c (counted c a b d e f g).
Proof. repeat split. Qed.
Lemma same_trans a b c : same_cmd a b -> same_cmd b c -> same_cmd a c.
Proof. unfold same_cmd. intuition congruence. Qed.

Definition closes (p : port) : bool := negb (p_scanning p) && negb (p_persist p).
Lemma maybe_close_spec p w :
  maybe_close p w = if closes p then mkW (upd (w_fds w) (p_fd p) None) (w_log w ++ [Closed (p_fd p) (w_fds w (p_fd p))]) else w.
Proof. unfold maybe_close, closes, k_close, say, set_fd. destruct (_ && _); reflexivity. Qed.

(** what the retry loop does to the log: the requests, then the close *)
Definition sents (n : nat) (c : cmd) (fd : Z) (f : option file) : list act := repeat (Sent (c_id c) fd f) n.
Lemma retry_log k : forall i ts p c w w' c' res, retry k i ts p c w = (w', c', res) ->
  same_cmd c c' /\
  w_fds w' = (if closes p then upd (w_fds w) (p_fd p) None else w_fds w) /\
  exists n, (n <= Datatypes.S k)%nat /\
    w_log w' = w_log w ++ sents n c (p_fd p) (w_fds w (p_fd p)) ++ (if closes p then [Closed (p_fd p) (w_fds w (p_fd p))] else []).
Proof.
  assert (E0 : forall p w c k, w_fds (maybe_close p w) = (if closes p then upd (w_fds w) (p_fd p) None else w_fds w) /\
     exists n, (n <= Datatypes.S k)%nat /\ w_log (maybe_close p w) = w_log w ++ sents n c (p_fd p) (w_fds w (p_fd p)) ++ (if closes p then [Closed (p_fd p) (w_fds w (p_fd p))] else [])).
  { intros. rewrite maybe_close_spec. destruct (closes p); cbn [w_fds w_log]; split; try reflexivity; exists 0%nat; (split; [lia|]); cbn; [reflexivity|rewrite app_nil_r; reflexivity]. }
  assert (E1 : forall p w c k, let w1 := say w (Sent (c_id c) (p_fd p) (w_fds w (p_fd p))) in
     w_fds (maybe_close p w1) = (if closes p then upd (w_fds w) (p_fd p) None else w_fds w) /\
     exists n, (n <= Datatypes.S k)%nat /\ w_log (maybe_close p w1) = w_log w ++ sents n c (p_fd p) (w_fds w (p_fd p)) ++ (if closes p then [Closed (p_fd p) (w_fds w (p_fd p))] else [])).
  { intros. subst w1. rewrite maybe_close_spec. destruct (closes p); cbn [w_fds w_log say]; split; try reflexivity; exists 1%nat; (split; [lia|]); cbn;
      rewrite <- ?app_assoc; reflexivity. }
  induction k as [|k IH]; intros i ts p c w w' c' res H; cbn [retry] in H; cbv zeta in H.
  - destruct (written_to _ _ =? 0); [injection H as <- <- <-; split; [apply same_refl|apply E0]|].
    destruct (written_to _ _ <? 0); [injection H as <- <- <-; split; [apply same_counted|apply E1]|].
    destruct (0 <? got_from _ _); [injection H as <- <- <-; split; [destruct (0 <? t_code _); apply same_counted|apply E1]|].
    injection H as <- <- <-. split; [destruct (_ =? 0); apply same_counted|apply E1].
  - destruct (written_to _ _ =? 0); [injection H as <- <- <-; split; [apply same_refl|apply E0]|].
    destruct (written_to _ _ <? 0); [injection H as <- <- <-; split; [apply same_counted|apply E1]|].
    destruct (0 <? got_from _ _); [injection H as <- <- <-; split; [destruct (0 <? t_code _); apply same_counted|apply E1]|].
    apply IH in H. destruct H as (Hs & Hf & n & Hn & Hl). split.
    { eapply same_trans; [|exact Hs]. destruct (_ =? 0); apply same_counted. }
    split; [exact Hf|]. exists (Datatypes.S n). split; [lia|].
    rewrite Hl. cbn [w_log w_fds say sents repeat]. rewrite <- app_assoc. cbn.
    replace (sents n _ (p_fd p) (w_fds w (p_fd p))) with (sents n c (p_fd p) (w_fds w (p_fd p))) by (destruct (got_from _ _ =? 0); reflexivity). reflexivity.
Qed.

(** the two stages of mb_send_command *)
Definition got_conn (p : port) (c : cmd) (r : connres) (w : world) (p1 : port) (w1 : world) : Prop :=
  (p_tcp p = true /\ exists p0 fd, get_connection p (c_addr c) (c_port c) r w = Done (p0, w1, fd) /\ p1 = with_pfd p0 fd) \/
  (p_tcp p = false /\ p1 = p /\ w1 = w).
Lemma send_cases p c r ts w p' c' w' res : send_command p c r ts w = Done (p', c', w', res) ->
  (c_enable c = false /\ p' = p /\ c' = c /\ w' = say w (Called (c_id c)) /\ res = 0) \/
  (c_enable c = true /\ exists w1, got_conn p c r (say w (Called (c_id c))) p' w1 /\
    ((p_tcp p' && (p_fd p' <? 0) = true /\ c' = c /\ w' = say w1 (Ended (c_id c) false) /\ res = MB_ERR_OPEN) \/
     (p_tcp p' && (p_fd p' <? 0) = false /\ exists w2, retry (Z.to_nat (p_retries p')) 0 ts p' c w1 = (w2, c', res) /\
        w' = say w2 (Ended (c_id c) (0 <? res))))).
Proof.
  unfold send_command. destruct (c_enable c) eqn:En; cbn [negb].
  2: { intros [= <- <- <- <-]. left. repeat split. }
  intros H. right. split; [reflexivity|]. cbv zeta in H.
  assert (G : exists p1 w1, got_conn p c r (say w (Called (c_id c))) p1 w1 /\
    (if p_tcp p1 && (p_fd p1 <? 0) then Done (p1, c, say w1 (Ended (c_id c) false), MB_ERR_OPEN)
     else let '(w2, c2, res) := retry (Z.to_nat (p_retries p1)) 0 ts p1 c w1 in Done (p1, c2, say w2 (Ended (c_id c2) (0 <? res)), res)) = Done (p', c', w', res)).
  { destruct (p_tcp p) eqn:Et; cbn [rbind] in H.
    - destruct (get_connection _ _ _ _ _) as [[[p0 w1] fd]|u] eqn:G; cbn [rbind] in H; [|discriminate].
      exists (with_pfd p0 fd), w1. split; [left; split; [exact Et|]; exists p0, fd; split; [exact G|reflexivity]|exact H].
    - exists p, (say w (Called (c_id c))). split; [right; repeat split; exact Et|exact H]. }
  clear H. destruct G as (p1 & w1 & G & H). destruct (p_tcp p1 && (p_fd p1 <? 0)) eqn:Eb.
  - injection H as <- <- <- <-. exists w1. split; [exact G|]. left. repeat split; assumption.
  - destruct (retry _ _ _ _ _ _) as [[w2 c2] res2] eqn:R. injection H as <- <- <- <-. exists w1. split; [exact G|]. right. split; [exact Eb|].
    exists w2. split; [exact R|]. apply retry_log in R. destruct R as ((-> & _) & _). reflexivity.
Qed.
Lemma get_conn_port p a q r w p0 w1 fd : get_connection p a q r w = Done (p0, w1, fd) ->
  p_tcp p0 = p_tcp p /\ p_persist p0 = p_persist p /\ p_scanning p0 = p_scanning p /\ p_enable p0 = p_enable p /\ p_retries p0 = p_retries p /\
  p_maxatt p0 = p_maxatt p /\ p_attempt p0 = p_attempt p /\ p_inhibit p0 = p_inhibit p /\ p_itime p0 = p_itime p /\ w_log w1 = w_log w.
Proof.
  unfold get_connection. intros H. destruct (find_conn _ _ _); [injection H as <- <- <-; repeat split|].
  destruct r as [|f|f]; [injection H as <- <- <-; repeat split| |].
  - injection H as <- <- <-. destruct (free_fd w f); repeat split.
  - destruct (free_fd w f); [|injection H as <- <- <-; repeat split].
    destruct (unused_connection p) as [n size]. destruct (put_conn _ _ _); cbn [rbind] in H; [|discriminate].
    injection H as <- <- <-. repeat split.
Qed.
Lemma got_conn_port p c r w p1 w1 : got_conn p c r w p1 w1 ->
  p_tcp p1 = p_tcp p /\ p_persist p1 = p_persist p /\ p_scanning p1 = p_scanning p /\ p_enable p1 = p_enable p /\ p_retries p1 = p_retries p /\
  p_maxatt p1 = p_maxatt p /\ p_attempt p1 = p_attempt p /\ p_inhibit p1 = p_inhibit p /\ p_itime p1 = p_itime p /\ w_log w1 = w_log w.
Proof.
  intros [(T & p0 & fd & G & ->)|(T & -> & ->)]; [|repeat split].
  apply get_conn_port in G. exact G.
Qed.
Lemma send_frame p c r ts w p' c' w' res : send_command p c r ts w = Done (p', c', w', res) ->
  same_cmd c c' /\ p_tcp p' = p_tcp p /\ p_persist p' = p_persist p /\ p_scanning p' = p_scanning p /\ p_enable p' = p_enable p /\ p_retries p' = p_retries p /\
  p_maxatt p' = p_maxatt p /\ p_attempt p' = p_attempt p /\ p_inhibit p' = p_inhibit p /\ p_itime p' = p_itime p.
Proof.
  intros H. apply send_cases in H. destruct H as [(En & -> & -> & -> & ->)|(En & w1 & G & H)]; [repeat split|].
  apply got_conn_port in G. assert (same_cmd c c').
  { destruct H as [(_ & -> & _)|(_ & w2 & R & _)]; [apply same_refl|]. apply retry_log in R. apply R. }
  intuition.
Qed.
(** the log of a command: the call, the requests, the close, the end *)
Lemma send_log p c r ts w p' c' w' res : c_enable c = true -> send_command p c r ts w = Done (p', c', w', res) ->
  exists l, w_log w' = w_log w ++ Called (c_id c) :: l ++ [Ended (c_id c) (0 <? res)] /\
    Forall (fun a => match a with Sent i fd _ => i = c_id c /\ fd = p_fd p' | Closed fd _ => fd = p_fd p' /\ closes p = true | _ => False end) l.
Proof.
  intros En H. apply send_cases in H. destruct H as [(E & _)|(_ & w1 & G & H)]; [congruence|].
  assert (GL := G). apply got_conn_port in GL. destruct GL as (_ & Ep & Es & _ & _ & _ & _ & _ & _ & GL). cbn [w_log say] in GL.
  destruct H as [(_ & -> & -> & ->)|(_ & w2 & R & ->)].
  - exists []. split; [|constructor]. cbn [w_log say]. rewrite GL, <- app_assoc. reflexivity.
  - apply retry_log in R. destruct R as (_ & _ & n & _ & R). cbn [w_log say]. rewrite R, GL, <- !app_assoc. cbn.
    eexists. split; [rewrite app_assoc; reflexivity|].
    replace (closes p') with (closes p) by (unfold closes; rewrite Ep, Es; reflexivity).
    apply Forall_app. split.
    + unfold sents. apply Forall_forall. intros a Ha. apply repeat_spec in Ha. subst a. split; reflexivity.
    + destruct (closes p); [constructor; [split; reflexivity|constructor]|constructor].
Qed.
Lemma close_port_persist p w : p_persist (fst (close_port p w)) = p_persist p.
Proof. unfold close_port. destruct (p_tcp p); reflexivity. Qed.
