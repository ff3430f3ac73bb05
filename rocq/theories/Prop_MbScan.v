(** * C112, C113, C114: retries, scan intervals and failures of a Modbus master *)
From Verif Require Import Base Const Lib Modbus MbPort MbPortProofs.

(** ** C112: how often a command is sent *)
(** a round of the retry loop on a descriptor that refers to [f]: nothing to send, a failed write, a valid message, neither *)
Definition dead (f : option file) : Prop := exists a q, f = Some (Conn a q false).
Definition nothing (t : try) : Prop := t_write t = 0.
Definition broken (f : option file) (t : try) : Prop := t_write t <> 0 /\ (f = None \/ t_write t < 0).
Definition reply (f : option file) (t : try) : Prop := f <> None /\ 0 < t_write t /\ 0 < t_got t /\ ~ dead f.
Definition silence (f : option file) (t : try) : Prop := f <> None /\ 0 < t_write t /\ (t_got t <= 0 \/ dead f).
Definition is_sent (a : act) : bool := match a with Sent _ _ _ => true | _ => false end.
Definition sent (l : list act) : Z := zlen (filter is_sent l).
Definition cong (a b : Z) : Prop := a mod 4294967296 = b mod 4294967296.
(** what the retry loop comes to after [n] requests, the rounds starting at [i] *)
Definition ends (f : option file) (ts : nat -> try) (i : nat) (k n : nat) (c c' : cmd) (res : Z) : Prop :=
  (forall j, (Datatypes.S j < n)%nat -> silence f (ts (i + j)%nat)) /\
  ((n = Datatypes.S k /\ silence f (ts (i + k)%nat) /\ (res = -8 \/ res = -4) /\ c_lasterror c' = - res /\
      cong (c_responses c') (c_responses c) /\ cong (c_timeouts c' + c_crcerrors c') (c_timeouts c + c_crcerrors c + Z.of_nat n)) \/
   (exists m, n = Datatypes.S m /\ (m <= k)%nat /\ reply f (ts (i + m)%nat) /\ res = t_got (ts (i + m)%nat) /\
      c_lasterror c' = (if 0 <? t_code (ts (i + m)%nat) then u8 (Z.lor (t_code (ts (i + m)%nat)) 128) else 0) /\
      cong (c_responses c') (c_responses c + 1) /\ cong (c_timeouts c' + c_crcerrors c') (c_timeouts c + c_crcerrors c + Z.of_nat m)) \/
   (exists m, n = Datatypes.S m /\ (m <= k)%nat /\ broken f (ts (i + m)%nat) /\ res = -1 /\ (m = 0%nat -> c_lasterror c' = c_lasterror c) /\
      cong (c_responses c') (c_responses c) /\ cong (c_timeouts c' + c_crcerrors c') (c_timeouts c + c_crcerrors c + Z.of_nat m)) \/
   ((n <= k)%nat /\ (forall j, Datatypes.S j = n -> silence f (ts (i + j)%nat)) /\ nothing (ts (i + n)%nat) /\ res = 0 /\ (n = 0%nat -> c_lasterror c' = c_lasterror c) /\
      cong (c_responses c') (c_responses c) /\ cong (c_timeouts c' + c_crcerrors c') (c_timeouts c + c_crcerrors c + Z.of_nat n))) /\
  cong (c_requests c') (c_requests c + Z.of_nat n).

Lemma cong_u32 a b : cong a b -> cong (u32 a) b.
Proof. unfold cong, u32. intros H. rewrite Z.mod_mod by lia. exact H. Qed.
Lemma got_dead f t : 0 < got_from f t -> 0 < t_got t /\ ~ dead f /\ got_from f t = t_got t.
Proof.
  unfold got_from, dead. intros H. destruct f as [[a q [] | | |]|]; try (split; [exact H|split; [intros (? & ? & [=])|reflexivity]]). lia.
Qed.
Lemma got_silent f t : got_from f t <= 0 -> t_got t <= 0 \/ dead f.
Proof. unfold got_from, dead. intros H. destruct f as [[a q [] | | |]|]; try (left; lia). right. eauto. Qed.
Lemma written_pos f t : 0 < written_to f t -> f <> None /\ 0 < t_write t.
Proof. unfold written_to. destruct (t_write t =? 0) eqn:E; [lia|]. destruct f; [split; [congruence|lia]|lia]. Qed.
Lemma written_neg f t : written_to f t < 0 -> t_write t <> 0 /\ (f = None \/ t_write t < 0).
Proof. unfold written_to. destruct (t_write t =? 0) eqn:E; [lia|]. destruct f; [split; [lia|right; lia]|split; [lia|left; reflexivity]]. Qed.
Lemma written_0 f t : written_to f t = 0 -> t_write t = 0.
Proof. unfold written_to. destruct (t_write t =? 0) eqn:E; [lia|]. destruct f; lia. Qed.

Lemma retry_ends k : forall i ts p c w w' c' res, retry k i ts p c w = (w', c', res) ->
  exists n, ends (w_fds w (p_fd p)) ts i k n c c' res /\
    w_log w' = w_log w ++ sents n c (p_fd p) (w_fds w (p_fd p)) ++ (if closes p then [Closed (p_fd p) (w_fds w (p_fd p))] else []).
Proof.
  induction k as [|k IH]; intros i ts p c w w' c' res H; cbn [retry] in H; cbv zeta in H;
    remember (w_fds w (p_fd p)) as f eqn:Ef; remember (ts i) as t eqn:Et.
  - destruct (written_to f t =? 0) eqn:E0.
    { injection H as <- <- <-. exists 0%nat. split; [|rewrite maybe_close_spec; destruct (closes p); cbn; rewrite <- ?Ef, ?app_nil_r; reflexivity].
      split; [intros; lia|]. split; [right; right; right|unfold cong; f_equal; lia].
      split; [lia|]. split; [intros; lia|]. rewrite Nat.add_0_r, <- Et. split; [apply (written_0 f); lia|]. repeat split; unfold cong; f_equal; lia. }
    destruct (written_to f t <? 0) eqn:E1.
    { injection H as <- <- <-. exists 1%nat. split; [|rewrite maybe_close_spec; destruct (closes p); cbn; rewrite <- ?Ef, <- ?app_assoc; reflexivity].
      split; [intros; lia|]. split; [right; right; left; exists 0%nat|cbn; apply cong_u32; reflexivity].
      split; [reflexivity|]. split; [lia|]. rewrite Nat.add_0_r, <- Et. split; [apply written_neg; lia|]. split; [reflexivity|]. split; [reflexivity|].
      cbn. unfold cong, u32. split; [rewrite Z.add_0_r; apply Z.mod_mod; lia|]. rewrite <- Zplus_mod. f_equal. lia. }
    destruct (0 <? got_from f t) eqn:E2.
    { injection H as <- <- <-. exists 1%nat. split; [|rewrite maybe_close_spec; destruct (closes p); cbn; rewrite <- ?Ef, <- ?app_assoc; reflexivity].
      split; [intros; lia|]. destruct (got_dead f t) as (G1 & G2 & G3); [lia|]. destruct (written_pos f t) as (W1 & W2); [lia|].
      split; [right; left; exists 0%nat|destruct (0 <? t_code t); cbn; apply cong_u32; reflexivity].
      split; [reflexivity|]. split; [lia|]. rewrite Nat.add_0_r, <- Et. split; [repeat split; assumption|]. split; [exact G3|].
      destruct (0 <? t_code t); (split; [reflexivity|]); cbn; unfold cong, u32; (split; [apply Z.mod_mod; lia|]); rewrite <- Zplus_mod; f_equal; lia. }
    injection H as <- <- <-. exists 1%nat. split; [|rewrite maybe_close_spec; destruct (got_from f t =? 0); destruct (closes p); cbn; rewrite <- ?Ef, <- ?app_assoc; reflexivity].
    destruct (written_pos f t) as (W1 & W2); [lia|]. assert (Si : silence f t) by (repeat split; try assumption; apply got_silent; lia).
    split; [intros; lia|]. split; [left|destruct (got_from f t =? 0); cbn; apply cong_u32; reflexivity].
    split; [reflexivity|]. rewrite Nat.add_0_r, <- Et. split; [exact Si|].
    destruct (got_from f t =? 0); cbn; unfold ME_TIMEOUT; (split; [tauto|]); (split; [reflexivity|]); unfold cong, u32; (split; [rewrite Z.add_0_r; apply Z.mod_mod; lia|]);
      rewrite <- Zplus_mod; f_equal; lia.
  - destruct (written_to f t =? 0) eqn:E0.
    { injection H as <- <- <-. exists 0%nat. split; [|rewrite maybe_close_spec; destruct (closes p); cbn; rewrite <- ?Ef, ?app_nil_r; reflexivity].
      split; [intros; lia|]. split; [right; right; right|unfold cong; f_equal; lia].
      split; [lia|]. split; [intros; lia|]. rewrite Nat.add_0_r, <- Et. split; [apply (written_0 f); lia|]. repeat split; unfold cong; f_equal; lia. }
    destruct (written_to f t <? 0) eqn:E1.
    { injection H as <- <- <-. exists 1%nat. split; [|rewrite maybe_close_spec; destruct (closes p); cbn; rewrite <- ?Ef, <- ?app_assoc; reflexivity].
      split; [intros; lia|]. split; [right; right; left; exists 0%nat|cbn; apply cong_u32; reflexivity].
      split; [reflexivity|]. split; [lia|]. rewrite Nat.add_0_r, <- Et. split; [apply written_neg; lia|]. split; [reflexivity|]. split; [reflexivity|].
      cbn. unfold cong, u32. split; [rewrite Z.add_0_r; apply Z.mod_mod; lia|]. rewrite <- Zplus_mod. f_equal. lia. }
    destruct (0 <? got_from f t) eqn:E2.
    { injection H as <- <- <-. exists 1%nat. split; [|rewrite maybe_close_spec; destruct (closes p); cbn; rewrite <- ?Ef, <- ?app_assoc; reflexivity].
      split; [intros; lia|]. destruct (got_dead f t) as (G1 & G2 & G3); [lia|]. destruct (written_pos f t) as (W1 & W2); [lia|].
      split; [right; left; exists 0%nat|destruct (0 <? t_code t); cbn; apply cong_u32; reflexivity].
      split; [reflexivity|]. split; [lia|]. rewrite Nat.add_0_r, <- Et. split; [repeat split; assumption|]. split; [exact G3|].
      destruct (0 <? t_code t); (split; [reflexivity|]); cbn; unfold cong, u32; (split; [apply Z.mod_mod; lia|]); rewrite <- Zplus_mod; f_equal; lia. }
    destruct (written_pos f t) as (W1 & W2); [lia|]. assert (Si : silence f t) by (repeat split; try assumption; apply got_silent; lia).
    remember (if got_from f t =? 0 then _ else _) as c1 eqn:Ec1.
    assert (C1 : cong (c_requests c1) (c_requests c + 1) /\ cong (c_responses c1) (c_responses c) /\ cong (c_timeouts c1 + c_crcerrors c1) (c_timeouts c + c_crcerrors c + 1) /\ c_id c1 = c_id c).
    { subst c1. destruct (got_from f t =? 0); cbn; unfold cong, u32; (split; [apply Z.mod_mod; lia|]); (split; [rewrite Z.add_0_r; apply Z.mod_mod; lia|]); (split; [|reflexivity]);
        rewrite <- Zplus_mod; f_equal; lia. }
    destruct C1 as (C1 & C2 & C3 & C4).
    assert (Tr : forall a b x y z, cong a (b + z) -> cong b (x + y) -> cong a (x + y + z)).
    { unfold cong. intros a b x y z Ha Hb. rewrite Ha, Zplus_mod, Hb, <- Zplus_mod. reflexivity. }
    apply IH in H. destruct H as (n & (Hs & Hc & Hr) & Hl). cbn [w_fds say] in Hs, Hc, Hl. rewrite <- Ef in Hs, Hc, Hl.
    exists (Datatypes.S n). split.
    2: { rewrite Hl. cbn [w_log say]. rewrite <- app_assoc. cbn. unfold sents. rewrite C4. reflexivity. }
    split.
    { intros j Hj. destruct j as [|j]; [rewrite Nat.add_0_r, <- Et; exact Si|]. replace (i + Datatypes.S j)%nat with (Datatypes.S i + j)%nat by lia. apply Hs. lia. }
    split; [|replace (c_requests c + Z.of_nat (Datatypes.S n)) with (c_requests c + 1 + Z.of_nat n) by lia; apply (Tr _ _ _ _ _ Hr C1)].
    assert (R0 : forall x, cong x (c_responses c1) -> cong x (c_responses c)) by (unfold cong in *; congruence).
    assert (T0 : forall x m, cong x (c_timeouts c1 + c_crcerrors c1 + m) -> cong x (c_timeouts c + c_crcerrors c + 1 + m)).
    { intros x m Hx. apply (Tr _ _ _ _ _ Hx C3). }
    destruct Hc as [(-> & Hc & Hres & Hle & Ha & Hb)|[(m & -> & Hm & Hc & Hres & Hle & Ha & Hb)|[(m & -> & Hm & Hc & Hres & Hle & Ha & Hb)|(Hn & Hp & Hc & Hres & Hle & Ha & Hb)]]].
    + left. split; [reflexivity|]. replace (i + Datatypes.S k)%nat with (Datatypes.S i + k)%nat by lia. split; [exact Hc|]. split; [exact Hres|]. split; [exact Hle|].
      split; [apply R0; exact Ha|]. apply T0 in Hb. unfold cong in *. rewrite Hb. f_equal. lia.
    + right. left. exists (Datatypes.S m). split; [reflexivity|]. split; [lia|]. replace (i + Datatypes.S m)%nat with (Datatypes.S i + m)%nat by lia.
      split; [exact Hc|]. split; [exact Hres|]. split; [exact Hle|].
      split; [unfold cong in *; rewrite Ha, Zplus_mod, C2, <- Zplus_mod; reflexivity|]. apply T0 in Hb. unfold cong in *. rewrite Hb. f_equal. lia.
    + right. right. left. exists (Datatypes.S m). split; [reflexivity|]. split; [lia|]. replace (i + Datatypes.S m)%nat with (Datatypes.S i + m)%nat by lia.
      split; [exact Hc|]. split; [exact Hres|]. split; [discriminate|]. split; [apply R0; exact Ha|]. apply T0 in Hb. unfold cong in *. rewrite Hb. f_equal. lia.
    + right. right. right. split; [lia|]. split.
      { intros j [= Hj]. subst j. destruct n as [|n]; [rewrite Nat.add_0_r, <- Et; exact Si|]. replace (i + Datatypes.S n)%nat with (Datatypes.S i + n)%nat by lia. apply Hp. reflexivity. }
      replace (i + Datatypes.S n)%nat with (Datatypes.S i + n)%nat by lia. split; [exact Hc|]. split; [exact Hres|]. split; [discriminate|]. split; [apply R0; exact Ha|].
      apply T0 in Hb. unfold cong in *. rewrite Hb. f_equal. lia.
Qed.

(** A call of mb_send_command for an enabled command: either there is no connection, or all requests go to the same descriptor;
    they stop at the first message received, and there are at most [retries] + 1 of them; the counters of the command account for
    every request. *)
Theorem C112_tries : forall p c r ts w p' c' w' res, c_enable c = true -> 0 <= p_retries p ->
  send_command p c r ts w = Done (p', c', w', res) ->
  exists l, w_log w' = w_log w ++ l /\ sent l <= p_retries p + 1 /\
    ((p_tcp p = true /\ res = MB_ERR_OPEN /\ sent l = 0 /\ c' = c) \/
     exists f n, ends f ts 0 (Z.to_nat (p_retries p)) n c c' res /\ sent l = Z.of_nat n /\
       (forall id fd g, In (Sent id fd g) l -> id = c_id c /\ fd = p_fd p' /\ g = f) /\ In (Ended (c_id c) (0 <? res)) l).
Proof.
  intros p c r ts w p' c' w' res En Hr H. apply send_cases in H. destruct H as [(E & _)|(_ & w1 & G & H)]; [congruence|].
  apply got_conn_port in G. destruct G as (GT & GP & _ & _ & GR & _ & _ & _ & _ & GL). cbn [w_log say] in GL.
  destruct H as [(Eb & -> & -> & ->)|(Eb & w2 & R & ->)].
  - exists [Called (c_id c); Ended (c_id c) false]. split; [cbn [w_log say]; rewrite GL, <- app_assoc; reflexivity|]. split; [unfold sent; cbn; unfold zlen; cbn; lia|].
    left. split; [apply andb_true_iff in Eb; rewrite <- GT; tauto|]. repeat split.
  - rewrite GR in R. apply retry_ends in R. destruct R as (n & E & L).
    exists (Called (c_id c) :: sents n c (p_fd p') (w_fds w1 (p_fd p')) ++ (if closes p' then [Closed (p_fd p') (w_fds w1 (p_fd p'))] else []) ++ [Ended (c_id c) (0 <? res)]).
    assert (Sn : sent (Called (c_id c) :: sents n c (p_fd p') (w_fds w1 (p_fd p')) ++ (if closes p' then [Closed (p_fd p') (w_fds w1 (p_fd p'))] else []) ++ [Ended (c_id c) (0 <? res)]) = Z.of_nat n).
    { unfold sent. cbn [filter is_sent]. rewrite filter_app. unfold zlen. rewrite app_length.
      replace (length (filter is_sent (sents n c (p_fd p') (w_fds w1 (p_fd p'))))) with n by (unfold sents; clear; induction n; cbn; congruence).
      destruct (closes p'); cbn; lia. }
    split; [cbn [w_log say]; rewrite L, GL, <- !app_assoc; cbn; rewrite <- ?app_assoc; reflexivity|]. rewrite Sn. split.
    + destruct E as (_ & E & _). destruct E as [(-> & _)|[(m & -> & Hm & _)|[(m & -> & Hm & _)|(Hm & _)]]]; lia.
    + right. exists (w_fds w1 (p_fd p')), n. split; [exact E|]. split; [reflexivity|]. split.
      * intros id fd g Hin. destruct Hin as [Hin|Hin]; [discriminate|]. apply in_app_or in Hin. destruct Hin as [Hin|Hin]; [apply repeat_spec in Hin; injection Hin as -> -> ->; repeat split|].
        apply in_app_or in Hin. destruct Hin as [Hin|[Hin|[]]]; [|discriminate]. destruct (closes p'); [destruct Hin as [Hin|[]]; discriminate|destruct Hin].
      * right. apply in_or_app. right. apply in_or_app. right. left. reflexivity.
Qed.

(** Each counter on its own: timeouts are rounds in which nothing came, checksum errors those in which something invalid came,
    exceptions are answers with an exception code *)
Definition quiet (f : option file) (t : try) : bool :=
  (0 <? t_write t) && match f with None => false | Some (Conn _ _ false) => 0 <=? t_got t | Some _ => t_got t =? 0 end.
Definition garbled (f : option file) (t : try) : bool := (0 <? t_write t) && match f with None => false | Some _ => t_got t <? 0 end.
Definition refused (f : option file) (t : try) : bool :=
  (0 <? t_write t) && match f with None | Some (Conn _ _ false) => false | Some _ => 0 <? t_got t end && (0 <? t_code t).
Definition tally (P : try -> bool) (ts : nat -> try) (i n : nat) : Z := Z.of_nat (length (filter (fun j => P (ts j)) (seq i n))).
Definition tallied (f : option file) (ts : nat -> try) (i n : nat) (c c' : cmd) : Prop :=
  cong (c_timeouts c') (c_timeouts c + tally (quiet f) ts i n) /\ cong (c_crcerrors c') (c_crcerrors c + tally (garbled f) ts i n) /\
  cong (c_exceptions c') (c_exceptions c + tally (refused f) ts i n).
Lemma tally_S P ts i n : tally P ts i (Datatypes.S n) = (if P (ts i) then 1 else 0) + tally P ts (Datatypes.S i) n.
Proof. unfold tally. cbn [seq filter]. destruct (P (ts i)); cbn [length]; lia. Qed.
Lemma tally_1 P ts i : tally P ts i 1 = if P (ts i) then 1 else 0.
Proof. rewrite tally_S. unfold tally. cbn. lia. Qed.
Lemma tallied_step f ts i n c c1 c' :
  cong (c_timeouts c1) (c_timeouts c + (if quiet f (ts i) then 1 else 0)) -> cong (c_crcerrors c1) (c_crcerrors c + (if garbled f (ts i) then 1 else 0)) ->
  cong (c_exceptions c1) (c_exceptions c + (if refused f (ts i) then 1 else 0)) -> tallied f ts (Datatypes.S i) n c1 c' -> tallied f ts i (Datatypes.S n) c c'.
Proof.
  unfold tallied, cong. intros A B C (A1 & B1 & C1). rewrite !tally_S, A1, B1, C1. rewrite !Z.add_assoc. split; [|split]; rewrite Zplus_mod, A || rewrite Zplus_mod, B || rewrite Zplus_mod, C; rewrite <- Zplus_mod; reflexivity.
Qed.
Lemma tallied_0 f ts i c : tallied f ts i 0 c c.
Proof. unfold tallied, tally, cong. cbn. rewrite !Z.add_0_r. auto. Qed.
Lemma retry_tally k : forall i ts p c w w' c' res, retry k i ts p c w = (w', c', res) ->
  exists n, tallied (w_fds w (p_fd p)) ts i n c c' /\
    w_log w' = w_log w ++ sents n c (p_fd p) (w_fds w (p_fd p)) ++ (if closes p then [Closed (p_fd p) (w_fds w (p_fd p))] else []).
Proof.
  assert (M : forall x, cong (u32 x) x) by (intros x; unfold cong, u32; apply Z.mod_mod; lia).
  assert (B : forall f t m, written_to f t =? 0 = false -> (written_to f t <? 0) = false -> got_from f t = m ->
    quiet f t = (m =? 0) /\ garbled f t = (m <? 0) /\ refused f t = (0 <? m) && (0 <? t_code t)).
  { intros f t m H0 H1 <-. destruct (written_pos f t) as (W1 & W2); [lia|]. unfold quiet, garbled, refused, got_from.
    replace (0 <? t_write t) with true by lia. destruct f as [[a q [] | | |]|]; try congruence; cbn [andb]; repeat split; try reflexivity; try lia. }
  assert (B0 : forall f t, (written_to f t <? 0) = true -> quiet f t = false /\ garbled f t = false /\ refused f t = false).
  { intros f t H. destruct (written_neg f t) as (W1 & [-> | W2]); [lia| |]; unfold quiet, garbled, refused; [destruct (0 <? t_write t); repeat split|].
    replace (0 <? t_write t) with false by lia. repeat split. }
  induction k as [|k IH]; intros i ts p c w w' c' res H; cbn [retry] in H; cbv zeta in H;
    remember (w_fds w (p_fd p)) as f eqn:Ef.
  - destruct (written_to f (ts i) =? 0) eqn:E0.
    { injection H as <- <- <-. exists 0%nat. split; [apply tallied_0|rewrite maybe_close_spec; destruct (closes p); cbn; rewrite <- ?Ef, ?app_nil_r; reflexivity]. }
    destruct (written_to f (ts i) <? 0) eqn:E1.
    { injection H as <- <- <-. exists 1%nat. destruct (B0 f (ts i) E1) as (Q1 & Q2 & Q3).
      split; [|rewrite maybe_close_spec; destruct (closes p); cbn; rewrite <- ?Ef, <- ?app_assoc; reflexivity].
      eapply tallied_step; [..|apply tallied_0]; rewrite ?Q1, ?Q2, ?Q3; apply M. }
    destruct (B f (ts i) _ E0 E1 eq_refl) as (Q1 & Q2 & Q3).
    destruct (0 <? got_from f (ts i)) eqn:E2.
    { injection H as <- <- <-. exists 1%nat.
      split; [|rewrite maybe_close_spec; destruct (closes p); cbn; rewrite <- ?Ef, <- ?app_assoc; reflexivity].
      eapply tallied_step; [..|apply tallied_0]; rewrite ?Q1, ?Q2, ?Q3; replace (got_from f (ts i) =? 0) with false by lia; replace (got_from f (ts i) <? 0) with false by lia;
        cbn [andb]; destruct (0 <? t_code (ts i)); apply M. }
    injection H as <- <- <-. exists 1%nat. split; [|rewrite maybe_close_spec; destruct (got_from f (ts i) =? 0); destruct (closes p); cbn; rewrite <- ?Ef, <- ?app_assoc; reflexivity].
    eapply tallied_step; [..|apply tallied_0]; rewrite ?Q1, ?Q2, ?Q3; cbn [andb]; destruct (got_from f (ts i) =? 0) eqn:E3;
      try replace (got_from f (ts i) <? 0) with true by lia; try replace (got_from f (ts i) <? 0) with false by lia; apply M.
  - destruct (written_to f (ts i) =? 0) eqn:E0.
    { injection H as <- <- <-. exists 0%nat. split; [apply tallied_0|rewrite maybe_close_spec; destruct (closes p); cbn; rewrite <- ?Ef, ?app_nil_r; reflexivity]. }
    destruct (written_to f (ts i) <? 0) eqn:E1.
    { injection H as <- <- <-. exists 1%nat. destruct (B0 f (ts i) E1) as (Q1 & Q2 & Q3).
      split; [|rewrite maybe_close_spec; destruct (closes p); cbn; rewrite <- ?Ef, <- ?app_assoc; reflexivity].
      eapply tallied_step; [..|apply tallied_0]; rewrite ?Q1, ?Q2, ?Q3; apply M. }
    destruct (B f (ts i) _ E0 E1 eq_refl) as (Q1 & Q2 & Q3).
    destruct (0 <? got_from f (ts i)) eqn:E2.
    { injection H as <- <- <-. exists 1%nat.
      split; [|rewrite maybe_close_spec; destruct (closes p); cbn; rewrite <- ?Ef, <- ?app_assoc; reflexivity].
      eapply tallied_step; [..|apply tallied_0]; rewrite ?Q1, ?Q2, ?Q3; replace (got_from f (ts i) =? 0) with false by lia; replace (got_from f (ts i) <? 0) with false by lia;
        cbn [andb]; destruct (0 <? t_code (ts i)); apply M. }
    apply IH in H. destruct H as (n & T & L). exists (Datatypes.S n). cbn [w_fds say] in T, L. rewrite <- Ef in T, L. split.
    + eapply tallied_step; [..|exact T]; rewrite ?Q1, ?Q2, ?Q3; cbn [andb]; destruct (got_from f (ts i) =? 0) eqn:E3;
        try replace (got_from f (ts i) <? 0) with true by lia; try replace (got_from f (ts i) <? 0) with false by lia; apply M.
    + rewrite L. cbn [w_log say]. rewrite <- app_assoc. cbn. unfold sents. destruct (got_from f (ts i) =? 0); reflexivity.
Qed.
Theorem C112_counters : forall p c r ts w p' c' w' res, c_enable c = true -> send_command p c r ts w = Done (p', c', w', res) ->
  exists l, w_log w' = w_log w ++ l /\
    ((res = MB_ERR_OPEN /\ sent l = 0 /\ c' = c) \/
     exists f n, sent l = Z.of_nat n /\ (forall id fd g, In (Sent id fd g) l -> g = f) /\ tallied f ts 0 n c c').
Proof.
  intros p c r ts w p' c' w' res En H. apply send_cases in H. destruct H as [(E & _)|(_ & w1 & G & H)]; [congruence|].
  apply got_conn_port in G. destruct G as (GT & GP & _ & _ & GR & _ & _ & _ & _ & GL). cbn [w_log say] in GL.
  destruct H as [(Eb & -> & -> & ->)|(Eb & w2 & R & ->)].
  - exists [Called (c_id c); Ended (c_id c) false]. split; [cbn [w_log say]; rewrite GL, <- app_assoc; reflexivity|]. left. repeat split.
  - apply retry_tally in R. destruct R as (n & E & L).
    exists (Called (c_id c) :: sents n c (p_fd p') (w_fds w1 (p_fd p')) ++ (if closes p' then [Closed (p_fd p') (w_fds w1 (p_fd p'))] else []) ++ [Ended (c_id c) (0 <? res)]).
    split; [cbn [w_log say]; rewrite L, GL, <- !app_assoc; cbn; rewrite <- ?app_assoc; reflexivity|]. right. exists (w_fds w1 (p_fd p')), n. split; [|split; [|exact E]].
    + unfold sent. cbn [filter is_sent]. rewrite filter_app. unfold zlen. rewrite app_length.
      replace (length (filter is_sent (sents n c (p_fd p') (w_fds w1 (p_fd p'))))) with n by (unfold sents; clear; induction n; cbn; congruence).
      destruct (closes p'); cbn; lia.
    + intros id fd g Hin. destruct Hin as [Hin|Hin]; [discriminate|]. apply in_app_or in Hin. destruct Hin as [Hin|Hin]; [apply repeat_spec in Hin; injection Hin as -> -> ->; reflexivity|].
      apply in_app_or in Hin. destruct Hin as [Hin|[Hin|[]]]; [|discriminate]. destruct (closes p'); [destruct Hin as [Hin|[]]; discriminate|destruct Hin].
Qed.

(** ** C113: when a command is due *)
(** what happens in a round of the loop: the port and the commands are enabled or not (commands by their id, from the tag of
    enable bits), the answers, and whether the scan took less than the scan rate *)
Record round := mkR { r_port : bool; r_cmd : Z -> bool; r_ans : Z -> answer; r_early : bool; r_open : option Z }.
Definition flags (r : round) (x : port * world * list cmd) : port * world * list cmd :=
  let '(p, w, cs) := x in (with_enable p (r_port r), w, map (fun c => with_cenable c (r_cmd r (c_id c))) cs).
Fixpoint rounds (x : port * world * list cmd) (rs : list round) : run (port * world * list cmd) :=
  match rs with [] => Done x | r :: rs => x <-- client_scan (r_ans r) (r_early r) (flags r x) ;; rounds x rs end.
(** the commands called, in order *)
Fixpoint called (l : list act) : list Z := match l with [] => [] | Called id :: l => id :: called l | _ :: l => called l end.
(** how many of the rounds found the port and the command enabled *)
Definition on (rs : list round) (id : Z) : Z := zlen (filter (fun r => r_port r && r_cmd r id) rs).
Definition is_due (pre : list round) (r : round) (c : cmd) : bool :=
  r_port r && r_cmd r (c_id c) && c_cont c && (on (pre ++ [r]) (c_id c) mod Z.max 1 (c_interval c) =? 0).

Lemma called_app a b : called (a ++ b) = called a ++ called b.
Proof. induction a as [|[] a IH]; cbn; congruence. Qed.
Lemma called_none l : Forall (fun a => match a with Called _ => False | _ => True end) l -> called l = [].
Proof. induction 1 as [|[] l H _ IH]; cbn; try exact IH; [reflexivity|destruct H]. Qed.
(** what stays of a command, and its counter after a scan *)
Definition kept (c c' : cmd) : Prop := c_id c' = c_id c /\ c_cont c' = c_cont c /\ c_interval c' = c_interval c.
Lemma client_cmds_spec cs : forall i e p w p' w' cs', client_cmds i e p w cs = Done (p', w', cs') ->
  Forall2 (fun c c' => kept c c' /\ c_icount c' = c_icount (fst (tick c))) cs cs' /\
  exists l, w_log w' = w_log w ++ l /\ called l = map c_id (filter (fun c => snd (tick c)) cs).
Proof.
  induction cs as [|c cs IH]; intros i e p w p' w' cs' H.
  - injection H as <- <- <-. split; [constructor|]. exists []. split; [rewrite app_nil_r; reflexivity|reflexivity].
  - cbn [client_cmds] in H. destruct (tick c) as [c0 due] eqn:T. assert (K : kept c c0 /\ (due = true -> c_enable c0 = true)).
    { unfold tick in T. destruct (c_enable c && c_cont c) eqn:E; [|injection T as <- <-; split; [repeat split|discriminate]]. cbv zeta in T. apply andb_true_iff in E.
      destruct (c_interval c <=? _); injection T as <- <-; (split; [repeat split|]); intros; [apply E|discriminate]. }
    destruct K as (K & En). destruct due.
    + specialize (En eq_refl). cbv zeta in H.
      destruct (send_command _ c0 _ _ w) as [[[[p1 c1] w1] res]|] eqn:S; cbn [rbind] in H; [|discriminate].
      destruct (client_cmds (i + 1) e _ w1 cs) as [[[p2 w2] cs2]|] eqn:R; cbn [rbind] in H; [|discriminate].
      injection H as <- <- <-. assert (SF := S). apply send_frame in SF. destruct SF as ((S1 & _ & S3 & _ & _ & S6 & S7) & _).
      apply send_log in S; [|exact En]. destruct S as (l & L & F). apply IH in R. destruct R as (R1 & l2 & R2 & R3).
      split; [constructor; [|exact R1]; rewrite T; cbn [fst]; split; [|exact S7]; destruct K as (K1 & K2 & K3); repeat split; congruence|].
      exists (Called (c_id c0) :: (l ++ [Ended (c_id c0) (0 <? res)]) ++ l2). split; [rewrite R2, L, <- app_assoc; reflexivity|].
      cbn [called filter]. rewrite T. cbn [snd map]. destruct K as (-> & _). f_equal. rewrite !called_app, R3. cbn. rewrite app_nil_r.
      rewrite (called_none l); [reflexivity|]. eapply Forall_impl; [|exact F]. intros []; tauto.
    + cbn [rbind] in H. destruct (client_cmds (i + 1) e _ w cs) as [[[p2 w2] cs2]|] eqn:R; cbn [rbind] in H; [|discriminate].
      injection H as <- <- <-. apply IH in R. destruct R as (R1 & l2 & R2 & R3).
      split; [constructor; [|exact R1]; rewrite T; split; [exact K|reflexivity]|]. exists l2. split; [exact R2|]. cbn [filter]. rewrite T. exact R3.
Qed.
Lemma close_port_log p w : exists l, w_log (snd (close_port p w)) = w_log w ++ l /\ Forall (fun a => exists fd f, a = Closed fd f) l.
Proof.
  unfold close_port. destruct (p_tcp p); cbn [snd].
  - revert w. induction (p_pool p) as [|c l IH]; intros w; cbn [fold_left]; [exists []; split; [rewrite app_nil_r; reflexivity|constructor]|].
    destruct (IH (k_close w (cn_fd c))) as (l' & -> & F). cbn. eexists. split; [rewrite <- app_assoc; reflexivity|]. constructor; [eauto|exact F].
  - eexists. split; [reflexivity|]. constructor; [eauto|constructor].
Qed.
Lemma idle_log p w : exists l, w_log (snd (idle p w)) = w_log w ++ l /\ Forall (fun a => exists fd f, a = Closed fd f) l.
Proof.
  unfold idle. destruct (p_persist p); [exists []; split; [rewrite app_nil_r; reflexivity|constructor]|].
  destruct (close_port_log p w) as (l & L & F). destruct (close_port p w). exists l. split; assumption.
Qed.
Lemma closed_called l : Forall (fun a => exists fd f, a = Closed fd f) l -> called l = [].
Proof. intros F. apply called_none. eapply Forall_impl; [|exact F]. intros a (? & ? & ->). exact I. Qed.

(** one round *)
Lemma round_spec r p w cs p' w' cs' : client_scan (r_ans r) (r_early r) (flags r (p, w, cs)) = Done (p', w', cs') ->
  Forall2 (fun c c' => kept c c' /\ c_icount c' = if r_port r && r_cmd r (c_id c) && c_cont c then
      (if c_interval c <=? u32 (c_icount c + 1) then 0 else u32 (c_icount c + 1)) else c_icount c) cs cs' /\
  exists l, w_log w' = w_log w ++ l /\ called l = map c_id (filter (fun c => r_port r && r_cmd r (c_id c) && c_cont c && (c_interval c <=? u32 (c_icount c + 1))) cs).
Proof.
  intros H. unfold client_scan, flags in H. cbn [p_enable with_enable] in H.
  assert (G : exists p1 w1, (exists l, w_log w1 = w_log w ++ l /\ called l = map c_id (filter (fun c => r_port r && r_cmd r (c_id c) && c_cont c && (c_interval c <=? u32 (c_icount c + 1))) cs)) /\
    Forall2 (fun c c' => kept c c' /\ c_icount c' = if r_port r && r_cmd r (c_id c) && c_cont c then
      (if c_interval c <=? u32 (c_icount c + 1) then 0 else u32 (c_icount c + 1)) else c_icount c) cs cs' /\
    (if r_early r then let '(p, w) := idle p1 w1 in Done (with_scanning p true, w, cs') else Done (p1, w1, cs')) = Done (p', w', cs')).
  { destruct (r_port r) eqn:E.
    - destruct (client_cmds _ _ _ _ _) as [[[p1 w1] cs1]|] eqn:C; cbn [rbind] in H; [|discriminate].
      assert (cs1 = cs') as -> by (destruct (r_early r); [destruct (idle p1 w1)|]; congruence).
      apply client_cmds_spec in C. destruct C as (C1 & l & C2 & C3). exists p1, w1. split; [|split; [|exact H]].
      + exists l. split; [exact C2|]. rewrite C3. clear. induction cs as [|c cs IH]; [reflexivity|]. cbn [map filter andb].
        replace (snd (tick (with_cenable c (r_cmd r (c_id c))))) with (r_cmd r (c_id c) && c_cont c && (c_interval c <=? u32 (c_icount c + 1))).
        2: { unfold tick. cbn. destruct (r_cmd r (c_id c) && c_cont c); [|reflexivity]. cbn. destruct (_ <=? _); reflexivity. }
        destruct (r_cmd r (c_id c) && c_cont c && _); cbn [map]; rewrite IH; reflexivity.
      + clear -C1. revert cs' C1. induction cs as [|c cs IH]; intros cs' F; cbn [map] in F; inversion F as [|? c' ? l' (K & I) F']; subst; constructor; [|apply IH; exact F'].
        split; [exact K|]. rewrite I. unfold tick. cbn. destruct (r_cmd r (c_id c) && c_cont c); [|reflexivity]. cbn. destruct (_ <=? _); reflexivity.
    - cbn [rbind] in H. assert (cs' = map (fun c => with_cenable c (r_cmd r (c_id c))) cs) as -> by (destruct (r_early r); [destruct (idle _ w)|]; congruence).
      eexists _, w. split; [|split; [|exact H]].
      + exists []. split; [rewrite app_nil_r; reflexivity|]. clear. induction cs; [reflexivity|exact IHcs].
      + clear. induction cs as [|c cs IH]; constructor; [repeat split|exact IH]. }
  clear H. destruct G as (p1 & w1 & (l & L & C) & F & H). split; [exact F|]. destruct (r_early r).
  - destruct (idle_log p1 w1) as (l2 & L2 & F2). destruct (idle p1 w1) as [p2 w2]. injection H as _ <-. cbn [snd] in L2.
    exists (l ++ l2). split; [rewrite L2, L, app_assoc; reflexivity|]. rewrite called_app, (closed_called l2 F2), app_nil_r. exact C.
  - injection H as _ <-. exists l. split; assumption.
Qed.
(** the counter of a command is the number of enabled rounds since it was last called *)
Definition counts (pre : list round) (c c' : cmd) : Prop :=
  kept c c' /\ c_icount c' = if c_cont c then on pre (c_id c) mod Z.max 1 (c_interval c) else 0.
Lemma on_snoc pre r id : on (pre ++ [r]) id = on pre id + (if r_port r && r_cmd r id then 1 else 0).
Proof. unfold on. rewrite filter_app. cbn [filter]. destruct (_ && _); rewrite zlen_app; reflexivity. Qed.
Lemma on_nonneg rs id : 0 <= on rs id.
Proof. unfold on, zlen. lia. Qed.
Lemma step_mod n m : 0 <= n -> 1 <= m -> (n + 1) mod m = if m <=? n mod m + 1 then 0 else n mod m + 1.
Proof.
  intros Hn Hm. destruct (Z.mod_pos_bound n m) as [A B]; [lia|]. pose proof (Z.div_mod n m ltac:(lia)) as D. destruct (m <=? n mod m + 1) eqn:E.
  - symmetry. apply Z.mod_unique with (q := n / m + 1); [left; lia|]. nia.
  - symmetry. apply Z.mod_unique with (q := n / m); [left; lia|]. nia.
Qed.
Lemma counts_step pre r c c' : 0 <= c_interval c < 4294967296 -> counts pre c c' ->
  is_due pre r c = r_port r && r_cmd r (c_id c) && c_cont c && (c_interval c' <=? u32 (c_icount c' + 1)) /\
  (if r_port r && r_cmd r (c_id c) && c_cont c then (if c_interval c' <=? u32 (c_icount c' + 1) then 0 else u32 (c_icount c' + 1)) else c_icount c') =
    if c_cont c then on (pre ++ [r]) (c_id c) mod Z.max 1 (c_interval c) else 0.
Proof.
  intros B ((_ & K2 & K3) & I). unfold is_due. rewrite on_snoc, K3, I. clear I K2 K3. destruct (r_port r && r_cmd r (c_id c)); cbn [andb].
  2: { split; [reflexivity|]. rewrite Z.add_0_r. reflexivity. }
  destruct (c_cont c); cbn [andb]; [|split; reflexivity].
  rewrite (step_mod (on pre (c_id c)) (Z.max 1 (c_interval c))) by (pose proof (on_nonneg pre (c_id c)); lia).
  set (m := on pre (c_id c) mod Z.max 1 (c_interval c)). assert (0 <= m < Z.max 1 (c_interval c)) by (apply Z.mod_pos_bound; lia).
  assert (Hu : u32 (m + 1) = if m + 1 =? 4294967296 then 0 else m + 1).
  { unfold u32. destruct (m + 1 =? 4294967296) eqn:E; [replace (m + 1) with 4294967296 by lia; reflexivity|apply Z.mod_small; lia]. }
  rewrite Hu. clear Hu. destruct (m + 1 =? 4294967296) eqn:E1; [lia|].
  destruct (Z.max 1 (c_interval c) <=? m + 1) eqn:E2; destruct (c_interval c <=? m + 1) eqn:E3; try lia; split; try reflexivity.
  all: destruct (m + 1 =? 0) eqn:E4; try lia; reflexivity.
Qed.
Lemma kept_trans a b c : kept a b -> kept b c -> kept a c.
Proof. unfold kept. intuition congruence. Qed.
Lemma rounds_counts cs0 : Forall (fun c => 0 <= c_interval c < 4294967296) cs0 -> forall rs pre p w cs p' w' cs',
  Forall2 (counts pre) cs0 cs -> rounds (p, w, cs) rs = Done (p', w', cs') -> Forall2 (counts (pre ++ rs)) cs0 cs'.
Proof.
  intros B. induction rs as [|r rs IH]; intros pre p w cs p' w' cs' F H; cbn [rounds] in H.
  - injection H as <- <- <-. rewrite app_nil_r. exact F.
  - destruct (client_scan _ _ _) as [[[p1 w1] cs1]|] eqn:S; cbn [rbind] in H; [|discriminate].
    apply round_spec in S. destruct S as (S & _). replace (pre ++ r :: rs) with ((pre ++ [r]) ++ rs) by (rewrite <- app_assoc; reflexivity).
    eapply IH; [|exact H]. clear -B F S. revert cs1 S. revert B. induction F as [|c c' l l' Fc F IH]; intros B cs1 S; inversion S as [|? c1 ? l1 (K & I) S']; subst; [constructor|].
    inversion B as [|? ? Bc B']; subst. constructor; [|apply IH; assumption].
    destruct (counts_step pre r c c' Bc Fc) as (_ & E). destruct Fc as (Kc & _). split; [eapply kept_trans; eassumption|]. rewrite I. destruct Kc as (-> & -> & _). exact E.
Qed.

(** A TCP master calls its commands in the order of the configuration; after any history, a round calls a continuous command
    exactly if it is enabled and the number of rounds in which it was enabled, this one included, is a multiple of its interval
    (0 counts as 1).  Neither failures nor other commands move it. *)
Theorem C113_due : forall p w cs pre r p1 w1 cs1 p2 w2 cs2,
  Forall (fun c => c_icount c = 0 /\ 0 <= c_interval c < 4294967296) cs ->
  rounds (p, w, cs) pre = Done (p1, w1, cs1) -> rounds (p1, w1, cs1) [r] = Done (p2, w2, cs2) ->
  exists l, w_log w2 = w_log w1 ++ l /\ called l = map c_id (filter (is_due pre r) cs).
Proof.
  intros p w cs pre r p1 w1 cs1 p2 w2 cs2 B H1 H2.
  assert (B1 : Forall (fun c => 0 <= c_interval c < 4294967296) cs) by (eapply Forall_impl; [|exact B]; intros ? []; assumption).
  assert (F : Forall2 (counts ([] ++ pre)) cs cs1).
  { eapply rounds_counts; [exact B1| |exact H1]. clear -B. induction B as [|c l (I & _) B IH]; constructor; [|exact IH].
    split; [repeat split|]. rewrite I. change (on ([] ++ []) (c_id c)) with 0. destruct (c_cont c); [rewrite Zmod_0_l|]; reflexivity. }
  cbn [app] in F. cbn [rounds] in H2. destruct (client_scan _ _ _) as [[[p3 w3] cs3]|] eqn:S; cbn [rbind] in H2; [|discriminate]. injection H2 as -> -> ->.
  apply round_spec in S. destruct S as (_ & l & L & C). exists l. split; [exact L|]. rewrite C. clear -B1 F.
  induction F as [|c c' l l' Fc F IH]; [reflexivity|]. inversion B1 as [|? ? Bc B']; subst. specialize (IH B').
  destruct (counts_step pre r c c' Bc Fc) as (E & _). destruct Fc as ((K1 & K2 & K3) & _). cbn [filter]. rewrite E, K1, K2.
  destruct (r_port r && r_cmd r (c_id c) && c_cont c && _); cbn [map]; rewrite IH, ?K1; reflexivity.
Qed.

(** ** C114: a serial master that gets no answers *)
Fixpoint mrounds (x : port * world * list cmd) (rs : list round) : run (option (port * world * list cmd)) :=
  match rs with
  | [] => Done (Some x)
  | r :: rs => y <-- master_scan (r_ans r) (r_open r) (r_early r) (flags r x) ;; match y with None => Done None | Some x => mrounds x rs end
  end.
(** the number of commands without an answer since the last one with an answer *)
Definition trail (l : list act) : Z := fold_left (fun n a => match a with Ended _ true => 0 | Ended _ false => n + 1 | _ => n end) l 0.
(** the port was closed after the last command *)
Definition closed_since (l : list act) : Prop := exists l1 fd f l2, l = l1 ++ Closed fd f :: l2 /\ forall id b, ~ In (Ended id b) l2.
(** the port is closed only after [M] commands without an answer; after that many nothing is sent until it was closed; all requests go to the serial line *)
Definition holds_back (M : Z) (num : list act -> Z) (l : list act) : Prop :=
  forall l1 a l2, l = l1 ++ a :: l2 ->
    match a with
    | Called _ => num l1 < M \/ closed_since l1
    | Closed _ _ => M <= num l1
    | Sent _ _ f => f = Some Line
    | Ended _ _ => True
    end.

Lemma holds_snoc M num l a : holds_back M num l ->
  match a with Called _ => num l < M \/ closed_since l | Closed _ _ => M <= num l | Sent _ _ f => f = Some Line | Ended _ _ => True end ->
  holds_back M num (l ++ [a]).
Proof.
  intros H Ha l1 b l2 E. destruct l2 as [|b2 l2] using rev_ind.
  - apply app_inj_tail in E. destruct E as [-> ->]. exact Ha.
  - clear IHl2. rewrite app_comm_cons, app_assoc in E. apply app_inj_tail in E. destruct E as [E _]. exact (H _ _ _ E).
Qed.
Lemma trail_snoc l a : trail (l ++ [a]) = match a with Ended _ true => 0 | Ended _ false => trail l + 1 | _ => trail l end.
Proof. unfold trail. rewrite fold_left_app. reflexivity. Qed.
Lemma trail_bound l : 0 <= trail l <= zlen l.
Proof.
  induction l as [|a l IH] using rev_ind; [cbv; split; discriminate|]. rewrite trail_snoc, zlen_app. change (zlen [a]) with 1. destruct a as [| | |id []]; lia.
Qed.
(** a serial port that is not closed after each command *)
Lemma serial_send p c r ts w p' c' w' res : p_tcp p = false -> c_enable c = true -> send_command p c r ts w = Done (p', c', w', res) ->
  p' = p /\ w_fds w' = (if closes p then upd (w_fds w) (p_fd p) None else w_fds w) /\
  exists n, w_log w' = ((w_log w ++ [Called (c_id c)]) ++ sents n c (p_fd p) (w_fds w (p_fd p))) ++ (if closes p then [Closed (p_fd p) (w_fds w (p_fd p))] else []) ++ [Ended (c_id c) (0 <? res)].
Proof.
  intros T En H. apply send_cases in H. destruct H as [(E & _)|(_ & w1 & [(T' & _)|(_ & -> & ->)] & H)]; [congruence|congruence|].
  destruct H as [(Eb & _)|(_ & w2 & R & ->)]; [rewrite T in Eb; discriminate|]. apply retry_log in R. destruct R as (_ & F & n & _ & L).
  split; [reflexivity|]. split; [exact F|]. exists n. cbn [w_log say]. rewrite L. cbn [w_log w_fds say]. rewrite <- !app_assoc. reflexivity.
Qed.

Definition settled (M : Z) (p : port) : Prop := p_tcp p = false /\ p_persist p = true /\ p_maxatt p = M.
Definition utrail (l : list act) : Z := u32 (trail l).
Definition open_ok (M : Z) (p : port) (w : world) : Prop :=
  settled M p /\ p_attempt p = utrail (w_log w) /\ holds_back M utrail (w_log w) /\
  p_inhibit p = false /\ w_fds w (p_fd p) = Some Line /\ (utrail (w_log w) < M \/ closed_since (w_log w)).
Definition shut_ok (M : Z) (p : port) (w : world) : Prop :=
  settled M p /\ p_attempt p = utrail (w_log w) /\ holds_back M utrail (w_log w) /\ p_inhibit p = true /\ M <= utrail (w_log w).
Lemma sents_holds M n : forall l c fd, holds_back M utrail l -> holds_back M utrail (l ++ sents n c fd (Some Line)) /\ trail (l ++ sents n c fd (Some Line)) = trail l.
Proof.
  induction n as [|n IH]; intros l c fd H; cbn; [rewrite app_nil_r; split; [exact H|reflexivity]|].
  change (Sent (c_id c) fd (Some Line) :: repeat (Sent (c_id c) fd (Some Line)) n) with ([Sent (c_id c) fd (Some Line)] ++ sents n c fd (Some Line)). rewrite app_assoc.
  destruct (IH (l ++ [Sent (c_id c) fd (Some Line)]) c fd) as (A & B).
  - apply holds_snoc; [exact H|reflexivity].
  - split; [exact A|]. rewrite B, trail_snoc. reflexivity.
Qed.
Lemma master_cmds_ok M cs : 0 < M < 4294967296 -> forall i e p w p' w' cs', open_ok M p w -> master_cmds i e p w cs = Done (p', w', cs') ->
  open_ok M p' w' \/ shut_ok M p' w'.
Proof.
  intros HM. induction cs as [|c cs IH]; intros i e p w p' w' cs' O H; cbn [master_cmds] in H; [injection H as <- <- <-; left; exact O|].
  destruct (tick c) as [c0 due] eqn:T. assert (En : due = true -> c_enable c0 = true).
  { unfold tick in T. destruct (c_enable c && c_cont c) eqn:E; [|injection T as <- <-; discriminate]. cbv zeta in T. apply andb_true_iff in E.
    destruct (c_interval c <=? _); injection T as <- <-; intros; [apply E|discriminate]. }
  destruct due.
  2: { cbn [rbind] in H. destruct (master_cmds (i + 1) e p w cs) as [[[p2 w2] cs2]|] eqn:R; cbn [rbind] in H; [|discriminate]. injection H as <- <- <-. eapply IH; eassumption. }
  specialize (En eq_refl). destruct O as ((O1 & O2 & O3) & O4 & O5 & O6 & O7 & O8). cbv zeta in H. rewrite O3 in H.
  destruct (M =? 0) eqn:EM; [lia|].
  destruct (send_command _ c0 _ _ w) as [[[[p1 c1] w1] res]|] eqn:S; cbn [rbind] in H; [|discriminate].
  apply serial_send in S; [|exact O1|exact En]. destruct S as (-> & SF & n & SL).
  assert (EC : closes (with_attempt p (u32 (p_attempt p + 1))) = false) by (unfold closes; cbn; rewrite O2; apply andb_false_r).
  rewrite EC in SF, SL. cbn [p_fd with_attempt app] in SL. rewrite O7 in SL.
  assert (H1 : holds_back M utrail (w_log w ++ [Called (c_id c0)])) by (apply holds_snoc; assumption).
  destruct (sents_holds M n _ c0 (p_fd p) H1) as (H2 & H3).
  assert (H4 : holds_back M utrail (w_log w1)) by (rewrite SL; apply holds_snoc; [exact H2|exact I]).
  assert (H5 : trail (w_log w1) = if 0 <? res then 0 else trail (w_log w) + 1).
  { rewrite SL, trail_snoc, H3, trail_snoc. destruct (0 <? res); reflexivity. }
  assert (H6 : utrail (w_log w1) = if 0 <? res then 0 else u32 (p_attempt p + 1)).
  { unfold utrail. rewrite H5. destruct (0 <? res); [reflexivity|]. rewrite O4. unfold utrail, u32. rewrite Z.add_mod_idemp_l by lia. reflexivity. }
  destruct (0 <? res) eqn:Er; cbn [p_maxatt p_attempt with_attempt] in H; rewrite O3, EM in H; cbn [negb andb] in H; (replace (u32 M) with M in H by (unfold u32; rewrite Z.mod_small; lia)).
  - destruct (M <=? 0) eqn:E0; [lia|]. cbn [rbind] in H.
    destruct (master_cmds (i + 1) e _ w1 cs) as [[[p2 w2] cs2]|] eqn:R; cbn [rbind] in H; [|discriminate]. injection H as <- <- <-. eapply IH; [|exact R].
    repeat split; try assumption; [rewrite H6; reflexivity|cbn [p_fd with_attempt]; rewrite SF; exact O7|left; rewrite H6; lia].
  - destruct (M <=? u32 (p_attempt p + 1)) eqn:E0; cbn [rbind] in H.
    + injection H as <- <- <-. right. repeat split; try assumption; [rewrite H6; reflexivity|rewrite H6; lia].
    + destruct (master_cmds (i + 1) e _ w1 cs) as [[[p2 w2] cs2]|] eqn:R; cbn [rbind] in H; [|discriminate]. injection H as <- <- <-. eapply IH; [|exact R].
      repeat split; try assumption; [rewrite H6; reflexivity|cbn [p_fd with_attempt]; rewrite SF; exact O7|left; rewrite H6; lia].
Qed.
Lemma master_scan_ok M e opened early p w cs p' w' cs' : 0 < M < 4294967296 -> open_ok M p w \/ shut_ok M p w ->
  master_scan e opened early (p, w, cs) = Done (Some (p', w', cs')) -> open_ok M p' w' \/ shut_ok M p' w'.
Proof.
  intros HM O H. unfold master_scan in H.
  assert (G : exists p1 w1 cs1, (open_ok M p1 w1 \/ shut_ok M p1 w1) /\
    match (if p_inhibit p1 then let '(p, w) := close_port p1 w1 in if p_itime p =? 0 then None else let '(p, w, res) := open_port p opened w in Some (if res =? 0 then with_inhibit p false else p, w) else Some (p1, w1)) with
    | None => Done None | Some (p, w) => let '(p, w) := if early && negb (p_persist p) then close_port p w else (p, w) in Done (Some (p, w, cs1)) end = Done (Some (p', w', cs'))).
  { destruct (p_enable p && negb (p_inhibit p)) eqn:E.
    - destruct O as [O|(_ & _ & _ & O & _)]; [|rewrite O, andb_false_r in E; discriminate].
      destruct (master_cmds 0 e p w cs) as [[[p1 w1] cs1]|] eqn:R; cbn [rbind] in H; [|discriminate]. exists p1, w1, cs1. split; [|exact H]. eapply master_cmds_ok; eassumption.
    - cbn [rbind] in H. exists p, w, cs. split; [exact O|exact H]. }
  clear H O p w cs. destruct G as (p & w & cs & [O|O] & H).
  - pose proof O as ((_ & O2 & _) & _ & _ & O6 & _). rewrite O6 in H. rewrite O2, andb_false_r in H. injection H as <- <- <-. left. exact O.
  - destruct O as ((O1 & O2 & O3) & O4 & O5 & O6 & O7). rewrite O6 in H. unfold close_port in H. rewrite O1 in H. cbn [p_itime with_pfd] in H.
    destruct (p_itime p =? 0); [discriminate|]. unfold open_port in H. cbn [p_tcp with_pfd] in H. rewrite O1 in H.
    assert (L : w_log (k_close w (p_fd p)) = w_log w ++ [Closed (p_fd p) (w_fds w (p_fd p))]) by reflexivity.
    assert (Hu : utrail (w_log (k_close w (p_fd p))) = utrail (w_log w)) by (rewrite L; unfold utrail; rewrite trail_snoc; reflexivity).
    assert (Hh : holds_back M utrail (w_log (k_close w (p_fd p)))) by (rewrite L; apply holds_snoc; [exact O5|exact O7]).
    assert (Hc : closed_since (w_log (k_close w (p_fd p)))) by (rewrite L; exists (w_log w), (p_fd p), (w_fds w (p_fd p)), []; split; [reflexivity|intros ? ? []]).
    destruct opened as [fd|]; [destruct (free_fd (k_close w (p_fd p)) fd) eqn:Ef|]; cbn [Z.eqb p_persist with_inhibit with_pfd] in H; rewrite O2, andb_false_r in H; injection H as <- <- <-.
    + left. repeat split; try assumption; [cbn [p_attempt with_inhibit with_pfd w_log set_fd]; rewrite Hu; exact O4|cbn; apply upd_same|right; exact Hc].
    + right. repeat split; try assumption; [cbn [p_attempt with_inhibit with_pfd w_log set_fd]; rewrite Hu; exact O4|rewrite Hu; exact O7].
    + right. repeat split; try assumption; [cbn [p_attempt with_inhibit with_pfd w_log set_fd]; rewrite Hu; exact O4|rewrite Hu; exact O7].
Qed.

(** For a persistent serial master with [M] attempts, over any history of its own scans: the port is closed only after [M]
    commands in a row without an answer; after [M] of them nothing is sent until the port was closed; all requests go to the
    serial line. *)
Theorem C114_inhibit_partial : forall M retries itime fd junk w cs rs p' w' cs', 0 < M < 4294967296 -> w_log w = [] -> w_fds w fd = Some Line ->
  mrounds (new_serial true retries M itime fd junk, w, cs) rs = Done (Some (p', w', cs')) -> zlen (w_log w') < 4294967296 ->
  holds_back M trail (w_log w').
Proof.
  intros M retries itime fd junk w cs rs p' w' cs' HM L F H B.
  assert (G : open_ok M p' w' \/ shut_ok M p' w').
  { assert (O : open_ok M (new_serial true retries M itime fd junk) w \/ shut_ok M (new_serial true retries M itime fd junk) w).
    { left. repeat split; [rewrite L; reflexivity|rewrite L; intros [] ? ? [=]|exact F|left; rewrite L; cbn; lia]. }
    clear L F B. revert O H. generalize (new_serial true retries M itime fd junk). intros p. revert p w cs. induction rs as [|r rs IH]; intros p w cs O H; cbn [mrounds] in H.
    - injection H as <- <- <-. exact O.
    - destruct (master_scan _ _ _ _) as [[[[p1 w1] cs1]|]|] eqn:S; cbn [rbind] in H; try discriminate. unfold flags in S.
      apply (IH p1 w1 cs1); [|exact H]. eapply master_scan_ok; [exact HM| |exact S]. exact O. }
  assert (Hh : holds_back M utrail (w_log w')) by (destruct G as [G|G]; apply G).
  intros l1 a l2 E. specialize (Hh l1 a l2 E). assert (utrail l1 = trail l1) as U.
  { unfold utrail, u32. apply Z.mod_small. pose proof (trail_bound l1). rewrite E, zlen_app in B. pose proof (zlen_nonneg (a :: l2)). lia. }
  destruct a; rewrite ?U in Hh; exact Hh.
Qed.
(** Its loop ends only if the inhibit time is 0. *)
Theorem C114_lasting_partial : forall rs p w cs, p_itime p <> 0 -> mrounds (p, w, cs) rs <> Done None.
Proof.
  assert (K : forall cs i e p w p' w' cs', master_cmds i e p w cs = Done (p', w', cs') -> p_itime p' = p_itime p).
  { induction cs as [|c cs IH]; intros i e p w p' w' cs' H; cbn [master_cmds] in H; [congruence|]. destruct (tick c) as [c0 []].
    - cbv zeta in H. destruct (send_command _ c0 _ _ w) as [[[[p1 c1] w1] res]|] eqn:S; cbn [rbind] in H; [|discriminate].
      apply send_frame in S. destruct S as (_ & _ & _ & _ & _ & _ & _ & _ & _ & S). assert (Ep : p_itime p1 = p_itime p) by (destruct (p_maxatt p =? 0); exact S). clear S.
      destruct (negb _ && _); cbn [rbind] in H.
      + injection H as <- <- <-. cbn. destruct (0 <? res); exact Ep.
      + destruct (master_cmds (i + 1) e _ w1 cs) as [[[p2 w2] cs2]|] eqn:R; cbn [rbind] in H; [|discriminate]. injection H as <- <- <-. apply IH in R. rewrite R. destruct (0 <? res); exact Ep.
    - cbn [rbind] in H. destruct (master_cmds (i + 1) e _ w cs) as [[[p2 w2] cs2]|] eqn:R; cbn [rbind] in H; [|discriminate]. injection H as <- <- <-. eapply IH; exact R. }
  induction rs as [|r rs IH]; intros p w cs Hi H; cbn [mrounds] in H; [discriminate|].
  destruct (master_scan _ _ _ _) as [y|] eqn:S; cbn [rbind] in H; [|discriminate].
  assert (G : exists p1 w1 cs1, y = Some (p1, w1, cs1) /\ p_itime p1 <> 0).
  { unfold master_scan, flags in S. destruct (if p_enable _ && _ then _ else _) as [[[p1 w1] cs1]|] eqn:E; cbn [rbind] in S; [|discriminate].
    assert (Ep : p_itime p1 = p_itime p) by (destruct (p_enable (with_enable p (r_port r)) && _); [apply K in E; exact E|injection E as <- _ _; reflexivity]). clear E.
    destruct (p_inhibit p1).
    - destruct (close_port p1 w1) as [p2 w2] eqn:C. assert (E2 : p_itime p2 = p_itime p) by (unfold close_port in C; destruct (p_tcp p1); injection C as <- <-; exact Ep).
      destruct (p_itime p2 =? 0) eqn:E0; [lia|]. destruct (open_port p2 (r_open r) w2) as [[p3 w3] res] eqn:O.
      assert (E3 : p_itime p3 = p_itime p) by (unfold open_port in O; destruct (p_tcp p2); [|destruct (r_open r) as [fd|]; [destruct (free_fd w2 fd)|]]; injection O as <- <- <-; exact E2).
      destruct (r_early r && _); [destruct (close_port _ w3) as [p4 w4] eqn:C2|]; injection S as <-; eexists _, _, _; (split; [reflexivity|]).
      + unfold close_port in C2. destruct (p_tcp _); injection C2 as <- <-; cbn; destruct (res =? 0); cbn; lia.
      + destruct (res =? 0); cbn; lia.
    - destruct (r_early r && _); [destruct (close_port p1 w1) as [p4 w4] eqn:C2|]; injection S as <-; eexists _, _, _; (split; [reflexivity|]).
      + unfold close_port in C2. destruct (p_tcp _); injection C2 as <- <-; cbn; lia.
      + lia. }
  destruct G as (p1 & w1 & cs1 & -> & G). exact (IH _ _ _ G H).
Qed.

(** *** What goes wrong *)
(** a serial master with one command that is due in every scan; nobody answers; descriptors 0 to 3 belong to the process *)
Definition bench : world := mkW (fun fd => if (0 <=? fd) && (fd <=? 3) then Some Foreign else if fd =? 5 then Some Line else None) [].
Definition poll : cmd := mkCmd 1 true true 0 0 0 0 0 0 0 0 0 0.
Definition mute : round := mkR true (fun _ => true) (fun _ => mkA NoSocket (fun _ => mkT 8 0 0)) false (Some 5).
Definition unplugged : round := mkR true (fun _ => true) (fun _ => mkA NoSocket (fun _ => mkT 8 0 0)) false None.
Definition heard : round := mkR true (fun _ => true) (fun _ => mkA NoSocket (fun _ => mkT 8 7 0)) false (Some 5).
Definition try1 : list act := [Called 1; Sent 1 5 (Some Line); Ended 1 false].
(** The count of attempts is not reset when the port is opened again: three unanswered commands close it the first time, then
    every single one. *)
Theorem C114_again_refuted : exists p' w' cs',
  mrounds (new_serial true 0 3 10 5 false, bench, [poll]) [mute; mute; mute; mute; mute] = Done (Some (p', w', cs')) /\
  w_log w' = try1 ++ try1 ++ try1 ++ [Closed 5 (Some Line)] ++ try1 ++ [Closed 5 (Some Line)] ++ try1 ++ [Closed 5 (Some Line)].
Proof. eexists _, _, _. split; [vm_compute; reflexivity|reflexivity]. Qed.
(** If the line cannot be opened again the next attempt closes descriptor 0, which is not the port's, and a command sent from a
    callback (modmain.c:59-72) is written to descriptor 0. *)
Theorem C114_stdin_refuted : exists p' w' cs' p'' c'' w'' res,
  mrounds (new_serial true 0 1 10 5 false, bench, [poll]) [unplugged] = Done (Some (p', w', cs')) /\
  send_command p' poll NoSocket (fun _ => mkT 8 0 0) w' = Done (p'', c'', w'', res) /\ In (Sent 1 0 (Some Foreign)) (w_log w'') /\
  exists p3 w3 cs3, mrounds (p', w', cs') [unplugged] = Done (Some (p3, w3, cs3)) /\ In (Closed 0 (Some Foreign)) (w_log w3) /\ w_fds w3 0 = None.
Proof.
  eexists _, _, _, _, _, _, _. split; [vm_compute; reflexivity|]. split; [vm_compute; reflexivity|]. split; [vm_compute; tauto|].
  eexists _, _, _. split; [vm_compute; reflexivity|]. split; [vm_compute; tauto|reflexivity].
Qed.
(** With an inhibit time of 0 the loop ends, and mb_run_port with it (modbus.c:75). *)
Theorem C114_ended_refuted : mrounds (new_serial true 0 3 0 5 false, bench, [poll]) [mute; mute; mute] = Done None.
Proof. vm_compute. reflexivity. Qed.

(** A serial master that is not persistent (the default) closes its port after the first scan that is early and does not open it again:
    with no limit of attempts, no later request goes to the line. *)
Definition cut (p : port) (w : world) : Prop := p_tcp p = false /\ p_persist p = false /\ p_maxatt p = 0 /\ p_inhibit p = false /\ w_fds w 0 <> Some Line.
Definition astray (l : list act) : Prop := forall id fd f, In (Sent id fd f) l -> fd = 0 /\ f <> Some Line.
Lemma astray_app a b : astray a -> astray b -> astray (a ++ b).
Proof. intros A B id fd f H. apply in_app_or in H. destruct H; eauto. Qed.
Lemma cut_cmds cs : forall i e p w p' w' cs', cut p w -> master_cmds i e p w cs = Done (p', w', cs') ->
  cut p' w' /\ p_fd p' = p_fd p /\ exists l, w_log w' = w_log w ++ l /\ (p_fd p = 0 -> astray l).
Proof.
  induction cs as [|c cs IH]; intros i e p w p' w' cs' C H; cbn [master_cmds] in H.
  { injection H as <- <- <-. split; [exact C|]. split; [reflexivity|]. exists []. split; [rewrite app_nil_r; reflexivity|intros _ ? ? ? []]. }
  destruct (tick c) as [c0 due] eqn:T. assert (En : due = true -> c_enable c0 = true).
  { unfold tick in T. destruct (c_enable c && c_cont c) eqn:E; [|injection T as <- <-; discriminate]. cbv zeta in T. apply andb_true_iff in E.
    destruct (c_interval c <=? _); injection T as <- <-; intros; [apply E|discriminate]. }
  destruct due.
  2: { cbn [rbind] in H. destruct (master_cmds (i + 1) e p w cs) as [[[p2 w2] cs2]|] eqn:R; cbn [rbind] in H; [|discriminate]. injection H as <- <- <-. eapply IH; eassumption. }
  specialize (En eq_refl). destruct C as (C1 & C2 & C3 & C4 & C5). cbv zeta in H. rewrite C3 in H. cbn [Z.eqb] in H.
  destruct (send_command p c0 _ _ w) as [[[[p1 c1] w1] res]|] eqn:S; cbn [rbind] in H; [|discriminate].
  apply serial_send in S; [|exact C1|exact En]. destruct S as (-> & SF & n & SL).
  replace (negb (p_maxatt (if 0 <? res then with_attempt p 0 else p) =? 0)) with false in H by (destruct (0 <? res); cbn; rewrite C3; reflexivity). cbn [andb rbind] in H.
  destruct (master_cmds (i + 1) e _ w1 cs) as [[[p2 w2] cs2]|] eqn:R; cbn [rbind] in H; [|discriminate]. injection H as <- <- <-. apply IH in R.
  2: { assert (w_fds w1 0 <> Some Line) by (rewrite SF; destruct (closes p); [unfold upd; destruct (0 =? p_fd p); [discriminate|exact C5]|exact C5]). destruct (0 <? res); repeat split; assumption. }
  destruct R as (R1 & R2 & l & R3 & R4). split; [exact R1|]. split; [rewrite R2; destruct (0 <? res); reflexivity|].
  eexists. split; [rewrite R3, SL, <- !app_assoc; reflexivity|]. intros F0. rewrite F0. apply astray_app; [intros ? ? ? [[=]|[]]|].
  apply astray_app; [intros ? ? ? Hin; apply repeat_spec in Hin; injection Hin as -> -> ->; split; [reflexivity|exact C5]|].
  apply astray_app; [destruct (closes p); [intros ? ? ? [[=]|[]]|intros ? ? ? []]|]. apply astray_app; [intros ? ? ? [[=]|[]]|]. apply R4. destruct (0 <? res); exact F0.
Qed.
Lemma cut_round r p w cs p' w' cs' : cut p w -> master_scan (r_ans r) (r_open r) (r_early r) (flags r (p, w, cs)) = Done (Some (p', w', cs')) ->
  cut p' w' /\ (p_fd p' = p_fd p \/ p_fd p' = 0) /\ (r_early r = true -> p_fd p' = 0) /\ exists l, w_log w' = w_log w ++ l /\ (p_fd p = 0 -> astray l).
Proof.
  intros C H. unfold master_scan, flags in H.
  destruct (if p_enable _ && _ then _ else _) as [[[p1 w1] cs1]|] eqn:E; cbn [rbind] in H; [|discriminate].
  assert (G : cut p1 w1 /\ p_fd p1 = p_fd p /\ exists l, w_log w1 = w_log w ++ l /\ (p_fd p = 0 -> astray l)).
  { destruct (p_enable (with_enable p (r_port r)) && _).
    - apply cut_cmds in E; [exact E|exact C].
    - injection E as <- <- <-. split; [exact C|]. split; [reflexivity|]. exists []. split; [rewrite app_nil_r; reflexivity|intros _ ? ? ? []]. }
  clear E. destruct G as ((G1 & G2 & G3 & G4 & G5) & GF & l & GL & GA). rewrite G4, G2 in H. destruct (r_early r); cbn [andb negb] in H.
  - unfold close_port in H. rewrite G1 in H. injection H as <- <- <-. split.
    + repeat split; try assumption. cbn. unfold upd. destruct (0 =? p_fd p1); [discriminate|exact G5].
    + split; [right; reflexivity|]. split; [reflexivity|]. eexists. split; [cbn; rewrite GL, <- app_assoc; reflexivity|].
      intros F0. apply astray_app; [exact (GA F0)|intros ? ? ? [[=]|[]]].
  - injection H as <- <- <-. split; [repeat split; assumption|]. split; [left; exact GF|]. split; [discriminate|]. exists l. split; assumption.
Qed.
Lemma cut_rounds rs : forall p w cs p' w' cs', cut p w -> mrounds (p, w, cs) rs = Done (Some (p', w', cs')) ->
  cut p' w' /\ exists l, w_log w' = w_log w ++ l /\ (p_fd p = 0 -> astray l).
Proof.
  induction rs as [|r rs IH]; intros p w cs p' w' cs' C H; cbn [mrounds] in H.
  - injection H as <- <- <-. split; [exact C|]. exists []. split; [rewrite app_nil_r; reflexivity|intros _ ? ? ? []].
  - destruct (master_scan _ _ _ _) as [[[[p1 w1] cs1]|]|] eqn:S; cbn [rbind] in H; try discriminate.
    apply cut_round in S; [|exact C]. destruct S as (S1 & S2 & _ & l & S4 & S5). apply IH in H; [|exact S1]. destruct H as (H1 & l2 & H2 & H3).
    split; [exact H1|]. exists (l ++ l2). split; [rewrite H2, S4, app_assoc; reflexivity|]. intros F0. apply astray_app; [exact (S5 F0)|]. apply H3. destruct S2; congruence.
Qed.
Theorem C114_nonpersistent_refuted : forall retries itime fd junk w cs pre r post p1 w1 cs1 p2 w2 cs2, w_fds w 0 <> Some Line -> r_early r = true ->
  mrounds (new_serial false retries 0 itime fd junk, w, cs) (pre ++ [r]) = Done (Some (p1, w1, cs1)) ->
  mrounds (p1, w1, cs1) post = Done (Some (p2, w2, cs2)) ->
  exists l, w_log w2 = w_log w1 ++ l /\ forall id fd f, In (Sent id fd f) l -> fd = 0 /\ f <> Some Line.
Proof.
  intros retries itime fd junk w cs pre r post p1 w1 cs1 p2 w2 cs2 F0 Er H1 H2.
  assert (C0 : cut (new_serial false retries 0 itime fd junk) w) by (repeat split; exact F0).
  assert (G : cut p1 w1 /\ p_fd p1 = 0).
  { clear H2 F0. revert H1 C0. generalize (new_serial false retries 0 itime fd junk). intros p. revert p w cs. induction pre as [|r0 pre IH]; intros p w cs H C; cbn [app mrounds] in H.
    - destruct (master_scan _ _ _ _) as [[[[p3 w3] cs3]|]|] eqn:S; cbn [rbind] in H; try discriminate. injection H as -> -> ->. apply cut_round in S; [|exact C]. split; [apply S|]. apply S. exact Er.
    - destruct (master_scan _ _ _ _) as [[[[p3 w3] cs3]|]|] eqn:S; cbn [rbind] in H; try discriminate. apply cut_round in S; [|exact C]. eapply IH; [exact H|apply S]. }
  destruct G as (G & F1). apply cut_rounds in H2; [|exact G]. destruct H2 as (_ & l & L & A). exists l. split; [exact L|exact (A F1)].
Qed.

(** *** Concrete cases *)
(** two rounds without an answer, then one with an exception *)
Definition third : nat -> try := fun i => if (i <? 2)%nat then mkT 8 (- Z.of_nat i) 0 else mkT 8 5 2.
Example C112_ex : exists p' c' w', send_command (new_serial true 3 0 0 5 true) poll NoSocket third bench = Done (p', c', w', 5) /\
  sent (w_log w') = 3 /\ c_requests c' = 3 /\ c_responses c' = 1 /\ c_timeouts c' = 1 /\ c_crcerrors c' = 1 /\ c_lasterror c' = 130.
Proof. eexists _, _, _. split; [vm_compute; reflexivity|]. vm_compute. repeat split. Qed.
(** a command of interval 2 and one of interval 3, the second disabled in the first round *)
Definition three : list cmd := [mkCmd 1 true true 0 0 2 0 0 0 0 0 0 0; mkCmd 2 true true 0 0 3 0 0 0 0 0 0 0; mkCmd 3 true false 0 0 0 0 0 0 0 0 0 0].
Definition rnd (k : Z) : round := mkR true (fun id => negb ((id =? 2) && (k =? 1))) (fun _ => mkA (Connects 7) (fun _ => mkT 12 0 0)) false None.
Example C113_ex : exists p1 w1 cs1 p2 w2 cs2, rounds (new_tcp true 0 0 true, mkW (fun _ => None) [], three) [rnd 1; rnd 2; rnd 3] = Done (p1, w1, cs1) /\
  rounds (p1, w1, cs1) [rnd 4] = Done (p2, w2, cs2) /\ Forall (fun c => c_icount c = 0 /\ 0 <= c_interval c < 4294967296) three /\
  map c_id (filter (is_due [rnd 1; rnd 2; rnd 3] (rnd 4)) three) = [1; 2] /\ called (w_log w1) = [1].
Proof.
  eexists _, _, _, _, _, _. split; [vm_compute; reflexivity|]. split; [vm_compute; reflexivity|].
  split; [repeat constructor; cbn; lia|]. split; vm_compute; reflexivity.
Qed.
Example C114_ex : exists p' w' cs', mrounds (new_serial true 0 2 10 5 false, bench, [poll]) [mute; heard; mute; mute; heard] = Done (Some (p', w', cs')) /\
  w_log w' = try1 ++ [Called 1; Sent 1 5 (Some Line); Ended 1 true] ++ try1 ++ try1 ++ [Closed 5 (Some Line)] ++ [Called 1; Sent 1 5 (Some Line); Ended 1 true].
Proof. eexists _, _, _. split; [vm_compute; reflexivity|reflexivity]. Qed.
(** a non-persistent port that polls: the second request goes to descriptor 0 *)
Example C114_cut_ex : exists p1 w1 cs1 p2 w2 cs2,
  mrounds (new_serial false 0 0 0 5 true, bench, [poll]) ([] ++ [mkR true (fun _ => true) (fun _ => mkA NoSocket (fun _ => mkT 8 7 0)) true None]) = Done (Some (p1, w1, cs1)) /\
  mrounds (p1, w1, cs1) [heard] = Done (Some (p2, w2, cs2)) /\ w_log w2 = w_log w1 ++ [Called 1; Sent 1 0 (Some Foreign); Ended 1 true].
Proof. eexists _, _, _, _, _, _. split; [vm_compute; reflexivity|]. split; [vm_compute; reflexivity|reflexivity]. Qed.
