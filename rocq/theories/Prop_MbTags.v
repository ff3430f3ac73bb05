(** * C119 to C122: asynchronous commands, settings, privileges and connections of the Modbus module *)
From Verif Require Import Base Const Lib Spec Modbus Master MbPort MbStart Prop_Modbus Prop_ModbusMaster Prop_ModbusPoll MbPortProofs Prop_MbScan.

(** ** C119: the command tag of a port *)
(** the command that the first 15 bytes [b] of the tag and its data area describe: as many bytes of [data] as the function needs *)
Definition wanted (b data : list Z) : mbcmd :=
  let fn := nthb b 10 in let len := nthb b 13 + 256 * nthb b 14 in
  mk_mbcmd 1 (nthb b 9) fn (nthb b 11 + 256 * nthb b 12) len
    (firstn (Z.to_nat (if (fn =? 1) || (fn =? 2) || (fn =? 15) then (len + 7) / 8 else if fn =? 5 then 1 else if fn =? 6 then 2 else 2 * len)) data) 0 false.
Lemma put_swapped_cut k : forall n d d' b i, 0 <= n -> 2 * (n + Z.of_nat k) <= zlen d -> put_swapped k n (d ++ d') b i = put_swapped k n d b i.
Proof.
  induction k as [|k IH]; intros n d d' b i Hn L; cbn [put_swapped]; [reflexivity|]. pose proof (zlen_nonneg d').
  replace (in_bounds (2 * n) 2 (zlen (d ++ d'))) with true by (unfold in_bounds; rewrite zlen_app; lia). replace (in_bounds (2 * n) 2 (zlen d)) with true by (unfold in_bounds; lia). cbn [negb].
  rewrite !nthb_app1 by lia. destruct (put_byte b i _) as [b1|]; cbn [rbind]; [|reflexivity]. destruct (put_byte b1 (i + 1) _) as [b2|]; cbn [rbind]; [|reflexivity]. apply IH; lia.
Qed.
Lemma slice_app1 k d d' : 0 <= k <= zlen d -> slice 0 k (d ++ d') = slice 0 k d.
Proof. intros H. unfold slice. cbn [Z.to_nat skipn]. rewrite firstn_app. replace (Z.to_nat k - length d)%nat with 0%nat by (unfold zlen in H; lia). cbn [firstn]. apply app_nil_r. Qed.
(** Over TCP, a command of the tag is sent as the protocol wants it if it is legal and its data fit in the 240 bytes of the tag (a single coil apart, see C59). *)
Theorem C119_sent_partial : forall b data last first tid junk jcrc, bytes_ok b -> zlen data = 240 -> bytes_ok data -> 0 <= tid < 65536 -> zlen junk = 1024 ->
  nthb b 10 <> 5 -> command (wanted b data) ->
  exists c', tcp_request (async_cmd b data last first) tid junk jcrc = Done (Some (on_tcp tid (pdu (wanted b data))), c').
Proof.
  intros b data last first tid junk jcrc Bb L B T J N5 C.
  destruct (C59_tcp (wanted b data) tid junk jcrc C N5 T J) as (o & c1 & E & S). destruct S as [(f & -> & ->)|(_ & S & _)]; [|exfalso; apply S; reflexivity].
  destruct (command_fn _ C) as (F & Ld & Ll). cbn [wanted mc_fn mc_len mc_data] in F, Ll, Ld.
  assert (CL := C). destruct CL as (_ & _ & _ & CL). cbn [wanted mc_fn mc_len mc_data] in CL.
  revert E. unfold tcp_request, must_send, async_cmd, wanted, data_byte. cbn [mc_enable mc_fn mc_data mc_node mc_reg mc_len mc_last mc_first].
  set (fn := nthb b 10) in *. set (len := nthb b 13 + 256 * nthb b 14) in *. set (reg := nthb b 11 + 256 * nthb b 12).
  change (1 =? 1) with true. cbn [orb].
  set (n := if (fn =? 1) || (fn =? 2) || (fn =? 15) then (len + 7) / 8 else if fn =? 5 then 1 else if fn =? 6 then 2 else 2 * len) in *.
  assert (LF : zlen (firstn (Z.to_nat n) data) <= 240) by (unfold zlen in *; rewrite firstn_length; lia).
  pose proof (firstn_skipn (Z.to_nat n) data) as FS. set (d1 := firstn (Z.to_nat n) data) in *. set (d2 := skipn (Z.to_nat n) data) in *.
  assert (Z0 : znth data 0 = znth d1 0) by (rewrite <- FS; apply znth_app1; lia). rewrite Z0.
  destruct (znth_some d1 0) as (x0 & X0); [lia|]. rewrite X0. cbn [rbind].
  assert (PS : forall k b i, 2 * Z.of_nat k <= zlen d1 -> put_swapped k 0 data b i = put_swapped k 0 d1 b i) by (intros k b0 i Hk; rewrite <- FS; apply put_swapped_cut; lia).
  assert (SL : forall k, 0 <= k <= zlen d1 -> slice 0 k data = slice 0 k d1) by (intros k Hk; rewrite <- FS; apply slice_app1; lia).
  assert (F' : fn = 1 \/ fn = 2 \/ fn = 3 \/ fn = 4 \/ fn = 6 \/ fn = 15 \/ fn = 16) by (cbn [In] in F; lia). clearbody fn. clear F.
  assert (GEN : forall (ca cb : mbcmd) (r1 r2 : list Z -> run (list Z * Z)) fr,
    (forall b0, r1 b0 = r2 b0) ->
    (b0 <-- put_word junk 0 tid;; b1 <-- put_word b0 2 0;; b2 <-- put_byte b1 6 (nthb b 9);; b3 <-- put_byte b2 7 fn;; b4 <-- put_word b3 8 reg;; y <-- r1 b4;; (let '(b5, length) := y in b6 <-- put_word b5 4 length;; (if in_bounds 0 (length + 6) (zlen b6) then Done (Some (slice 0 (length + 6) b6), ca) else Undef UOob))) = Done (Some fr, c1) ->
    exists c', (b0 <-- put_word junk 0 tid;; b1 <-- put_word b0 2 0;; b2 <-- put_byte b1 6 (nthb b 9);; b3 <-- put_byte b2 7 fn;; b4 <-- put_word b3 8 reg;; y <-- r2 b4;; (let '(b5, length) := y in b6 <-- put_word b5 4 length;; (if in_bounds 0 (length + 6) (zlen b6) then Done (Some (slice 0 (length + 6) b6), cb) else Undef UOob))) = Done (Some fr, c')).
  { clear. intros ca cb r1 r2 fr R H. destruct (put_word junk 0 tid) as [l|]; cbn [rbind] in *; [|discriminate]. destruct (put_word l 2 0) as [l0|]; cbn [rbind] in *; [|discriminate].
    destruct (put_byte l0 6 _) as [l1|]; cbn [rbind] in *; [|discriminate]. destruct (put_byte l1 7 _) as [l2|]; cbn [rbind] in *; [|discriminate]. destruct (put_word l2 8 _) as [l3|]; cbn [rbind] in *; [|discriminate].
    rewrite <- R. destruct (r1 l3) as [[l4 n]|]; cbn [rbind] in *; [|discriminate]. destruct (put_word l4 4 n); cbn [rbind] in *; [|discriminate]. destruct (in_bounds _ _ _); [|discriminate].
    injection H as H _. rewrite H. eexists. reflexivity. }
  destruct F' as [-> |[-> |[-> |[-> |[-> |[-> | ->]]]]]]; cbn [Z.eqb Pos.eqb orb andb negb rbind Z.leb Z.compare Pos.compare Pos.compare_cont] in *;
    (intros E; eapply GEN; [|exact E]; intros b0; cbn beta).
  all: try reflexivity.
  - rewrite PS by lia. reflexivity.
  - replace (in_bounds 0 (u8 (Z.quot (len - 1) 8 + 1)) (zlen data)) with true; [replace (in_bounds 0 (u8 (Z.quot (len - 1) 8 + 1)) (zlen d1)) with true; [rewrite SL; [reflexivity|]|]|];
      rewrite Z.quot_div_nonneg by lia; rewrite u8_small by lia; unfold in_bounds; lia.
  - destruct (put_word b0 10 len) as [b6|]; cbn [rbind]; [|reflexivity]. destruct (put_byte b6 12 (len * 2)) as [b7|]; cbn [rbind]; [|reflexivity]. rewrite PS by lia. reflexivity.
Qed.
Lemma get_words_over k : forall n buff data, 0 <= n -> 2 * n <= zlen data -> zlen data < 2 * (n + Z.of_nat k) -> 2 * (n + Z.of_nat k) + 3 <= zlen buff -> get_words k n buff data = Undef UOob.
Proof.
  induction k as [|k IH]; intros n buff data Hn L1 L2 L3; [lia|]. cbn [get_words]. replace (in_bounds (n * 2 + 3) 2 (zlen buff)) with true by (unfold in_bounds; lia). cbn [negb].
  unfold put_byte at 1. destruct (in_bounds (2 * n) 1 (zlen data)) eqn:I; [|reflexivity]. cbn [rbind]. unfold put_byte at 1. rewrite zset_zlen.
  destruct (in_bounds (2 * n + 1) 1 (zlen data)) eqn:I2; [|reflexivity]. cbn [rbind]. unfold in_bounds in *. apply IH; rewrite ?zset_zlen; lia.
Qed.
Lemma put_swapped_over k : forall n data b i, 0 <= n -> 0 <= i -> zlen data < 2 * (n + Z.of_nat k) -> 2 * n <= zlen data -> i + 2 * Z.of_nat k <= zlen b -> put_swapped k n data b i = Undef UOob.
Proof.
  induction k as [|k IH]; intros n data b i Hn Hi L1 L2 L3; [lia|]. cbn [put_swapped]. destruct (in_bounds (2 * n) 2 (zlen data)) eqn:I; [|reflexivity]. cbn [negb].
  unfold put_byte at 1. replace (in_bounds i 1 (zlen b)) with true by (unfold in_bounds; lia). cbn [rbind]. unfold put_byte at 1. rewrite zset_zlen.
  replace (in_bounds (i + 1) 1 (zlen b)) with true by (unfold in_bounds; lia). cbn [rbind]. unfold in_bounds in I. apply IH; rewrite ?zset_zlen; lia.
Qed.
(** Between 121 and 125 registers can be read by the protocol, but the answer is stored beyond the data area. *)
Theorem C119_read_refuted : forall b data last first buff, zlen data = 240 -> zlen buff = 1024 -> bytes_ok buff ->
  nthb b 10 = 3 \/ nthb b 10 = 4 -> nthb buff 0 = nthb b 9 -> nthb buff 1 = nthb b 10 -> 242 <= nthb buff 2 ->
  handle_response (async_cmd b data last first) buff = Undef UOob.
Proof.
  intros b data last first buff L Lb B F N0 N1 N2. assert (R2 := nthb_byte buff 2 B). unfold handle_response, async_cmd. cbn [mc_fn mc_node mc_data].
  replace (in_bounds 0 3 (zlen buff)) with true by (unfold in_bounds; lia). cbn [negb]. rewrite N0, N1, !Z.eqb_refl. cbn [negb]. replace (128 <=? nthb b 10) with false by lia.
  replace ((nthb b 10 =? 1) || (nthb b 10 =? 2)) with false by lia. replace ((nthb b 10 =? 3) || (nthb b 10 =? 4)) with true by lia.
  rewrite get_words_over by lia. reflexivity.
Qed.
(** Between 121 and 123 registers can be written by the protocol, but what is sent is read from beyond the data area. *)
Theorem C119_write_refuted : forall b data last first tid junk jcrc, zlen data = 240 -> zlen junk = 1024 -> nthb b 10 = 16 -> 121 <= nthb b 13 + 256 * nthb b 14 <= 123 ->
  tcp_request (async_cmd b data last first) tid junk jcrc = Undef UOob.
Proof.
  intros b data last first tid junk jcrc L J F Ln. unfold tcp_request, must_send, async_cmd. cbn [mc_fn mc_enable mc_data mc_len mc_reg mc_node mc_last mc_first]. rewrite F.
  set (len := nthb b 13 + 256 * nthb b 14) in *. cbn [Z.eqb Pos.eqb orb andb negb rbind Z.leb Z.compare Pos.compare Pos.compare_cont].
  assert (PB : forall l i v, zlen l = 1024 -> 0 <= i < 1024 -> exists l', put_byte l i v = Done l' /\ zlen l' = 1024).
  { intros l i v Hl Hi. unfold put_byte. replace (in_bounds i 1 (zlen l)) with true by (unfold in_bounds; lia). eexists. split; [reflexivity|]. rewrite zset_zlen. exact Hl. }
  assert (PW : forall l i v, zlen l = 1024 -> 0 <= i < 1023 -> exists l', put_word l i v = Done l' /\ zlen l' = 1024).
  { intros l i v Hl Hi. unfold put_word. destruct (PB l i (v / 256) Hl ltac:(lia)) as (l1 & -> & L1). cbn [rbind]. apply PB; [exact L1|lia]. }
  destruct (PW junk 0 tid J ltac:(lia)) as (l1 & -> & L1). cbn [rbind]. destruct (PW l1 2 0 L1 ltac:(lia)) as (l2 & -> & L2). cbn [rbind].
  destruct (PB l2 6 (nthb b 9) L2 ltac:(lia)) as (l3 & -> & L3). cbn [rbind]. destruct (PB l3 7 16 L3 ltac:(lia)) as (l4 & -> & L4). cbn [rbind].
  destruct (PW l4 8 (nthb b 11 + 256 * nthb b 12) L4 ltac:(lia)) as (l5 & -> & L5). cbn [rbind]. destruct (PW l5 10 len L5 ltac:(lia)) as (l6 & -> & L6). cbn [rbind].
  destruct (PB l6 12 (len * 2) L6 ltac:(lia)) as (l7 & -> & L7). cbn [rbind]. rewrite put_swapped_over by lia. reflexivity.
Qed.
(** A function code other than the eight is sent as well, with a length that was never set. *)
Theorem C119_function_refuted : forall b data last first tid junk jcrc, zlen junk = 1024 -> ~ In (nthb b 10) [1; 2; 3; 4; 5; 6; 15; 16] ->
  tcp_request (async_cmd b data last first) tid junk jcrc = Undef UUninit.
Proof.
  intros b data last first tid junk jcrc J F. cbn [In] in F. unfold tcp_request, must_send, async_cmd. cbn [mc_fn mc_enable mc_data mc_len mc_reg mc_node mc_last mc_first].
  set (fn := nthb b 10) in *. replace (fn =? 5) with false by lia. replace (fn =? 6) with false by lia. replace (fn =? 15) with false by lia. replace (fn =? 16) with false by lia. cbn [orb rbind negb].
  replace ((1 <=? fn) && (fn <=? 4)) with false by lia.
  assert (PB : forall l i v, zlen l = 1024 -> 0 <= i < 1024 -> exists l', put_byte l i v = Done l' /\ zlen l' = 1024).
  { intros l i v Hl Hi. unfold put_byte. replace (in_bounds i 1 (zlen l)) with true by (unfold in_bounds; lia). eexists. split; [reflexivity|]. rewrite zset_zlen. exact Hl. }
  assert (PW : forall l i v, zlen l = 1024 -> 0 <= i < 1023 -> exists l', put_word l i v = Done l' /\ zlen l' = 1024).
  { intros l i v Hl Hi. unfold put_word. destruct (PB l i (v / 256) Hl ltac:(lia)) as (l1 & -> & L1). cbn [rbind]. apply PB; [exact L1|lia]. }
  destruct (PW junk 0 tid J ltac:(lia)) as (l1 & -> & L1). cbn [rbind]. destruct (PW l1 2 0 L1 ltac:(lia)) as (l2 & -> & L2). cbn [rbind].
  destruct (PB l2 6 (nthb b 9) L2 ltac:(lia)) as (l3 & -> & L3). cbn [rbind]. destruct (PB l3 7 fn L3 ltac:(lia)) as (l4 & -> & L4). cbn [rbind].
  destruct (PW l4 8 (nthb b 11 + 256 * nthb b 12) L4 ltac:(lia)) as (l5 & -> & L5). reflexivity.
Qed.
(** What is written back: the send bit is cleared, the response is lasterror, and nothing else changes. *)
Theorem C119_written_back : forall b e, zlen b = 15 -> 0 <= e < 65536 -> let r := async_result b e in
  zlen r = 15 /\ nthb r 0 = 0 /\ nthb r 1 + 256 * nthb r 2 = e /\ forall i, 3 <= i < 15 -> nthb r i = nthb b i.
Proof.
  intros b e L E r. unfold r, async_result. assert (NZ : forall l i v j, 0 <= i < zlen l -> 0 <= j -> nthb (zset l i v) j = if j =? i then v else nthb l j).
  { intros l i v j Hi Hj. destruct (Z.eqb_spec j i) as [->|N].
    - apply nthb_znth. apply znth_zset_eq. exact Hi.
    - destruct (Z.ltb_spec j (zlen l)) as [Hl|Hl].
      + apply nthb_znth. rewrite znth_zset_ne by lia. apply znth_nthb. lia.
      + unfold nthb. rewrite !nth_overflow; [reflexivity|unfold zlen in *; lia|]. pose proof (zset_zlen l i v). unfold zlen in *. lia. }
  rewrite !zset_zlen. split; [exact L|]. rewrite !NZ by (rewrite ?zset_zlen; lia). cbn [Z.eqb Pos.eqb]. split; [reflexivity|]. split; [unfold u8; lia|].
  intros i Hi. rewrite !NZ by (rewrite ?zset_zlen; lia). replace (i =? 2) with false by lia. replace (i =? 1) with false by lia. replace (i =? 0) with false by lia. reflexivity.
Qed.
(** If the device answered, the response is 0 or the exception; if it was silent to the last, it is 8 or 4. *)
Theorem C119_response_partial : forall b p c r ts w p' c' w' res, 0 <= p_retries p -> send_command p (async_port_cmd b c) r ts w = Done (p', c', w', res) ->
  (0 < res -> exists i, res = t_got (ts i) /\ c_lasterror c' = if 0 <? t_code (ts i) then u8 (Z.lor (t_code (ts i)) 128) else 0) /\
  (res < -1 -> res <> MB_ERR_OPEN -> c_lasterror c' = 8 \/ c_lasterror c' = 4).
Proof.
  intros b p c r ts w p' c' w' res Hr H. apply C112_tries in H; [|reflexivity|exact Hr]. destruct H as (l & _ & _ & [(_ & -> & _ & _)|(f & n & (_ & E & _) & _)]).
  - split; [unfold MB_ERR_OPEN; lia|intros _ H; destruct (H eq_refl)].
  - destruct E as [(_ & _ & R & Le & _)|[(m & _ & _ & (_ & _ & G & _) & R & Le & _)|[(m & _ & _ & _ & -> & _)|(_ & _ & _ & -> & _)]]].
    + split; [lia|]. intros _ _. lia.
    + split; [|lia]. intros _. eexists. split; [exact R|exact Le].
    + split; lia.
    + split; lia.
Qed.
(** If there is no connection, or the request cannot be written, the response is that of the command before: 0, a success, if there was none. *)
Theorem C119_stale_refuted : forall b p c ts w, p_tcp p = true -> find_conn (p_pool p) (c_addr (async_port_cmd b c)) (c_port (async_port_cmd b c)) = None ->
  exists p' w', send_command p (async_port_cmd b c) NoSocket ts w = Done (p', async_port_cmd b c, w', MB_ERR_OPEN) /\ c_lasterror (async_port_cmd b c) = c_lasterror c.
Proof. intros b p c ts w T F. unfold send_command. cbn [async_port_cmd c_enable negb]. rewrite T. unfold get_connection. cbn [async_port_cmd c_addr c_port] in *. rewrite F. cbn. rewrite T. cbn. eauto. Qed.
Definition a_tag : list Z := [1; 0; 0; 127; 0; 0; 1; 246; 1; 1; 16; 100; 0; 2; 0].
Example C119_ex : command (wanted a_tag ([1; 2; 3; 4] ++ zeros 236)) /\
  fst_of (tcp_request (async_cmd a_tag ([1; 2; 3; 4] ++ zeros 236) 0 false) 7 (zeros 1024) 0) = Some [0; 7; 0; 0; 0; 11; 1; 16; 0; 100; 0; 2; 4; 2; 1; 4; 3].
Proof. split; [|vm_compute; reflexivity]. vm_compute. split; [split; discriminate|]. split; [split; [discriminate|reflexivity]|]. split; [|split; [split; discriminate|reflexivity]]. repeat constructor; discriminate. Qed.

(** ** C120: what is made of the settings of a port *)
(** The parity of the configuration is never stored: the port is opened without parity. *)
Theorem C120_parity_refuted : forall s, se_parity (fst (set_serial s)) = 0.
Proof. intros s. unfold set_serial. destruct (negb (existsb _ _)); [reflexivity|]. destruct (negb _); [reflexivity|]. destruct (negb _); reflexivity. Qed.
(** The other settings of an accepted port are used, and only sensible ones are accepted. *)
Theorem C120_serial_partial : forall s, snd (set_serial s) = 0 -> let t := fst (set_serial s) in
  se_baud t = se_baud s /\ se_data t = se_data s /\ se_stop t = se_stop s /\ In (se_baud s) baudrates /\ 5 <= se_data s <= 8 /\ 1 <= se_stop s <= 2.
Proof.
  intros s. unfold set_serial. destruct (existsb (Z.eqb (se_baud s)) baudrates) eqn:E; cbn [negb]; [|discriminate]. destruct ((5 <=? se_data s) && (se_data s <=? 8)) eqn:D; cbn [negb]; [|discriminate].
  destruct ((se_stop s =? 1) || (se_stop s =? 2)) eqn:St; cbn [negb]; [|discriminate]. intros _. cbn [fst se_baud se_data se_stop].
  split; [reflexivity|]. split; [reflexivity|]. split; [reflexivity|]. apply existsb_exists in E. destruct E as (x & Ex & Q). replace (se_baud s) with x by lia. split; [exact Ex|]. lia.
Qed.
(** A number of retries of 0 is kept, but replaces the configured timeout by one millisecond; otherwise the timeout is the configured one. *)
Theorem C120_timeout_refuted : forall t, set_timing t 0 = (1, 0).
Proof. intros t. unfold set_timing. destruct (t =? 0); reflexivity. Qed.
Theorem C120_timeout_partial : forall t r, 0 < t -> 0 < r <= 100 -> set_timing t r = (t, r).
Proof. intros t r Ht Hr. unfold set_timing. replace (t =? 0) with false by lia. replace (r =? 0) with false by lia. replace (100 <? r) with false by lia. reflexivity. Qed.
(** An address of up to 14 characters arrives; one of 15, such as 192.168.100.100, is not terminated. *)
Definition text (a : list Z) : Prop := Forall (fun v => v <> 0) a.
Definition str_of : list Z -> run (list Z) := fix str (l : list Z) : run (list Z) := match l with [] => Undef UOob | v :: l => if v =? 0 then Done [] else r <-- str l ;; Done (v :: r) end.
Lemma str_text a : forall r, text a -> str_of (a ++ 0 :: r) = Done a.
Proof.
  induction a as [|v a IH]; intros r T; [reflexivity|]. inversion T as [|? ? N T']; subst. cbn [app]. change (str_of (v :: a ++ 0 :: r)) with (if v =? 0 then Done [] else x <-- str_of (a ++ 0 :: r) ;; Done (v :: x)).
  replace (v =? 0) with false by lia. rewrite IH by exact T'. reflexivity.
Qed.
Theorem C120_address_partial : forall a junk, text a -> zlen a <= 14 -> bind_address a junk = Done a.
Proof.
  intros a junk T L. change (bind_address a junk) with (str_of (firstn 15 (a ++ zeros 15) ++ [nthb junk 15])).
  rewrite firstn_app. rewrite firstn_all2 by (unfold zlen in L; lia). rewrite <- app_assoc.
  assert (Q : exists n, (15 - length a = Datatypes.S n)%nat) by (exists (14 - length a)%nat; unfold zlen in L; lia). destruct Q as (n & ->). cbn [zeros]. change (zeros 15) with (0 :: zeros 14). cbn [firstn app]. apply str_text. exact T.
Qed.
Theorem C120_address_refuted : forall a junk, text a -> zlen a = 15 -> nthb junk 15 <> 0 -> bind_address a junk = Undef UOob.
Proof.
  intros a junk T L J. change (bind_address a junk) with (str_of (firstn 15 (a ++ zeros 15) ++ [nthb junk 15])).
  rewrite firstn_app. rewrite firstn_all2 by (unfold zlen in L; lia). replace (15 - length a)%nat with 0%nat by (unfold zlen in L; lia). cbn [firstn]. rewrite app_nil_r. clear L.
  induction T as [|v a N T IH]; [cbn; replace (nthb junk 15 =? 0) with false by lia; reflexivity|]. cbn [app]. change (str_of (v :: a ++ [nthb junk 15])) with (if v =? 0 then Done [] else x <-- str_of (a ++ [nthb junk 15]) ;; Done (v :: x)).
  replace (v =? 0) with false by lia. rewrite IH. reflexivity.
Qed.
Example C120_ex : set_serial (mkSer 19200 7 1 2) = (mkSer 19200 7 0 2, 0) /\ set_timing 500 0 = (1, 0) /\ bind_address [49; 46; 50] (zeros 16) = Done [49; 46; 50].
Proof. repeat split. Qed.

(** ** C121: giving up privileges *)
(** If the module goes on after the barrier, it has the user and the group that were asked for. *)
Theorem C121_result_partial : forall pw gr u g c c', demote pw gr (Some u) g c = Done (c', 0) ->
  pw u = Some (euid c') /\ (forall x, g = Some x -> gr x = Some (egid c')) /\ (g = None -> egid c' = egid c).
Proof.
  intros pw gr u g c c' H. unfold demote in H. destruct (pw u) as [uid|] eqn:P; [|destruct g; cbn in H; discriminate].
  assert (SU : forall x y r, k_setuid uid x = (y, r) -> r = 0 -> euid y = uid /\ egid y = egid x).
  { intros x y r. unfold k_setuid. destruct (euid x =? 0); [intros [= <- <-] _; split; reflexivity|]. destruct (_ || _); [intros [= <- <-] _; split; reflexivity|]. intros [= <- <-] ?. discriminate. }
  destruct (k_setuid uid c) as [c1 r] eqn:K. destruct g as [x|].
  - destruct (gr x) as [gid|] eqn:G; [|discriminate]. destruct (k_setgid gid c1) as [c2 r2] eqn:K2. injection H as -> H.
    assert (r = 0 /\ r2 = 0) as (-> & ->) by (destruct (Z.eqb_spec r2 0), (Z.eqb_spec r 0); lia).
    destruct (SU _ _ _ K eq_refl) as (A & _). unfold k_setgid in K2. destruct (euid c1 =? 0); [injection K2 as <-; cbn in *; split; [congruence|]; split; [intros ? [= <-]; exact G|discriminate]|].
    destruct (_ || _); [|discriminate]. injection K2 as <-. cbn in *. split; [congruence|]. split; [intros ? [= <-]; exact G|discriminate].
  - injection H as -> H. assert (r = 0) as -> by (destruct (Z.eqb_spec r 0); lia). destruct (SU _ _ _ K eq_refl) as (A & B). split; [congruence|]. split; [discriminate|]. intros _. exact B.
Qed.
(** Started as root with a user other than root and a group, the user is changed first and the group is then refused: the module ends. *)
Theorem C121_group_refuted : forall pw gr u g uid gid c, pw u = Some uid -> gr g = Some gid -> euid c = 0 -> uid <> 0 -> gid <> rgid c -> gid <> sgid c ->
  exists c', demote pw gr (Some u) (Some g) c = Done (c', 1) /\ egid c' = egid c.
Proof.
  intros pw gr u g uid gid c P G E U N1 N2. unfold demote, k_setuid. rewrite P, E. cbn [Z.eqb]. rewrite G. unfold k_setgid. cbn [euid rgid sgid]. replace (uid =? 0) with false by lia.
  replace ((gid =? rgid c) || (gid =? sgid c)) with false by lia. cbn. eexists. split; reflexivity.
Qed.
(** A group that does not exist is a null pointer; a group without a user reads a variable that was never set. *)
Theorem C121_unknown_refuted : forall pw gr u g uid c, pw u = Some uid -> gr g = None -> demote pw gr (Some u) (Some g) c = Undef UNull.
Proof. intros pw gr u g uid c P G. unfold demote. rewrite P. destruct (k_setuid uid c). rewrite G. reflexivity. Qed.
Theorem C121_alone_refuted : forall pw gr g c, demote pw gr None (Some g) c = Undef UUninit.
Proof. reflexivity. Qed.
Definition root : creds := Build_creds 0 0 0 0 0 0.
Example C121_ex : demote (fun _ => Some 1000) (fun _ => Some 100) (Some 1) None root = Done (Build_creds 1000 1000 1000 0 0 0, 0)
  /\ demote (fun _ => Some 1000) (fun _ => Some 100) (Some 1) (Some 2) root = Done (Build_creds 1000 1000 1000 0 0 0, 1).
Proof. split; reflexivity. Qed.

(** ** C122: the connections of the TCP server *)
(** the descriptors that are open, and what was received on [fd] since it was accepted, answered or quiet *)
Definition opens (es : list pev) : list Z := fold_left (fun l e => match e with PAccept fd => fd :: l | PEof fd => filter (fun x => negb (x =? fd)) l | _ => l end) es [].
Definition since (es : list pev) (fd : Z) : list Z :=
  fold_left (fun b e => match e with PAccept f | PDone f _ => if f =? fd then [] else b | PData f d => if f =? fd then b ++ d else b | PEof _ => b | PQuiet => [] end) es [].
(** what the kernel does: a new descriptor is not in use, and only open ones can be read *)
Fixpoint legal (l : list Z) (es : list pev) : Prop :=
  match es with
  | [] => True
  | PAccept fd :: es => 0 <= fd <= 1023 /\ ~ In fd l /\ legal (fd :: l) es
  | PData fd _ :: es | PDone fd _ :: es => In fd l /\ legal l es
  | PEof fd :: es => In fd l /\ legal (filter (fun x => negb (x =? fd)) l) es
  | PQuiet :: es => legal l es
  end.
Lemma get_put l fd b g : get_buff (put_buff l fd b) g = if g =? fd then option_map (fun _ => b) (get_buff l fd) else get_buff l g.
Proof.
  induction l as [|[f x] l IH]; cbn; [destruct (g =? fd); reflexivity|]. destruct (Z.eqb_spec f fd) as [->|N]; cbn.
  - destruct (Z.eqb_spec fd g) as [->|M]; [rewrite Z.eqb_refl; reflexivity|]. replace (g =? fd) with false by lia. reflexivity.
  - rewrite IH. destruct (Z.eqb_spec f g) as [->|M]; [replace (g =? fd) with false by lia; reflexivity|reflexivity].
Qed.
Lemma get_map l g : get_buff (map (fun x : Z * list Z => (fst x, [])) l) g = option_map (fun _ => []) (get_buff l g).
Proof. induction l as [|[f x] l IH]; cbn; [reflexivity|]. destruct (f =? g); [reflexivity|exact IH]. Qed.
Lemma last_set_ge set n x : In x set -> 0 <= x <= Z.of_nat n -> x <= last_set set n.
Proof.
  induction n as [|n IH]; intros I H; cbn [last_set]; (destruct (existsb _ set) eqn:E; [lia|]); [lia|]. destruct (Z.eq_dec x (Z.of_nat (Datatypes.S n))) as [->|N]; [|apply IH; [exact I|lia]].
  exfalso. assert (T : existsb (Z.eqb (Z.of_nat (Datatypes.S n))) set = true) by (apply existsb_exists; eexists; split; [exact I|apply Z.eqb_refl]). congruence.
Qed.
Lemma ps_inv es : forall s l (B : Z -> list Z), ps_set s = l -> (forall fd, In fd l -> 0 <= fd <= ps_max s /\ get_buff (ps_buffs s) fd = Some (B fd)) -> legal l es ->
  exists s', ps_run s es = Done s' /\ ps_set s' = fold_left (fun l e => match e with PAccept fd => fd :: l | PEof fd => filter (fun x => negb (x =? fd)) l | _ => l end) es l /\
    forall fd, In fd (ps_set s') -> 0 <= fd <= ps_max s' /\ get_buff (ps_buffs s') fd =
      Some (fold_left (fun b e => match e with PAccept f | PDone f _ => if f =? fd then [] else b | PData f d => if f =? fd then b ++ d else b | PEof _ => b | PQuiet => [] end) es (B fd)).
Proof.
  induction es as [|e es IH]; intros s l B S I L; [exists s; split; [reflexivity|]; split; [exact S|]; rewrite S; exact I|]. cbn [ps_run fold_left]. destruct e as [fd|fd d|fd d|fd|]; cbn [legal] in L; cbn [ps_step].
  - destruct L as (R & N & L). replace (1023 <? fd) with false by lia. cbn [rbind].
    destruct (IH (mkPs ((fd, []) :: ps_buffs s) (fd :: ps_set s) (if ps_max s <? fd then fd else ps_max s)) (fd :: l) (fun g => if fd =? g then [] else B g)) as (s' & E & Q & G).
    + cbn. rewrite S. reflexivity.
    + intros g [<-|Hg]; cbn [ps_max ps_buffs get_buff]; [rewrite Z.eqb_refl; split; [destruct (ps_max s <? fd) eqn:X; lia|reflexivity]|].
      destruct (I g Hg) as (I1 & I2). split; [destruct (ps_max s <? fd) eqn:X; lia|]. replace (fd =? g) with false by (symmetry; apply Z.eqb_neq; intros ->; contradiction). exact I2.
    + exact L.
    + exists s'. split; [exact E|]. split; [exact Q|exact G].
  - destruct L as (O & L). destruct (I fd O) as (_ & Gb). rewrite Gb. cbn [rbind].
    destruct (IH (mkPs (put_buff (ps_buffs s) fd (B fd ++ d)) (ps_set s) (ps_max s)) l (fun g => if fd =? g then B g ++ d else B g)) as (s' & E & Q & G); [exact S| |exact L|exists s'; auto].
    intros g Hg. cbn [ps_max ps_buffs]. destruct (I g Hg) as (I1 & I2). split; [exact I1|]. rewrite get_put. destruct (Z.eqb_spec g fd) as [->|M]; [rewrite Gb, Z.eqb_refl; reflexivity|]. replace (fd =? g) with false by lia. exact I2.
  - destruct L as (O & L). destruct (I fd O) as (_ & Gb). rewrite Gb. cbn [rbind].
    destruct (IH (mkPs (put_buff (ps_buffs s) fd []) (ps_set s) (ps_max s)) l (fun g => if fd =? g then [] else B g)) as (s' & E & Q & G); [exact S| |exact L|exists s'; auto].
    intros g Hg. cbn [ps_max ps_buffs]. destruct (I g Hg) as (I1 & I2). split; [exact I1|]. rewrite get_put. destruct (Z.eqb_spec g fd) as [->|M]; [rewrite Gb, Z.eqb_refl; reflexivity|]. replace (fd =? g) with false by lia. exact I2.
  - destruct L as (O & L). cbn [rbind]. cbv zeta. match goal with |- exists s', ps_run ?st es = _ /\ _ => destruct (IH st (filter (fun x => negb (x =? fd)) l) B) as (s' & E & Q & G); [cbn; rewrite S; reflexivity| |exact L|exists s'; auto] end.
    intros g Hg. cbn [ps_max ps_buffs]. assert (Hg' := Hg). apply filter_In in Hg'. destruct Hg' as (Hl & _). destruct (I g Hl) as (I1 & I2). split; [|exact I2]. rewrite S.
    destruct (fd =? ps_max s); [|exact I1]. split; [lia|]. apply last_set_ge; [exact Hg|lia].
  - cbn [rbind]. destruct (IH (mkPs (map (fun x => (fst x, [])) (ps_buffs s)) (ps_set s) (ps_max s)) l (fun _ => [])) as (s' & E & Q & G); [exact S| |exact L|exists s'; auto].
    intros g Hg. cbn [ps_max ps_buffs]. destruct (I g Hg) as (I1 & I2). split; [exact I1|]. rewrite get_map, I2. reflexivity.
Qed.
Definition no_client : pserver := mkPs [] [] 0.
(** While no descriptor is above 1023: the set given to select has the open connections, none above maxfd, and what waits in the buffer of
    a connection is what it sent since it was accepted, answered or quiet, nothing of an earlier connection with the same number. *)
Theorem C122_buffers_partial : forall es, legal [] es ->
  exists s, ps_run no_client es = Done s /\ ps_set s = opens es /\ forall fd, In fd (opens es) -> fd <= ps_max s /\ get_buff (ps_buffs s) fd = Some (since es fd).
Proof.
  intros es L. destruct (ps_inv es no_client [] (fun _ => []) eq_refl) as (s & E & Q & G); [intros ? []|exact L|]. exists s. split; [exact E|]. split; [exact Q|].
  intros fd H. rewrite Q in G. destruct (G fd H) as (G1 & G2). split; [lia|exact G2].
Qed.
(** The buffers of closed connections are kept for ever. *)
Theorem C122_leak_refuted : forall es s, ps_run no_client es = Done s -> zlen (ps_buffs s) = zlen (filter (fun e => match e with PAccept _ => true | _ => false end) es).
Proof.
  assert (PL : forall l fd b, zlen (put_buff l fd b) = zlen l) by (induction l as [|[f x] l IH]; intros fd b; cbn [put_buff]; [reflexivity|]; destruct (f =? fd); rewrite !zlen_cons; [reflexivity|rewrite IH; reflexivity]).
  assert (G : forall es s s', ps_run s es = Done s' -> zlen (ps_buffs s') = zlen (ps_buffs s) + zlen (filter (fun e => match e with PAccept _ => true | _ => false end) es)).
  { induction es as [|e es IH]; intros s s' H; cbn [ps_run filter] in *; [injection H as <-; change (zlen (@nil pev)) with 0; lia|]. destruct e as [fd|fd d|fd d|fd|]; cbn [ps_step] in H.
    - destruct (1023 <? fd); [discriminate|]. cbn [rbind] in H. apply IH in H. cbn [ps_buffs] in H. rewrite !zlen_cons in *. lia.
    - destruct (get_buff _ _); [|discriminate]. cbn [rbind] in H. apply IH in H. cbn [ps_buffs] in H. rewrite PL in H. exact H.
    - destruct (get_buff _ _); [|discriminate]. cbn [rbind] in H. apply IH in H. cbn [ps_buffs] in H. rewrite PL in H. exact H.
    - cbn [rbind] in H. apply IH in H. exact H.
    - cbn [rbind] in H. apply IH in H. cbn [ps_buffs] in H. rewrite zlen_map in H. exact H. }
  intros es s H. apply G in H. exact H.
Qed.
(** A connection with a descriptor above 1023 writes beyond the set. *)
Theorem C122_many_refuted : forall s fd, 1023 < fd -> ps_step s (PAccept fd) = Undef UOob.
Proof. intros s fd H. cbn. replace (1023 <? fd) with true by lia. reflexivity. Qed.
Definition some_traffic : list pev := [PAccept 5; PAccept 6; PData 6 [1; 2]; PData 5 [9]; PData 6 [3]; PEof 6; PAccept 6; PData 6 [4]].
Example C122_ex : legal [] some_traffic /\ opens some_traffic = [6; 5] /\ since some_traffic 6 = [4] /\ since some_traffic 5 = [9].
Proof. split; [|repeat split]. cbn. repeat split; try lia; auto. all: intros H; decompose [or] H; try discriminate; try contradiction; lia. Qed.
