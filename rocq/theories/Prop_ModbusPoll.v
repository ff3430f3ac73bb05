(** * C64, C65: a Modbus master polls a slave over TCP *)
From Verif Require Import Base Const Types State Events Atomic Server Inv Reach Lib Frame DataFrame Spec Demo Out Prop_Data ClientTypes ClientData Prop_ClientData Crc Prop_Crc Modbus Prop_Modbus.
From Verif Require Import Prop_Maps Prop_ModbusWrite Prop_ModbusSafe Prop_ModbusMaster.

Lemma nthb_ext l m : zlen l = zlen m -> (forall i, 0 <= i < zlen l -> nthb l i = nthb m i) -> l = m.
Proof.
  intros L H. apply znth_ext. intros i Hi. destruct (Z.lt_ge_cases i (zlen l)).
  - rewrite !znth_nthb by lia. rewrite H by lia. reflexivity.
  - rewrite (proj2 (znth_none l i)) by lia. rewrite (proj2 (znth_none m i)) by lia. reflexivity.
Qed.
Lemma nthb_app1 l m i : 0 <= i < zlen l -> nthb (l ++ m) i = nthb l i.
Proof. intros H. unfold nthb. apply app_nth1. unfold zlen in H. lia. Qed.
Lemma splice0 l b : splice 0 l b = l ++ skipn (length l) b.
Proof. reflexivity. Qed.
Lemma zlen_over (l b : list Z) : zlen l <= zlen b -> zlen (l ++ skipn (length l) b) = zlen b.
Proof. unfold zlen. rewrite app_length, skipn_length. lia. Qed.
Lemma word_bytes v : 0 <= v < 65536 -> bytes_ok (word v).
Proof. intros H. repeat constructor; lia. Qed.
Lemma word_at_app l v m i : i = zlen l -> 0 <= v < 65536 -> word_at (l ++ word v ++ m) i = Done v.
Proof.
  intros -> Hv. unfold word_at. assert (A := zlen_nonneg l). assert (B := zlen_nonneg m). replace (in_bounds (zlen l) 2 (zlen (l ++ word v ++ m))) with true by (symmetry; unfold in_bounds; rewrite !zlen_app, zlen_word; lia).
  f_equal. unfold nthb, zlen. rewrite Nat2Z.id. replace (Z.to_nat (Z.of_nat (length l) + 1)) with (S (length l)) by lia.
  rewrite (app_nth2 l _ 0 (n := length l)) by lia. rewrite (app_nth2 l _ 0 (n := S (length l))) by lia. rewrite Nat.sub_diag. replace (S (length l) - length l)%nat with 1%nat by lia. change (nth 0 (word v ++ m) 0) with (v / 256). change (nth 1 (word v ++ m) 0) with (v mod 256). lia.
Qed.

(** ** The slave: a frame that arrives in pieces *)
Definition idle (b : list Z) : mbconn := mk_mbconn b 0.
Lemma serve_parts E cc fd p jk f s b0 m : zlen b0 = 256 -> 6 <= zlen f <= 256 -> word_at f 4 = Done m -> zlen f = m + 6 ->
  forall parts pre, parts <> [] -> Forall (fun r => r <> []) parts -> f = pre ++ concat parts ->
  mb_serve E cc fd p jk (mk_mbconn (splice 0 pre b0) (zlen pre)) parts s =
  (x <-- mb_read E cc fd p jk (idle b0) f s ;; let '(s, c, o) := x in Done (s, c, repeat ([], 0) (length parts - 1) ++ [o])).
Proof.
  intros L0 Lf W M. induction parts as [|rx rest IH]; intros pre NE Fa Ef; [contradiction|]. cbn [mb_serve]. inversion Fa as [|? ? Nr Fr]; subst x l.
  assert (Lp := zlen_nonneg pre). assert (Lr : 0 < zlen rx). { destruct rx; [contradiction|]. rewrite zlen_cons. assert (A := zlen_nonneg rx). lia. } cbn [concat] in Ef.
  assert (Lt : zlen f = zlen pre + zlen rx + zlen (concat rest)) by (rewrite Ef, !zlen_app; lia). assert (Lc := zlen_nonneg (concat rest)).
  assert (Sp : splice (zlen pre) rx (splice 0 pre b0) = splice 0 (pre ++ rx) b0) by (symmetry; apply (splice_app 0 pre rx b0); lia).
  assert (Lb : zlen (splice 0 pre b0) = 256) by (rewrite splice0, zlen_over by lia; exact L0).
  destruct rest as [|r2 rest].
  - cbn [concat mb_serve length Nat.sub repeat app]. rewrite app_nil_r in Ef. cbn [concat] in Lt. change (zlen (@nil Z)) with 0 in Lt. unfold mb_read, idle.
    replace (MB_BUFF_SIZE <? zlen rx + zlen pre) with false by (unfold MB_BUFF_SIZE; lia). replace (MB_BUFF_SIZE <? zlen f + 0) with false by (unfold MB_BUFF_SIZE; lia).
    replace (in_bounds (zlen pre) (zlen rx) (zlen (splice 0 pre b0))) with true by (symmetry; unfold in_bounds; lia). replace (in_bounds 0 (zlen f) (zlen b0)) with true by (symmetry; unfold in_bounds; lia). cbn [negb]. cbv zeta.
    rewrite Sp, <- Ef. replace (zlen pre + zlen rx) with (0 + zlen f) by lia. 
    match goal with |- rbind ?a _ = rbind ?b _ => change b with a; destruct a as [[[? ?] ?]|?] end; reflexivity.
  - set (rest' := r2 :: rest) in *. assert (L2 : 0 < zlen (concat rest')). { unfold rest'. cbn [concat]. inversion Fr as [|? ? N2 ?]; subst. rewrite zlen_app. destruct r2; [contradiction|]. rewrite zlen_cons. assert (A := zlen_nonneg r2). assert (B := zlen_nonneg (concat rest)). lia. }
    assert (Rd : mb_read E cc fd p jk (mk_mbconn (splice 0 pre b0) (zlen pre)) rx s = Done (s, mk_mbconn (splice 0 (pre ++ rx) b0) (zlen (pre ++ rx)), ([], 0))).
    { unfold mb_read. replace (MB_BUFF_SIZE <? zlen rx + zlen pre) with false by (unfold MB_BUFF_SIZE; lia). replace (in_bounds (zlen pre) (zlen rx) (zlen (splice 0 pre b0))) with true by (symmetry; unfold in_bounds; lia). cbn [negb]. cbv zeta.
      rewrite Sp. rewrite <- zlen_app. destruct (zlen (pre ++ rx) <=? 5) eqn:Q5; [reflexivity|].
      assert (W' : word_at (splice 0 (pre ++ rx) b0) 4 = Done m).
      { rewrite <- W, Ef, app_assoc. unfold word_at. rewrite splice0. replace (in_bounds 4 2 (zlen ((pre ++ rx) ++ skipn (length (pre ++ rx)) b0))) with true by (symmetry; unfold in_bounds; rewrite zlen_app; assert (A := zlen_nonneg (skipn (length (pre ++ rx)) b0)); lia).
        replace (in_bounds 4 2 (zlen ((pre ++ rx) ++ concat rest'))) with true by (symmetry; unfold in_bounds; rewrite zlen_app; lia). rewrite !(nthb_app1 (pre ++ rx)) by lia. reflexivity. }
      rewrite W'. cbn [rbind]. replace (zlen (pre ++ rx) <? m + 6) with true by (rewrite zlen_app; lia). reflexivity. }
    rewrite Rd. cbn [rbind]. rewrite (IH (pre ++ rx)); [|discriminate | exact Fr | rewrite <- app_assoc; exact Ef].
    destruct (mb_read E cc fd p jk (idle b0) f s) as [[[s' c'] o]|u]; cbn [rbind]; [|reflexivity]. unfold rest'. cbn [length Nat.sub]. rewrite Nat.sub_0_r. reflexivity.
Qed.
Lemma read_frame E cc fd p jk tid m b0 s s' b n : zlen b0 = 256 -> bytes_ok m -> bytes_ok b0 -> 1 <= zlen m <= 250 -> 0 <= tid < 65536 ->
  create_response E cc fd p jk (m ++ skipn (6 + length m) b0) 250 s = Done (s', b, n) -> zlen b = 250 -> bytes_ok b -> 0 < n <= 250 ->
  exists b', mb_read E cc fd p jk (idle b0) (on_tcp tid m) s = Done (s', idle b', (on_tcp tid (slice 0 n b), 0)) /\ zlen b' = 256 /\ bytes_ok b'.
Proof.
  intros L0 Bm B0 Lm T C Lb Bb Hn. assert (Lf : zlen (on_tcp tid m) = 6 + zlen m) by (unfold on_tcp; rewrite !zlen_app, !zlen_word; change (zlen [0; 0]) with 2; lia). unfold mb_read, idle.
  replace (MB_BUFF_SIZE <? zlen (on_tcp tid m) + 0) with false by (unfold MB_BUFF_SIZE; lia). replace (in_bounds 0 (zlen (on_tcp tid m)) (zlen b0)) with true by (symmetry; unfold in_bounds; lia). cbn [negb]. cbv zeta.
  replace (0 + zlen (on_tcp tid m) <=? 5) with false by lia. rewrite splice0.
  assert (W : word_at (on_tcp tid m ++ skipn (length (on_tcp tid m)) b0) 4 = Done (zlen m)).
  { unfold on_tcp at 1. rewrite <- !app_assoc. rewrite (app_assoc (word tid) [0; 0]). apply word_at_app; [reflexivity | lia]. }
  rewrite W. cbn [rbind]. replace (0 + zlen (on_tcp tid m) <? zlen m + 6) with false by lia.
  assert (Sk : skipn 6 (on_tcp tid m ++ skipn (length (on_tcp tid m)) b0) = m ++ skipn (6 + length m) b0) by reflexivity. rewrite Sk.
  assert (Fi : firstn 6 (on_tcp tid m ++ skipn (length (on_tcp tid m)) b0) = word tid ++ [0; 0] ++ word (zlen m)) by reflexivity. rewrite Fi.
  change (MB_BUFF_SIZE - 6) with 250. rewrite C. cbn [rbind]. replace (0 <? n) with true by lia.
  assert (Pw : put_word ((word tid ++ [0; 0] ++ word (zlen m)) ++ b) 4 n = Done (word tid ++ [0; 0] ++ word n ++ b)).
  { unfold put_word. rewrite put_byte_ok by (rewrite zlen_app; change (zlen (word tid ++ [0; 0] ++ word (zlen m))) with 6; lia). cbn [rbind]. rewrite put_byte_ok by (rewrite zset_zlen, zlen_app; change (zlen (word tid ++ [0; 0] ++ word (zlen m))) with 6; lia).
    f_equal. unfold word. cbn [app]. unfold zset. rewrite !zlen_cons. replace ((0 <=? 4) && (4 <? 1 + (1 + (1 + (1 + (1 + (1 + zlen b))))))) with true by lia.
    change (upd (tid / 256 :: tid mod 256 :: 0 :: 0 :: zlen m / 256 :: zlen m mod 256 :: b) (Z.to_nat 4) (u8 (n / 256))) with (tid / 256 :: tid mod 256 :: 0 :: 0 :: u8 (n / 256) :: zlen m mod 256 :: b).
    rewrite !zlen_cons. replace ((0 <=? 4 + 1) && (4 + 1 <? 1 + (1 + (1 + (1 + (1 + (1 + zlen b))))))) with true by lia.
    change (upd (tid / 256 :: tid mod 256 :: 0 :: 0 :: u8 (n / 256) :: zlen m mod 256 :: b) (Z.to_nat (4 + 1)) (u8 n)) with (tid / 256 :: tid mod 256 :: 0 :: 0 :: u8 (n / 256) :: u8 n :: b).
    unfold u8. rewrite (Z.mod_small (n / 256)) by lia. reflexivity. }
  rewrite Pw. cbn [rbind]. assert (Lx : zlen (word tid ++ [0; 0] ++ word n ++ b) = 256) by (rewrite !zlen_app, !zlen_word; change (zlen [0; 0]) with 2; lia). rewrite Lx.
  replace (in_bounds 0 (n + 6) 256) with true by (symmetry; unfold in_bounds; lia). eexists. split; [|split; [exact Lx|]].
  - f_equal. f_equal. f_equal. unfold on_tcp. assert (In : in_bounds 0 n (zlen b) = true) by (unfold in_bounds; lia). rewrite zlen_slice by exact In.
    unfold slice. change (Z.to_nat 0) with 0%nat. cbn [skipn]. replace (Z.to_nat (n + 6)) with (6 + Z.to_nat n)%nat by lia. reflexivity.
  - apply Forall_app. split; [apply word_bytes; exact T|]. apply Forall_app. split; [repeat constructor; lia|]. apply Forall_app. split; [apply word_bytes; lia | exact Bb].
Qed.
(** ** The master *)
Lemma rbind_some {A B} (r : run A) (f : A -> run B) x : rbind r f = Done x -> exists y, r = Done y /\ f y = Done x.
Proof. destruct r as [y|u]; cbn [rbind]; [|discriminate]. intros H. exists y. split; [reflexivity | exact H]. Qed.
Lemma request_cmd c tid junk j o c' : reading c = true -> tcp_request c tid junk j = Done (o, c') -> c' = c.
Proof.
  unfold tcp_request, reading. intros Rd H. apply rbind_some in H. destruct H as ((go, c1) & M & H). assert (Q : (go, c1) = (true, c)).
  { unfold must_send in M. replace (mc_fn c =? 5) with false in M by lia. replace (mc_fn c =? 6) with false in M by lia. replace ((mc_fn c =? 15) || (mc_fn c =? 16)) with false in M by lia. injection M as <- <-. reflexivity. }
  injection Q as -> ->. cbn [negb] in H. do 5 (apply rbind_some in H; destruct H as (? & _ & H)). apply rbind_some in H. destruct H as ((b, l) & _ & H). apply rbind_some in H. destruct H as (b' & _ & H).
  destruct (in_bounds 0 (l + 6) (zlen b')); [|discriminate]. injection H as _ <-. reflexivity.
Qed.
Lemma answer_frame tid m rb : zlen m <= 250 -> 1 <= zlen m -> zlen rb = 1024 -> get_tcp_response rb (on_tcp tid m) = Done (m ++ skipn (length m) rb, zlen m).
Proof.
  intros L N R. unfold get_tcp_response. assert (Lf : zlen (on_tcp tid m) = 6 + zlen m) by (unfold on_tcp; rewrite !zlen_app, !zlen_word; change (zlen [0; 0]) with 2; lia). rewrite Lf.
  replace (6 + zlen m <? 6) with false by lia. replace (in_bounds 0 (6 + zlen m - 6) (zlen rb)) with true by (symmetry; unfold in_bounds; lia). f_equal. f_equal. lia.
Qed.
Lemma get_words_spec k : forall n buff data, 0 <= n -> bytes_ok buff -> 2 * (n + Z.of_nat k) + 3 <= zlen buff -> 2 * (n + Z.of_nat k) <= zlen data ->
  exists d, get_words k n buff data = Done d /\ zlen d = zlen data /\
    (forall i, n <= i < n + Z.of_nat k -> nthb d (2 * i) = nthb buff (2 * i + 4) /\ nthb d (2 * i + 1) = nthb buff (2 * i + 3)) /\
    (forall i, 0 <= i < 2 * n -> nthb d i = nthb data i).
Proof.
  induction k as [|k IH]; intros n buff data Hn B Hb Hd; cbn [get_words].
  - exists data. split; [reflexivity|]. split; [reflexivity|]. split; [lia | reflexivity].
  - replace (in_bounds (n * 2 + 3) 2 (zlen buff)) with true by (symmetry; unfold in_bounds; lia). cbn [negb]. rewrite put_byte_ok by lia. cbn [rbind]. rewrite put_byte_ok by (rewrite zset_zlen; lia). cbn [rbind].
    rewrite !u8_small by (apply nthb_byte; exact B). set (d1 := zset (zset data (2 * n) (nthb buff (n * 2 + 4))) (2 * n + 1) (nthb buff (n * 2 + 3))).
    assert (L1 : zlen d1 = zlen data) by (unfold d1; rewrite !zset_zlen; reflexivity).
    destruct (IH (n + 1) buff d1 ltac:(lia) B ltac:(lia) ltac:(lia)) as (d & -> & Ld & W & O). exists d. split; [reflexivity|]. split; [lia|].
    assert (N1 : forall i, 0 <= i < zlen data -> nthb d1 i = if i =? 2 * n + 1 then nthb buff (n * 2 + 3) else if i =? 2 * n then nthb buff (n * 2 + 4) else nthb data i).
    { intros i Hi. unfold d1. rewrite nthb_zset by (rewrite ?zset_zlen; lia). destruct (i =? 2 * n + 1); [reflexivity|]. apply nthb_zset; lia. }
    split.
    + intros i Hi. destruct (Z.eq_dec i n) as [->|Ne]; [|apply W; lia]. rewrite !O by lia. rewrite !N1 by lia. replace (2 * n =? 2 * n + 1) with false by lia. rewrite !Z.eqb_refl. split; f_equal; lia.
    + intros i Hi. rewrite O by lia. rewrite N1 by lia. replace (i =? 2 * n + 1) with false by lia. replace (i =? 2 * n) with false by lia. reflexivity.
Qed.
Lemma nthb_slice0 n b i : 0 <= i < n -> n <= zlen b -> nthb (slice 0 n b) i = nthb b i.
Proof.
  intros Hi Hn. unfold nthb, slice. change (Z.to_nat 0) with 0%nat. cbn [skipn]. rewrite <- (firstn_skipn (Z.to_nat n) b) at 2. unfold zlen in Hn. rewrite app_nth1 by (rewrite firstn_length; lia). reflexivity.
Qed.
(** the answer to a read of words, taken by the master *)
Lemma take_words_answer c tid b' rb b a : command c -> mc_fn c = 3 \/ mc_fn c = 4 -> zlen rb = 1024 -> bytes_ok rb -> zlen b' = 250 -> bytes_ok b' -> bytes_ok b -> mc_len c <= 123 -> 0 <= a -> 2 * (a + mc_len c) <= zlen b ->
  nthb b' 0 = mc_node c -> nthb b' 1 = mc_fn c -> nthb b' 2 = 2 * mc_len c -> (forall k, 0 <= k < mc_len c -> word_at b' (3 + 2 * k) = Done (reg_value b (a + k))) ->
  tcp_answer c rb (on_tcp tid (slice 0 (3 + 2 * mc_len c) b')) = Done (0, slice (2 * a) (2 * mc_len c) b).
Proof.
  intros C F Lr Br Lb Bb' Bb Hl Ha Hab N0 N1 N2 W. destruct C as (Hn & _ & Bd & D). assert (Dl : 1 <= mc_len c /\ zlen (mc_data c) = 2 * mc_len c) by (destruct F as [F|F]; rewrite F in D; lia). clear D. destruct Dl as (Hl1 & Ld).
  assert (Ls : zlen (slice 0 (3 + 2 * mc_len c) b') = 3 + 2 * mc_len c) by (apply zlen_slice; unfold in_bounds; lia).
  assert (Bs : bytes_ok (slice 0 (3 + 2 * mc_len c) b')) by (apply bytes_ok_slice; exact Bb').
  unfold tcp_answer. rewrite answer_frame by lia. cbn [rbind]. rewrite Ls. replace (0 <? 3 + 2 * mc_len c) with true by lia.
  set (ans := slice 0 (3 + 2 * mc_len c) b' ++ skipn (length (slice 0 (3 + 2 * mc_len c) b')) rb).
  assert (La : zlen ans = 1024) by (unfold ans; rewrite zlen_over by lia; exact Lr).
  assert (Ba : bytes_ok ans). { apply Forall_app. split; [exact Bs|]. apply bytes_part. exact Br. }
  assert (Na : forall i, 0 <= i < 3 + 2 * mc_len c -> nthb ans i = nthb b' i). { intros i Hi. unfold ans. rewrite nthb_app1 by lia. apply nthb_slice0; lia. }
  unfold handle_response. replace (in_bounds 0 3 (zlen ans)) with true by (symmetry; unfold in_bounds; lia). cbn [negb]. rewrite !Na, N0, N1, N2 by lia.
  replace (128 <=? mc_fn c) with false by lia. rewrite !Z.eqb_refl. cbn [negb]. replace ((mc_fn c =? 1) || (mc_fn c =? 2)) with false by lia. replace ((mc_fn c =? 3) || (mc_fn c =? 4)) with true by lia.
  replace (2 * mc_len c / 2) with (mc_len c) by lia. destruct (get_words_spec (Z.to_nat (mc_len c)) 0 ans (mc_data c) ltac:(lia) Ba ltac:(lia) ltac:(lia)) as (d & -> & L' & V & _). cbn [rbind]. f_equal. f_equal.
  apply nthb_ext. { rewrite zlen_slice by (unfold in_bounds; lia). lia. }
  intros i Hi. assert (Hk : 0 <= i / 2 < mc_len c) by lia. specialize (W (i / 2) Hk). rewrite word_at_ok in W by lia. apply (f_equal (fun r => match r with Done x => x | Undef _ => 0 end)) in W. cbv beta iota in W. unfold reg_value in W.
  assert (X1 := nthb_byte b' (3 + 2 * (i / 2) + 1) Bb'). assert (X2 := nthb_byte b' (3 + 2 * (i / 2)) Bb'). assert (X3 := nthb_byte b (2 * (a + i / 2)) Bb). assert (X4 := nthb_byte b (2 * (a + i / 2) + 1) Bb).
  destruct (V (i / 2) ltac:(lia)) as (V1 & V2). rewrite !Na in V1, V2 by lia.
  assert (Sn : nthb (slice (2 * a) (2 * mc_len c) b) i = nthb b (2 * a + i)). { apply nthb_znth. rewrite znth_slice by lia. apply znth_nthb. lia. }
  rewrite Sn. destruct (Z.eq_dec (i mod 2) 0) as [Ev|Ev].
  - replace i with (2 * (i / 2)) at 1 by lia. rewrite V1. replace (2 * (i / 2) + 4) with (3 + 2 * (i / 2) + 1) by lia. replace (2 * a + i) with (2 * (a + i / 2)) by lia. lia.
  - replace i with (2 * (i / 2) + 1) at 1 by lia. rewrite V2. replace (2 * (i / 2) + 3) with (3 + 2 * (i / 2)) by lia. replace (2 * a + i) with (2 * (a + i / 2) + 1) by lia. lia.
Qed.
(** ** The exchange *)
Lemma reading_pdu c : reading c = true -> pdu c = [mc_node c; mc_fn c] ++ word (mc_reg c) ++ word (mc_len c).
Proof. unfold reading, pdu. intros H. replace (mc_fn c =? 5) with false by lia. replace (mc_fn c =? 6) with false by lia. replace (mc_fn c =? 15) with false by lia. replace (mc_fn c =? 16) with false by lia. reflexivity. Qed.
Lemma asks_head node fn v w r : 0 <= v < 65536 -> 0 <= w < 65536 -> asks (([node; fn] ++ word v ++ word w) ++ r) node fn v w.
Proof.
  intros V W. assert (Z6 : zlen ([node; fn] ++ word v ++ word w) = 6) by reflexivity. split; [rewrite znth_app1 by lia; reflexivity|]. split; [rewrite znth_app1 by lia; reflexivity|]. rewrite <- !app_assoc. split.
  - apply word_at_app; [reflexivity | exact V].
  - rewrite (app_assoc [node; fn]). apply word_at_app; [reflexivity | exact W].
Qed.
Lemma pdu_bytes c : command c -> reading c = true -> bytes_ok (pdu c).
Proof.
  intros C Rd. rewrite (reading_pdu c Rd). destruct (command_fn c C) as (F & _ & Len). destruct C as (Hn & Hr & _ & _).
  apply Forall_app. split; [constructor; [lia|]; constructor; [unfold reading in Rd; lia | constructor]|]. apply Forall_app. split; apply word_bytes; assumption.
Qed.
(** the frame [f] arrives in any number of pieces; the slave answers nothing before the last, and [out] then *)
Definition served (E : env) (cc : ctypes) (fd : Z) (p : mbport) (jk : mbjunk) (b0 f : list Z) (s s' : server) (out : list Z) : Prop :=
  exists b', zlen b' = 256 /\ bytes_ok b' /\
    forall parts, parts <> [] -> Forall (fun r => r <> []) parts -> concat parts = f ->
    mb_serve E cc fd p jk (idle b0) parts s = Done (s', idle b', repeat ([], 0) (length parts - 1) ++ [(out, 0)]).
Lemma served_frame E cc fd p jk b0 tid m s s' b n : zlen b0 = 256 -> bytes_ok m -> bytes_ok b0 -> 1 <= zlen m <= 250 -> 0 <= tid < 65536 ->
  create_response E cc fd p jk (m ++ skipn (6 + length m) b0) 250 s = Done (s', b, n) -> zlen b = 250 -> bytes_ok b -> 0 < n <= 250 ->
  served E cc fd p jk b0 (on_tcp tid m) s s' (on_tcp tid (slice 0 n b)).
Proof.
  intros L0 Bm B0 Lm T C Lb Bb Hn. destruct (read_frame E cc fd p jk tid m b0 s s' b n L0 Bm B0 Lm T C Lb Bb Hn) as (b' & Rd & L' & B'). exists b'. split; [exact L'|]. split; [exact B'|].
  intros parts NE Fa Cc. assert (Lf : zlen (on_tcp tid m) = zlen m + 6) by (unfold on_tcp; rewrite !zlen_app, !zlen_word; change (zlen [0; 0]) with 2; lia).
  assert (W : word_at (on_tcp tid m) 4 = Done (zlen m)). { unfold on_tcp. rewrite (app_assoc (word tid) [0; 0]). apply word_at_app; [reflexivity | lia]. }
  assert (Sp := serve_parts E cc fd p jk (on_tcp tid m) s b0 (zlen m) L0 ltac:(lia) W Lf parts [] NE Fa (eq_sym Cc)). change (mk_mbconn (splice 0 [] b0) (zlen [])) with (idle b0) in Sp. rewrite Sp, Rd. reflexivity.
Qed.
Lemma zlen_rest (m b0 : list Z) : zlen m <= 250 -> zlen b0 = 256 -> zlen (m ++ skipn (6 + length m) b0) = 250.
Proof. unfold zlen. rewrite app_length, skipn_length. lia. Qed.
(** C64: after the master has polled registers of the slave its data area is a copy of them *)
Theorem C64_words : forall E cc fd p jk b0 c tid junk jcrc rb s node' nd i n b,
  reachable E s -> plain s i b -> locals jk -> bytes_ok b0 -> zlen b0 = 256 -> zlen junk = 1024 -> bytes_ok rb -> zlen rb = 1024 -> 0 <= tid < 65536 ->
  command c -> reads nd (mc_fn c) true i n -> serves p (mc_node c) node' nd -> call (nd_read_cb nd) node' (mc_fn c) (mc_reg c) (mc_len c) (jk_result jk) = 0 ->
  2 * n <= zlen b -> mc_reg c + mc_len c <= n -> mc_len c <= 123 ->
  exists f s' out, tcp_request c tid junk jcrc = Done (Some f, c) /\ served E cc fd p jk b0 f s s' out /\ s_db s' = s_db s /\
    tcp_answer c rb out = Done (0, slice (2 * mc_reg c) (2 * mc_len c) b).
Proof.
  intros E cc fd p jk b0 c tid junk jcrc rb s node' nd i n b R P J B0 L0 Lj Br Lr T C Rd Sv Cb Hn Ha Hl.
  assert (F : mc_fn c = 3 \/ mc_fn c = 4) by (inversion Rd; auto). assert (Re : reading c = true) by (unfold reading; lia).
  destruct (C59_tcp c tid junk jcrc C ltac:(lia) T Lj) as (o & c' & Q & [(f & -> & ->)|(_ & _ & X)]); [|congruence]. assert (X := request_cmd _ _ _ _ _ _ Re Q). subst c'.
  assert (Pb := pdu_bytes c C Re). assert (Pd := reading_pdu c Re). assert (Lp : zlen (pdu c) = 6) by (rewrite Pd; reflexivity).
  destruct (command_fn c C) as (_ & _ & Len). assert (Hr : 0 <= mc_reg c < 65536) by apply C. assert (Hl1 : 1 <= mc_len c) by (destruct C as (_ & _ & _ & D); destruct F as [F|F]; rewrite F in D; lia).
  destruct (C56_words E cc fd p jk (pdu c ++ skipn (6 + length (pdu c)) b0) 250 s (mc_node c) (mc_fn c) (mc_reg c) (mc_len c) node' nd i n b R P J) as (s' & b' & Cr & D & Lb & Bb' & N0 & N1 & N2 & W);
    [apply Forall_app; split; [exact Pb | apply bytes_part; exact B0] | apply zlen_rest; lia | lia | rewrite Pd; apply asks_head; [exact Hr | exact Len] | exact Sv | exact Cb | exact Rd | exact Hn | exact Hl1 | exact Ha | lia|].
  rewrite zlen_rest in Lb by lia. exists (on_tcp tid (pdu c)), s', (on_tcp tid (slice 0 (3 + 2 * mc_len c) b')). split; [exact Q|]. split; [apply served_frame; try assumption; lia|]. split; [exact D|].
  apply take_words_answer; try assumption; try lia. apply P.
Qed.
(** C64: the same for coils and discrete inputs *)
Theorem C64_bits : forall E cc fd p jk b0 c tid junk jcrc rb s node' nd i n b,
  reachable E s -> plain s i b -> locals jk -> bytes_ok b0 -> zlen b0 = 256 -> zlen junk = 1024 -> bytes_ok rb -> zlen rb = 1024 -> 0 <= tid < 65536 ->
  command c -> reads nd (mc_fn c) false i n -> serves p (mc_node c) node' nd -> call (nd_read_cb nd) node' (mc_fn c) (mc_reg c) (mc_len c) (jk_result jk) = 0 ->
  n <= 8 * zlen b -> mc_reg c + mc_len c <= n -> mc_len c <= 1976 ->
  exists f s' out d, tcp_request c tid junk jcrc = Done (Some f, c) /\ served E cc fd p jk b0 f s s' out /\ s_db s' = s_db s /\
    tcp_answer c rb out = Done (0, d) /\ zlen d = (mc_len c + 7) / 8 /\ forall k, 0 <= k < mc_len c -> bit d k = bit b (mc_reg c + k).
Proof.
  intros E cc fd p jk b0 c tid junk jcrc rb s node' nd i n b R P J B0 L0 Lj Br Lr T C Rd Sv Cb Hn Ha Hl.
  assert (F : mc_fn c = 1 \/ mc_fn c = 2) by (inversion Rd; auto). assert (Re : reading c = true) by (unfold reading; lia).
  destruct (C59_tcp c tid junk jcrc C ltac:(lia) T Lj) as (o & c' & Q & [(f & -> & ->)|(_ & _ & X)]); [|congruence]. assert (X := request_cmd _ _ _ _ _ _ Re Q). subst c'.
  assert (Pb := pdu_bytes c C Re). assert (Pd := reading_pdu c Re). assert (Lp : zlen (pdu c) = 6) by (rewrite Pd; reflexivity).
  destruct (command_fn c C) as (_ & _ & Len). assert (Hr : 0 <= mc_reg c < 65536) by apply C. assert (Hl1 : 1 <= mc_len c /\ zlen (mc_data c) = (mc_len c + 7) / 8) by (destruct C as (_ & _ & _ & D); destruct F as [F|F]; rewrite F in D; lia). destruct Hl1 as (Hl1 & Ld).
  destruct (C56_bits E cc fd p jk (pdu c ++ skipn (6 + length (pdu c)) b0) 250 s (mc_node c) (mc_fn c) (mc_reg c) (mc_len c) node' nd i n b R P J) as (s' & b' & Cr & D & Lb & Bb' & N0 & N1 & N2 & W);
    [apply Forall_app; split; [exact Pb | apply bytes_part; exact B0] | apply zlen_rest; lia | lia | rewrite Pd; apply asks_head; [exact Hr | exact Len] | exact Sv | exact Cb | exact Rd | exact Hn | exact Hl1 | exact Ha | lia|].
  rewrite zlen_rest in Lb by lia. set (m := (mc_len c + 7) / 8) in *. assert (Hm : 1 <= m <= 247) by (unfold m; lia).
  exists (on_tcp tid (pdu c)), s', (on_tcp tid (slice 0 (3 + m) b')), (slice 3 m b'). split; [exact Q|]. split; [apply served_frame; try assumption; lia|]. split; [exact D|].
  assert (Ls : zlen (slice 0 (3 + m) b') = 3 + m) by (apply zlen_slice; unfold in_bounds; lia).
  split; [|split; [apply zlen_slice; unfold in_bounds; lia|]].
  - unfold tcp_answer. rewrite answer_frame by lia. cbn [rbind]. rewrite Ls. replace (0 <? 3 + m) with true by lia.
    set (ans := slice 0 (3 + m) b' ++ skipn (length (slice 0 (3 + m) b')) rb). assert (La : zlen ans = 1024) by (unfold ans; rewrite zlen_over by lia; exact Lr).
    assert (Na : forall j, 0 <= j < 3 + m -> nthb ans j = nthb b' j). { intros j Hj. unfold ans. rewrite nthb_app1 by lia. apply nthb_slice0; lia. }
    assert (Hnode : 1 <= mc_node c <= 247) by apply C.
    unfold handle_response. replace (in_bounds 0 3 (zlen ans)) with true by (symmetry; unfold in_bounds; lia). cbn [negb]. rewrite !Na, N0, N1, N2 by lia.
    replace (128 <=? mc_fn c) with false by lia. rewrite !Z.eqb_refl. cbn [negb]. replace ((mc_fn c =? 1) || (mc_fn c =? 2)) with true by lia. cbv zeta.
    replace (in_bounds 3 m (zlen ans) && in_bounds 0 m (zlen (mc_data c))) with true by (symmetry; unfold in_bounds; lia). f_equal. f_equal.
    assert (L3 : zlen (slice 3 m ans) = m) by (apply zlen_slice; unfold in_bounds; lia).
    rewrite splice0. replace (skipn (length (slice 3 m ans)) (mc_data c)) with (@nil Z). 2: { symmetry. apply skipn_all2. unfold zlen in L3, Ld. lia. }
    rewrite app_nil_r. apply nthb_ext. { rewrite L3. symmetry. apply zlen_slice. unfold in_bounds. lia. }
    intros j Hj. rewrite L3 in Hj. assert (Sn : forall l, 3 + m <= zlen l -> nthb (slice 3 m l) j = nthb l (3 + j)). { intros l Hl0. apply nthb_znth. rewrite znth_slice by lia. apply znth_nthb. lia. }
    rewrite !Sn by lia. apply Na. lia.
  - intros k Hk. rewrite <- W by exact Hk. unfold bit. replace ((8 * 3 + k) / 8) with (3 + k / 8) by lia. replace ((8 * 3 + k) mod 8) with (k mod 8) by lia. f_equal. apply nthb_znth. rewrite znth_slice by lia. apply znth_nthb. lia.
Qed.
(** ** Writing *)
Lemma must_send_keeps c j go c' : must_send c j = Done (go, c') -> mc_node c' = mc_node c /\ mc_fn c' = mc_fn c /\ mc_data c' = mc_data c.
Proof.
  unfold must_send. intros H. destruct (mc_fn c =? 5).
  { apply rbind_some in H. destruct H as (t & _ & H). cbv zeta in H. injection H as _ <-. destruct (_ || _); repeat split; reflexivity. }
  destruct (mc_fn c =? 6).
  { apply rbind_some in H. destruct H as (t & _ & H). cbv zeta in H. injection H as _ <-. destruct (_ || _); repeat split; reflexivity. }
  destruct ((mc_fn c =? 15) || (mc_fn c =? 16)).
  { apply rbind_some in H. destruct H as (t & _ & H). cbv zeta in H. injection H as _ <-. destruct (_ || _); repeat split; reflexivity. }
  injection H as _ <-. repeat split; reflexivity.
Qed.
Lemma request_keeps c tid junk j o c' : tcp_request c tid junk j = Done (o, c') -> mc_node c' = mc_node c /\ mc_fn c' = mc_fn c /\ mc_data c' = mc_data c.
Proof.
  unfold tcp_request. intros H. apply rbind_some in H. destruct H as ((go, c1) & M & H). apply must_send_keeps in M. destruct go; cbn [negb] in H; [|injection H as _ <-; exact M].
  do 5 (apply rbind_some in H; destruct H as (? & _ & H)). apply rbind_some in H. destruct H as ((b, l) & _ & H). apply rbind_some in H. destruct H as (b' & _ & H).
  destruct (in_bounds 0 (l + 6) (zlen b')); [|discriminate]. injection H as _ <-. exact M.
Qed.
Lemma exchanged_at k : forall d j, zlen d = 2 * Z.of_nat k -> 0 <= j < Z.of_nat k -> nthb (exchanged d) (2 * j) = nthb d (2 * j + 1) /\ nthb (exchanged d) (2 * j + 1) = nthb d (2 * j).
Proof.
  induction k as [|k IH]; intros d j L Hj; [lia|]. destruct d as [|x [|y d]]; [change (zlen (@nil Z)) with 0 in L; lia | change (zlen [x]) with 1 in L; lia|]. rewrite !zlen_cons in L. cbn [exchanged].
  destruct (Z.eq_dec j 0) as [->|N]; [split; reflexivity|]. destruct (IH d (j - 1) ltac:(lia) ltac:(lia)) as (H1 & H2).
  unfold nthb in *. replace (Z.to_nat (2 * j)) with (S (S (Z.to_nat (2 * (j - 1))))) by lia. replace (Z.to_nat (2 * j + 1)) with (S (S (Z.to_nat (2 * (j - 1) + 1)))) by lia. cbn [nth]. split; assumption.
Qed.
Lemma nthb_app2 l m i : zlen l <= i -> nthb (l ++ m) i = nthb m (i - zlen l).
Proof. intros H. unfold nthb. assert (A := zlen_nonneg l). unfold zlen in *. rewrite app_nth2 by lia. f_equal. lia. Qed.
Lemma regs_pdu c : mc_fn c = 16 -> pdu c = ([mc_node c; 16] ++ word (mc_reg c) ++ word (mc_len c)) ++ [zlen (mc_data c)] ++ exchanged (mc_data c).
Proof. intros F. unfold pdu. rewrite F. reflexivity. Qed.
(** C64: after the master has written registers of the slave they are a copy of its data area, no others changed, and the master saw no error *)
Theorem C64_write : forall E cc fd p jk b0 c tid junk jcrc rb s node' nd b,
  reachable E s -> plain s (nd_hold nd) b -> quiet s (nd_hold nd) -> locals jk -> jk_result jk = 0 ->
  bytes_ok b0 -> zlen b0 = 256 -> zlen junk = 1024 -> bytes_ok rb -> zlen rb = 1024 -> 0 <= tid < 65536 ->
  command c -> mc_fn c = 16 -> mc_enable c = 1 -> serves p (mc_node c) node' nd -> call (nd_write_cb nd) node' 16 (mc_reg c) (mc_len c) 0 = 0 ->
  2 * nd_hold_size nd <= zlen b -> mc_reg c + mc_len c <= nd_hold_size nd -> mc_len c <= 121 ->
  exists f c' s' out b', tcp_request c tid junk jcrc = Done (Some f, c') /\ served E cc fd p jk b0 f s s' out /\
    reachable E s' /\ only_data s s' (nd_hold nd) /\ plain s' (nd_hold nd) b' /\ regs_stored (mc_reg c) (mc_len c) (reg_value (mc_data c)) b b' /\
    tcp_answer c' rb out = Done (0, mc_data c).
Proof.
  intros E cc fd p jk b0 c tid junk jcrc rb s node' nd b R P Q J J0 B0 L0 Lj Br Lr T C F En Sv Cb Hn Ha Hl.
  destruct (C59_tcp c tid junk jcrc C ltac:(lia) T Lj) as (o & c' & Rq & [(f & -> & ->)|(_ & X & _)]); [|congruence].
  destruct (request_keeps _ _ _ _ _ _ Rq) as (K1 & K2 & K3). assert (Pd := regs_pdu c F). assert (Bd : bytes_ok (mc_data c)) by apply C.
  destruct (command_fn c C) as (_ & _ & Len). assert (Hr : 0 <= mc_reg c < 65536) by apply C. assert (Hd : 1 <= mc_node c <= 247 /\ 1 <= mc_len c /\ zlen (mc_data c) = 2 * mc_len c) by (destruct C as (C1 & _ & _ & D); rewrite F in D; lia). destruct Hd as (Hnode & Hl1 & Ld).
  assert (Lx := zlen_exchanged (Z.to_nat (mc_len c)) (mc_data c) ltac:(lia)). assert (Bx := exchanged_ok (Z.to_nat (mc_len c)) (mc_data c) ltac:(lia) Bd).
  assert (Pb : bytes_ok (pdu c)). { rewrite Pd. apply Forall_app. split; [|constructor; [lia | exact Bx]]. constructor; [lia|]. constructor; [lia|]. apply Forall_app. split; apply word_bytes; assumption. }
  assert (Lp : zlen (pdu c) = 7 + 2 * mc_len c). { rewrite Pd, !zlen_app, Lx. change (zlen [mc_node c; 16]) with 2. rewrite !zlen_word. change (zlen [zlen (mc_data c)]) with 1. lia. }
  set (sb := pdu c ++ skipn (6 + length (pdu c)) b0). assert (Lsb : zlen sb = 250) by (apply zlen_rest; lia). assert (Bsb : bytes_ok sb) by (apply Forall_app; split; [exact Pb | apply bytes_part; exact B0]).
  assert (As : asks sb (mc_node c) 16 (mc_reg c) (mc_len c)). { unfold sb. rewrite Pd, <- app_assoc. apply asks_head; assumption. }
  destruct (C57_registers E cc fd p jk sb 250 s (mc_node c) (mc_reg c) (mc_len c) nd b R P Q) as (s' & Cr & R' & Od & b' & P' & (S0 & S1 & S2)); [split; [exact J|]; split; [exact J0|]; split; [exact Bsb|]; split; [exact As|]; exists node'; split; assumption | lia | lia | lia | lia | lia|].
  exists (on_tcp tid (pdu c)), c', s', (on_tcp tid (slice 0 6 sb)), b'. split; [exact Rq|]. split; [apply served_frame; try assumption; lia|]. split; [exact R'|]. split; [exact Od|]. split; [exact P'|]. split.
  - split; [exact S0|]. split; [|exact S2]. intros k Hk. rewrite S1 by exact Hk. destruct (exchanged_at (Z.to_nat (mc_len c)) (mc_data c) k ltac:(lia) ltac:(lia)) as (X1 & X2).
    set (hd := ([mc_node c; 16] ++ word (mc_reg c) ++ word (mc_len c)) ++ [zlen (mc_data c)]). assert (Lh : zlen hd = 7) by reflexivity.
    assert (Y : forall j, 0 <= j < 2 * mc_len c -> nthb sb (7 + j) = nthb (exchanged (mc_data c)) j). { intros j Hj. unfold sb. rewrite nthb_app1 by lia. rewrite Pd, app_assoc. fold hd. rewrite nthb_app2 by lia. f_equal. lia. }
    replace (8 + 2 * k) with (7 + (2 * k + 1)) by lia. rewrite !Y by lia. rewrite X1, X2. unfold reg_value. lia.
  - assert (L6 : zlen (slice 0 6 sb) = 6) by (apply zlen_slice; unfold in_bounds; lia). unfold tcp_answer. rewrite answer_frame by lia. cbn [rbind]. rewrite L6. change (0 <? 6) with true. cbv iota.
    set (ans := slice 0 6 sb ++ skipn (length (slice 0 6 sb)) rb). assert (La : zlen ans = 1024) by (unfold ans; rewrite zlen_over by lia; exact Lr).
    assert (Na : forall j, 0 <= j < 6 -> nthb ans j = nthb sb j). { intros j Hj. unfold ans. rewrite nthb_app1 by lia. apply nthb_slice0; lia. }
    destruct As as (A0 & A1 & _). apply nthb_znth in A0, A1. unfold handle_response. replace (in_bounds 0 3 (zlen ans)) with true by (symmetry; unfold in_bounds; lia). cbn [negb]. rewrite !Na, A0, A1 by lia.
    change (128 <=? 16) with false. rewrite K1, K2, F, !Z.eqb_refl. cbn [negb]. rewrite K3. reflexivity.
Qed.
(** the hypotheses are met: a poll of three registers and a write of two, sent in pieces *)
Definition poll (c : mbcmd) (cuts : list Z -> list (list Z)) : run (Z * list Z) :=
  x <-- tcp_request c 7 (zeros 1024) 0 ;;
  match x with
  | (Some f, c') =>
      y <-- talk mb_slave mb_server (cuts f) ;; tcp_answer c' (zeros 1024) (fst (last y ([], 0)))
  | (None, _) => Undef UNull
  end.
Definition one_cmd fn reg len data : mbcmd := mk_mbcmd 1 1 fn reg len data 0 false.
Lemma cmd_check fn reg len data : 0 <= reg < 65536 -> forallb (fun x => (0 <=? x) && (x <? 256)) data = true ->
  match fn with
  | 1 | 2 | 15 => 1 <= len <= 2000 /\ zlen data = (len + 7) / 8
  | 3 | 4 | 16 => 1 <= len <= 125 /\ zlen data = 2 * len
  | 5 => 0 <= len < 65536 /\ zlen data = 1
  | 6 => 0 <= len < 65536 /\ zlen data = 2
  | _ => False
  end -> command (one_cmd fn reg len data).
Proof. intros H D F. split; [cbn [mc_node one_cmd]; lia|]. split; [exact H|]. split; [apply bytes_check; exact D | exact F]. Qed.
Example C64_ex :
  command (one_cmd 3 4 3 (zeros 6)) /\ command (one_cmd 16 100 2 [1; 2; 3; 4]) /\ command (one_cmd 1 0 10 [0; 0]) /\ reads the_node 3 true 16 200 /\ serves mb_slave 1 1 the_node /\
  poll (one_cmd 3 4 3 (zeros 6)) (fun f => [firstn 3 f; firstn 4 (skipn 3 f); skipn 7 f]) = Done (0, [0; 0; 52; 18; 120; 86]) /\
  poll (one_cmd 16 100 2 [1; 2; 3; 4]) (fun f => [firstn 13 f; skipn 13 f]) = Done (0, [1; 2; 3; 4]) /\
  poll (one_cmd 1 0 10 [0; 0]) (fun f => [f]) = Done (0, [165; 1]).
Proof.
  split; [apply cmd_check; [lia | reflexivity | split; [lia | reflexivity]]|]. split; [apply cmd_check; [lia | reflexivity | split; [lia | reflexivity]]|]. split; [apply cmd_check; [lia | reflexivity | split; [lia | reflexivity]]|].
  split; [apply (reads_hold the_node)|]. split; [exact slave_serves|]. split; [vm_compute; reflexivity|]. split; vm_compute; reflexivity.
Qed.
(** ** C65: what the master does with an answer *)
(** C65: an answer whose unit or function is not that of the command, or that is an exception, leaves the data area alone; an exception with a code other than 0 is reported *)
Theorem C65_rejected : forall c rb rx code d,
  tcp_answer c rb rx = Done (code, d) -> 8 <= zlen rx -> zlen rb = 1024 ->
  (nthb rx 6 <> mc_node c \/ nthb rx 7 <> mc_fn c \/ 128 <= nthb rx 7) -> d = mc_data c /\ (nthb rx 7 < 128 -> code <> 0) /\ (128 <= nthb rx 7 -> 9 <= zlen rx -> code = nthb rx 8).
Proof.
  intros c rb rx code d H L R W. unfold tcp_answer in H. apply rbind_some in H. destruct H as ((buff, len) & G & H). unfold get_tcp_response in G. replace (zlen rx <? 6) with false in G by lia.
  destruct (in_bounds 0 (zlen rx - 6) (zlen rb)) eqn:Ib; [|discriminate]. apply (f_equal (fun r => match r with Done x => x | Undef _ => ([], 0) end)) in G. cbv beta iota in G. apply pair_equal_spec in G. destruct G as (<- & <-). replace (0 <? zlen rx - 6) with true in H by lia.
  assert (Ls : zlen (skipn 6 rx) = zlen rx - 6) by (unfold zlen in *; rewrite skipn_length; lia).
  assert (N : forall j, 0 <= j < zlen rx - 6 -> nthb (splice 0 (skipn 6 rx) rb) j = nthb rx (6 + j)).
  { intros j Hj. rewrite splice0, nthb_app1 by lia. unfold nthb. replace (Z.to_nat (6 + j)) with (6 + Z.to_nat j)%nat by lia. clear. revert rx. generalize (Z.to_nat j). intros k rx. do 6 (destruct rx as [|? rx]; [destruct k; reflexivity|]). reflexivity. }
  unfold handle_response in H. set (b := splice 0 (skipn 6 rx) rb) in *. destruct (negb (in_bounds 0 3 (zlen b))) in H; [discriminate|]. rewrite (N 0), (N 1) in H by lia. change (6 + 0) with 6 in H. change (6 + 1) with 7 in H.
  destruct (128 <=? nthb rx 7) eqn:X.
  { injection H as <- <-. split; [reflexivity|]. split; [lia|]. intros _ L9. rewrite N by lia. reflexivity. }
  destruct (nthb rx 6 =? mc_node c) eqn:Y; cbn [negb] in H.
  2: { injection H as <- <-. split; [reflexivity|]. split; lia. }
  destruct (nthb rx 7 =? mc_fn c) eqn:V; cbn [negb] in H.
  2: { injection H as <- <-. split; [reflexivity|]. split; [discriminate | lia]. }
  exfalso. lia.
Qed.
(** C65: an answer whose byte count is at most the size of the data area is taken without touching other memory, whatever it contains *)
Theorem C65_safe_partial : forall c rb rx,
  bytes_ok rx -> bytes_ok rb -> zlen rb = 1024 -> 9 <= zlen rx <= 256 -> bytes_ok (mc_data c) -> nthb rx 8 <= zlen (mc_data c) ->
  exists code d, tcp_answer c rb rx = Done (code, d) /\ zlen d = zlen (mc_data c).
Proof.
  intros c rb rx Bx Br Lr Lx Bd Hc. unfold tcp_answer, get_tcp_response. replace (zlen rx <? 6) with false by lia. replace (in_bounds 0 (zlen rx - 6) (zlen rb)) with true by (symmetry; unfold in_bounds; lia). cbn [rbind]. replace (0 <? zlen rx - 6) with true by lia.
  assert (Ls : zlen (skipn 6 rx) = zlen rx - 6) by (unfold zlen in *; rewrite skipn_length; lia). set (b := splice 0 (skipn 6 rx) rb).
  assert (Lb : zlen b = 1024) by (unfold b; rewrite zlen_splice by (unfold in_bounds; lia); exact Lr). assert (Bb : bytes_ok b) by (apply bytes_ok_splice; [apply bytes_part; exact Bx | exact Br]).
  assert (N2 : nthb b 2 = nthb rx 8). { unfold b. rewrite splice0, nthb_app1 by lia. clear. do 6 (destruct rx as [|? rx]; [reflexivity|]). reflexivity. }
  assert (R2 := nthb_byte b 2 Bb). unfold handle_response. replace (in_bounds 0 3 (zlen b)) with true by (symmetry; unfold in_bounds; lia). cbn [negb].
  destruct (128 <=? nthb b 1); [eexists; eexists; split; reflexivity|]. destruct (negb (nthb b 0 =? mc_node c)); [eexists; eexists; split; reflexivity|]. destruct (negb (nthb b 1 =? mc_fn c)); [eexists; eexists; split; reflexivity|].
  destruct ((mc_fn c =? 1) || (mc_fn c =? 2)).
  - cbv zeta. replace (in_bounds 3 (nthb b 2) (zlen b) && in_bounds 0 (nthb b 2) (zlen (mc_data c))) with true by (symmetry; unfold in_bounds; lia).
    eexists. eexists. split; [reflexivity|]. apply zlen_splice. rewrite zlen_slice; unfold in_bounds; lia.
  - destruct ((mc_fn c =? 3) || (mc_fn c =? 4)); [|eexists; eexists; split; reflexivity].
    destruct (get_words_spec (Z.to_nat (nthb b 2 / 2)) 0 b (mc_data c) ltac:(lia) Bb ltac:(lia) ltac:(lia)) as (d & -> & L & _). cbn [rbind]. eexists. eexists. split; [reflexivity | exact L].
Qed.
Example C65_ex : tcp_answer (one_cmd 3 4 3 (zeros 6)) (zeros 1024) [0; 7; 0; 0; 0; 9; 1; 3; 6; 1; 2; 3; 4; 5; 6] = Done (0, [2; 1; 4; 3; 6; 5]) /\
  tcp_answer (one_cmd 3 4 3 (zeros 6)) (zeros 1024) [0; 7; 0; 0; 0; 3; 1; 131; 2] = Done (2, zeros 6) /\
  tcp_answer (one_cmd 3 4 3 (zeros 6)) (zeros 1024) [0; 7; 0; 0; 0; 9; 2; 3; 6; 1; 2; 3; 4; 5; 6] = Done (3, zeros 6).
Proof. split; [vm_compute; reflexivity|]. split; vm_compute; reflexivity. Qed.
(** C65 fails: the transaction number is not looked at.  The late answer to an earlier request (number 6, registers 5 and 6) is taken for the answer to this one (number 7, registers 100 and 101, which hold 0) *)
Theorem C65_stale_refuted : exists late,
  poll (one_cmd 3 5 2 (zeros 4)) (fun f => [f]) = Done (0, [52; 18; 120; 86]) /\ poll (one_cmd 3 100 2 (zeros 4)) (fun f => [f]) = Done (0, zeros 4) /\
  talk mb_slave mb_server [[0; 6; 0; 0; 0; 6; 1; 3; 0; 5; 0; 2]] = Done [(late, 0)] /\ slice 0 2 late = [0; 6] /\
  tcp_answer (one_cmd 3 100 2 (zeros 4)) (zeros 1024) late = Done (0, [52; 18; 120; 86]).
Proof. eexists. split; [vm_compute; reflexivity|]. split; [vm_compute; reflexivity|]. split; [vm_compute; reflexivity|]. split; vm_compute; reflexivity. Qed.
(** C65 fails: an answer longer than asked for overflows the data area *)
Theorem C65_overflow_refuted : tcp_answer (one_cmd 3 4 1 (zeros 2)) (zeros 1024) [0; 7; 0; 0; 0; 9; 1; 3; 6; 1; 2; 3; 4; 5; 6] = Undef UOob /\
  tcp_answer (one_cmd 1 4 1 (zeros 1)) (zeros 1024) [0; 7; 0; 0; 0; 5; 1; 1; 2; 1; 2] = Undef UOob.
Proof. split; vm_compute; reflexivity. Qed.
(** C65 fails: fewer than six bytes (TCP may deliver the answer in pieces) are copied with a negative size *)
Theorem C65_short_refuted : tcp_answer (one_cmd 3 4 1 (zeros 2)) (zeros 1024) [0; 7; 0] = Undef UOob.
Proof. vm_compute. reflexivity. Qed.
(** C65 fails: an answer that arrives in two pieces is taken from what the buffer held before *)
Theorem C65_pieces_refuted : tcp_answer (one_cmd 3 4 1 (zeros 2)) ([0; 3; 2; 18; 52] ++ zeros 1019) [0; 7; 0; 0; 0; 5; 1] = Done (0, [52; 18]).
Proof. vm_compute. reflexivity. Qed.
