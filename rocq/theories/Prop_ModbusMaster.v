(** * C59: the requests of the Modbus master *)
From Verif Require Import Base Const Types State Lib Spec ClientTypes ClientData Prop_ClientData Crc Prop_Crc Modbus Prop_Modbus.

(** ** The requests of the Modbus application protocol *)
(** a word on the line: most significant byte first *)
Definition word (v : Z) : list Z := [v / 256; v mod 256].
(** registers in memory have the least significant byte first *)
Fixpoint exchanged (l : list Z) : list Z := match l with lo :: hi :: l => hi :: lo :: exchanged l | _ => [] end.
(** what the protocol says the command [c] looks like on the line, from the unit number on *)
Definition pdu (c : mbcmd) : list Z :=
  [mc_node c; mc_fn c] ++ word (mc_reg c) ++
  (if mc_fn c =? 5 then [if nthb (mc_data c) 0 =? 0 then 0 else 255; 0]
   else if mc_fn c =? 6 then exchanged (mc_data c)
   else if mc_fn c =? 15 then word (mc_len c) ++ [zlen (mc_data c)] ++ mc_data c
   else if mc_fn c =? 16 then word (mc_len c) ++ [zlen (mc_data c)] ++ exchanged (mc_data c)
   else word (mc_len c)).
Definition on_tcp (tid : Z) (m : list Z) : list Z := word tid ++ [0; 0] ++ word (zlen m) ++ m.
(** the commands that can be configured, and the size of their data *)
Definition command (c : mbcmd) : Prop :=
  1 <= mc_node c <= 247 /\ 0 <= mc_reg c < 65536 /\ bytes_ok (mc_data c) /\
  match mc_fn c with
  | 1 | 2 | 15 => 1 <= mc_len c <= 2000 /\ zlen (mc_data c) = (mc_len c + 7) / 8
  | 3 | 4 | 16 => 1 <= mc_len c <= 125 /\ zlen (mc_data c) = 2 * mc_len c
  | 5 => 0 <= mc_len c < 65536 /\ zlen (mc_data c) = 1
  | 6 => 0 <= mc_len c < 65536 /\ zlen (mc_data c) = 2
  | _ => False
  end.
Definition reading (c : mbcmd) : bool := (1 <=? mc_fn c) && (mc_fn c <=? 4).

(** ** A buffer that is filled from its beginning *)
Definition holds (m b : list Z) : Prop := zlen b = 1024 /\ exists r, b = m ++ r.
Lemma holds_nil b : zlen b = 1024 -> holds [] b.
Proof. intros L. split; [exact L | exists b; reflexivity]. Qed.
Lemma upd_app {A} (m : list A) x r v : upd (m ++ x :: r) (length m) v = m ++ v :: r.
Proof. induction m as [|a m IH]; [reflexivity|]. change (a :: upd (m ++ x :: r) (length m) v = (a :: m) ++ v :: r). rewrite IH. reflexivity. Qed.
Lemma put_next m b v i : holds m b -> i = zlen m -> i < 1024 -> exists b', put_byte b i v = Done b' /\ holds (m ++ [u8 v]) b'.
Proof.
  intros (L & r & E) -> H. assert (A := zlen_nonneg m). rewrite put_byte_ok by lia. eexists. split; [reflexivity|]. split; [rewrite zset_zlen; exact L|].
  subst b. destruct r as [|x r]; [rewrite app_nil_r in L; lia|]. exists r. unfold zset. replace ((0 <=? zlen m) && (zlen m <? zlen (m ++ x :: r))) with true by (symmetry; lia).
  unfold zlen. rewrite Nat2Z.id, upd_app, <- app_assoc. reflexivity.
Qed.
Lemma put_word_next m b v i : holds m b -> i = zlen m -> i + 1 < 1024 -> 0 <= v < 65536 -> exists b', put_word b i v = Done b' /\ holds (m ++ word v) b'.
Proof.
  intros H -> L R. unfold put_word. assert (A := zlen_nonneg m). destruct (put_next m b (v / 256) (zlen m) H eq_refl ltac:(lia)) as (b1 & -> & H1). cbn [rbind].
  destruct (put_next _ b1 v (zlen m + 1) H1 ltac:(rewrite zlen_app; reflexivity) ltac:(lia)) as (b2 & -> & H2). exists b2. split; [reflexivity|].
  rewrite <- app_assoc in H2. unfold word, u8 in *. rewrite (Z.mod_small (v / 256)) in H2 by lia. exact H2.
Qed.
(** skip bytes that are filled in later *)
Lemma holds_skip m b : holds m b -> zlen m < 1024 -> exists x, holds (m ++ [x]) b.
Proof. intros (L & r & ->) H. destruct r as [|x r]; [rewrite app_nil_r in L; lia|]. exists x. split; [exact L|]. exists r. rewrite <- app_assoc. reflexivity. Qed.
Lemma put_inside m x m' b v i : holds (m ++ x :: m') b -> i = zlen m -> exists b', put_byte b i v = Done b' /\ holds (m ++ u8 v :: m') b'.
Proof.
  intros (L & r & ->) ->. rewrite <- app_assoc in *. cbn [app] in *. assert (A := zlen_nonneg m). assert (In : zlen m < zlen (m ++ x :: m' ++ r)). { rewrite zlen_app, zlen_cons. assert (B := zlen_nonneg (m' ++ r)). lia. }
  rewrite put_byte_ok by lia. eexists. split; [reflexivity|]. split; [rewrite zset_zlen; exact L|]. exists r. rewrite <- app_assoc. cbn [app].
  unfold zset. replace ((0 <=? zlen m) && (zlen m <? zlen (m ++ x :: m' ++ r))) with true by (symmetry; lia). unfold zlen. rewrite Nat2Z.id, upd_app. reflexivity.
Qed.
Lemma put_word_inside m x y m' b v i : holds (m ++ x :: y :: m') b -> i = zlen m -> 0 <= v < 65536 -> exists b', put_word b i v = Done b' /\ holds (m ++ word v ++ m') b'.
Proof.
  intros H -> R. unfold put_word. destruct (put_inside m x (y :: m') b (v / 256) (zlen m) H eq_refl) as (b1 & -> & H1). cbn [rbind].
  replace (m ++ u8 (v / 256) :: y :: m') with ((m ++ [u8 (v / 256)]) ++ y :: m') in H1 by (rewrite <- app_assoc; reflexivity).
  destruct (put_inside _ y m' b1 v (zlen m + 1) H1 ltac:(rewrite zlen_app; reflexivity)) as (b2 & -> & H2). exists b2. split; [reflexivity|]. rewrite <- app_assoc in H2. cbn [app] in H2.
  unfold word, u8 in *. rewrite (Z.mod_small (v / 256)) in H2 by lia. exact H2.
Qed.
Lemma put_bytes_next l : forall m b i, bytes_ok l -> holds m b -> i = zlen m -> i + zlen l <= 1024 -> exists b', put_bytes b i l = Done b' /\ holds (m ++ l) b'.
Proof.
  induction l as [|v l IH]; intros m b i B H Hi Hl; cbn [put_bytes].
  - exists b. rewrite app_nil_r. split; [reflexivity | exact H].
  - rewrite zlen_cons in Hl. assert (N := zlen_nonneg l). destruct (put_next m b v i H Hi ltac:(lia)) as (b1 & -> & H1). cbn [rbind]. inversion B as [|? ? Bv Bl]; subst.
    destruct (IH _ b1 (zlen m + 1) Bl H1 ltac:(rewrite zlen_app; reflexivity) ltac:(lia)) as (b2 & E & H2). exists b2. split; [exact E|]. rewrite <- app_assoc in H2. unfold u8 in H2. rewrite Z.mod_small in H2 by exact Bv. exact H2.
Qed.
Lemma put_swapped_next k : forall d0 d m b i, bytes_ok d -> zlen d = 2 * Z.of_nat k -> holds m b -> i = zlen m -> i + zlen d <= 1024 -> zlen d0 mod 2 = 0 ->
  exists b', put_swapped k (zlen d0 / 2) (d0 ++ d) b i = Done b' /\ holds (m ++ exchanged d) b'.
Proof.
  induction k as [|k IH]; intros d0 d m b i B L H Hi Hl Ev; cbn [put_swapped].
  - destruct d as [|x d]; [|rewrite zlen_cons in L; assert (N := zlen_nonneg d); lia]. exists b. cbn [exchanged]. rewrite app_nil_r. split; [reflexivity | exact H].
  - destruct d as [|x [|y d]]; [change (zlen (@nil Z)) with 0 in L; lia | change (zlen [x]) with 1 in L; lia|]. rewrite !zlen_cons in *. assert (N := zlen_nonneg d). assert (N0 := zlen_nonneg d0).
    replace (in_bounds (2 * (zlen d0 / 2)) 2 (zlen (d0 ++ x :: y :: d))) with true by (symmetry; unfold in_bounds; rewrite zlen_app, !zlen_cons; lia). cbn [negb].
    assert (X0 : nthb (d0 ++ x :: y :: d) (2 * (zlen d0 / 2)) = x). { replace (2 * (zlen d0 / 2)) with (zlen d0) by lia. unfold nthb, zlen. rewrite Nat2Z.id, app_nth2, Nat.sub_diag by lia. reflexivity. }
    assert (X1 : nthb (d0 ++ x :: y :: d) (2 * (zlen d0 / 2) + 1) = y). { replace (2 * (zlen d0 / 2) + 1) with (zlen d0 + 1) by lia. unfold nthb, zlen. replace (Z.to_nat (Z.of_nat (length d0) + 1)) with (length d0 + 1)%nat by lia. rewrite app_nth2 by lia. replace (length d0 + 1 - length d0)%nat with 1%nat by lia. reflexivity. }
    rewrite X0, X1. inversion B as [|? ? Bx B']; subst. inversion B' as [|? ? By Bd]; subst.
    destruct (put_next m b y (zlen m) H eq_refl ltac:(lia)) as (b1 & -> & H1). cbn [rbind].
    destruct (put_next _ b1 x (zlen m + 1) H1 ltac:(rewrite zlen_app; reflexivity) ltac:(lia)) as (b2 & -> & H2). cbn [rbind].
    destruct (IH (d0 ++ [x; y]) d _ b2 (zlen m + 2) Bd ltac:(lia) H2 ltac:(rewrite !zlen_app; change (zlen [u8 y]) with 1; change (zlen [u8 x]) with 1; lia) ltac:(lia) ltac:(rewrite zlen_app; change (zlen [x; y]) with 2; lia)) as (b3 & E & H3).
    exists b3. split.
    + rewrite <- app_assoc in E. cbn [app] in E. rewrite zlen_app in E. change (zlen [x; y]) with 2 in E. replace ((zlen d0 + 2) / 2) with (zlen d0 / 2 + 1) in E by lia. exact E.
    + rewrite <- !app_assoc in H3. cbn [app] in H3. unfold u8 in H3. rewrite !Z.mod_small in H3 by assumption. exact H3.
Qed.
Lemma swapped_all k d m b i : bytes_ok d -> zlen d = 2 * Z.of_nat k -> holds m b -> i = zlen m -> i + zlen d <= 1024 -> exists b', put_swapped k 0 d b i = Done b' /\ holds (m ++ exchanged d) b'.
Proof. intros. apply (put_swapped_next k [] d m b i); try assumption. reflexivity. Qed.
Lemma zlen_exchanged k : forall d, zlen d = 2 * Z.of_nat k -> zlen (exchanged d) = zlen d.
Proof.
  induction k as [|k IH]; intros d L; (destruct d as [|x [|y d]]; [reflexivity | change (zlen [x]) with 1 in L; lia|]); rewrite !zlen_cons in L; assert (N := zlen_nonneg d); [lia|].
  cbn [exchanged]. rewrite !zlen_cons, (IH d) by lia. reflexivity.
Qed.
Lemma holds_sent m b : holds m b -> slice 0 (zlen m) b = m.
Proof. intros (L & r & ->). unfold slice. change (Z.to_nat 0) with 0%nat. cbn [skipn]. unfold zlen. rewrite Nat2Z.id, firstn_app, Nat.sub_diag, firstn_all, firstn_O, app_nil_r. reflexivity. Qed.
(** ** When a request is sent *)
Lemma command_fn c : command c -> In (mc_fn c) [1; 2; 3; 4; 5; 6; 15; 16] /\ 1 <= zlen (mc_data c) <= 250 /\ 0 <= mc_len c < 65536.
Proof.
  intros (_ & _ & _ & H). destruct (mc_fn c) as [|p|p]; try contradiction. do 5 (try (destruct p as [p|p|]; try contradiction)); destruct H as (H1 & H2); (split; [cbn [In]; tauto|]); lia.
Qed.
Lemma first_byte c : command c -> data_byte c = Done (nthb (mc_data c) 0).
Proof. intros H. destruct (command_fn c H) as (_ & L & _). unfold data_byte. rewrite znth_nthb by lia. reflexivity. Qed.
Lemma must_send_any c j : command c -> exists go c', must_send c j = Done (go, c') /\ (go = false -> mc_enable c <> 1 /\ reading c = false).
Proof.
  intros H. destruct (command_fn c H) as (F & L & _). assert (B : bytes_ok (mc_data c)) by apply H. unfold must_send, reading. rewrite (first_byte c H). cbn [rbind].
  destruct (mc_fn c =? 5) eqn:F5.
  { eexists. eexists. split; [reflexivity|]. intros Q. split; [intros En; rewrite En in Q; discriminate | lia]. }
  destruct (mc_fn c =? 6) eqn:F6.
  { eexists. eexists. split; [reflexivity|]. intros Q. split; [intros En; rewrite En in Q; discriminate | lia]. }
  destruct ((mc_fn c =? 15) || (mc_fn c =? 16)) eqn:F15.
  - assert (D : exists t, (if mc_enable c =? 1 then Done j else data_crc c) = Done t).
    { destruct (mc_enable c =? 1); [eexists; reflexivity|]. unfold data_crc. rewrite (first_byte c H).
      destruct ((mc_fn c =? 15) && (mc_len c <=? 8)) eqn:S8; [eexists; reflexivity|]. destruct ((mc_fn c =? 15) && (mc_len c <=? 16)) eqn:S16.
      - destruct (in_bounds 0 2 (zlen (mc_data c))) eqn:I; [eexists; reflexivity|]. exfalso. destruct H as (_ & _ & _ & H). replace (mc_fn c) with 15 in * by lia. unfold in_bounds in I. lia.
      - destruct (C55_value (mc_data c) (zlen (mc_data c)) B ltac:(lia) ltac:(lia)) as (v & E & _). exists v. exact E. }
    destruct D as (t & ->). cbn [rbind]. eexists. eexists. split; [reflexivity|]. intros Q. split; [intros En; rewrite En in Q; discriminate | lia].
  - eexists. eexists. split; [reflexivity|]. discriminate.
Qed.
(** a request is sent in any case if the command is one that reads or that is sent periodically *)
Definition sent (c : mbcmd) (o : option (list Z)) (frame : list Z -> Prop) : Prop :=
  (exists f, o = Some f /\ frame f) \/ (o = None /\ mc_enable c <> 1 /\ reading c = false).
Lemma zlen_word v : zlen (word v) = 2.
Proof. reflexivity. Qed.
Ltac next B H v i := let b := fresh "b" in let E := fresh "E" in let H' := fresh "H" in
  destruct (put_next _ B v i H ltac:(rewrite ?zlen_app; reflexivity) ltac:(lia)) as (b & E & H'); rewrite E; cbn [rbind]; clear H E; rename H' into H.
Ltac zl := rewrite ?zlen_app, ?zlen_cons, ?zlen_word; change (zlen (@nil Z)) with 0; lia.
Lemma frame_tcp (c : mbcmd) tid m b length : 0 <= tid < 65536 -> zlen m < 1000 -> length = zlen m -> (exists x y, holds (word tid ++ [0; 0] ++ x :: y :: m) b) ->
  (b <-- put_word b 4 length ;; if in_bounds 0 (length + 6) (zlen b) then Done (Some (slice 0 (length + 6) b), c) else Undef UOob) = Done (Some (on_tcp tid m), c).
Proof.
  intros T L -> (x & y & H). assert (N := zlen_nonneg m). rewrite app_assoc in H. destruct (put_word_inside (word tid ++ [0; 0]) x y m b (zlen m) 4 H eq_refl ltac:(lia)) as (b' & -> & H'). cbn [rbind].
  assert (L' : zlen b' = 1024) by apply H'. replace (in_bounds 0 (zlen m + 6) (zlen b')) with true by (symmetry; unfold in_bounds; lia).
  apply holds_sent in H'. rewrite <- app_assoc in H'. replace (zlen m + 6) with (zlen (word tid ++ [0; 0] ++ word (zlen m) ++ m)) by zl. rewrite H'. reflexivity.
Qed.
(** C59: over TCP every configured command but a write of a single coil is sent as the protocol wants it *)
Theorem C59_tcp : forall c tid junk jcrc,
  command c -> mc_fn c <> 5 -> 0 <= tid < 65536 -> zlen junk = 1024 ->
  exists o c', tcp_request c tid junk jcrc = Done (o, c') /\ sent c o (fun f => f = on_tcp tid (pdu c)).
Proof.
  intros c tid junk jcrc C N5 T J. unfold tcp_request. destruct (must_send_any c jcrc C) as (go & c' & -> & G). cbn [rbind]. destruct go; cbn [negb].
  2: { eexists. eexists. split; [reflexivity|]. right. split; [reflexivity | exact (G eq_refl)]. }
  clear G. destruct (command_fn c C) as (F & L & Len). destruct C as (Hn & Hr & B & D).
  destruct (put_word_next [] junk tid 0 (holds_nil _ J) eq_refl ltac:(lia) T) as (b1 & -> & H1). cbn [rbind app] in *.
  destruct (put_word_next _ b1 0 2 H1 eq_refl ltac:(lia) ltac:(lia)) as (b2 & -> & H2). cbn [rbind]. destruct (holds_skip _ b2 H2 ltac:(zl)) as (x & H3). destruct (holds_skip _ b2 H3 ltac:(zl)) as (y & H4). clear H1 H2 H3 b1.
  destruct (put_next _ b2 (mc_node c) 6 H4 eq_refl ltac:(lia)) as (b3 & -> & H5). cbn [rbind]. destruct (put_next _ b3 (mc_fn c) 7 H5 eq_refl ltac:(lia)) as (b4 & -> & H6). cbn [rbind].
  destruct (put_word_next _ b4 (mc_reg c) 8 H6 eq_refl ltac:(lia) Hr) as (b5 & -> & H7). cbn [rbind]. clear H4 H5 H6 b2 b3 b4.
  rewrite <- !app_assoc in H7. cbn [app] in H7. rewrite (u8_small (mc_node c)), (u8_small (mc_fn c)) in H7 by (cbn [In] in F; lia).
  set (hd := word tid ++ word 0 ++ x :: y :: mc_node c :: mc_fn c :: word (mc_reg c)) in *. assert (Lh : zlen hd = 10) by reflexivity.
  assert (Fin : forall m b length, pdu c = [mc_node c; mc_fn c] ++ word (mc_reg c) ++ m -> holds (hd ++ m) b -> zlen m < 900 -> length = 4 + zlen m ->
    exists o cz, (b <-- put_word b 4 length ;; if in_bounds 0 (length + 6) (zlen b) then Done (Some (slice 0 (length + 6) b), c') else Undef UOob) = Done (o, cz) /\ sent c o (fun f => f = on_tcp tid (pdu c))).
  { intros m b length P H Lm ->. eexists. eexists. split; [apply (frame_tcp c' tid (pdu c)); [exact T | rewrite P; zl | rewrite P; zl|] | left; eexists; split; reflexivity].
    exists x, y. rewrite P. unfold hd in H. rewrite <- !app_assoc in H. exact H. }
  destruct ((1 <=? mc_fn c) && (mc_fn c <=? 4)) eqn:F14.
  { destruct (put_word_next _ b5 (mc_len c) 10 H7 (eq_sym Lh) ltac:(lia) Len) as (b6 & -> & H8). cbn [rbind]. apply (Fin _ _ _) with (2 := H8); [|reflexivity..]. unfold pdu.
    replace (mc_fn c =? 5) with false by lia. replace (mc_fn c =? 6) with false by lia. replace (mc_fn c =? 15) with false by lia. replace (mc_fn c =? 16) with false by lia. reflexivity. }
  replace (mc_fn c =? 5) with false by lia. destruct (mc_fn c =? 6) eqn:F6.
  { assert (F6' : mc_fn c = 6) by lia. rewrite F6' in D. destruct (swapped_all 1 (mc_data c) hd b5 10 B ltac:(lia) H7 (eq_sym Lh) ltac:(lia)) as (b6 & -> & H8). cbn [rbind].
    apply (Fin _ _ _) with (2 := H8); rewrite ?(zlen_exchanged 1) by lia; [|lia..]. unfold pdu. rewrite F6'. reflexivity. }
  destruct (mc_fn c =? 15) eqn:F15.
  { assert (F' : mc_fn c = 15) by lia. rewrite F' in D. destruct D as (D1 & D2). destruct (put_word_next _ b5 (mc_len c) 10 H7 (eq_sym Lh) ltac:(lia) Len) as (b6 & -> & H8). cbn [rbind]. cbv zeta.
    assert (Q : u8 (Z.quot (mc_len c - 1) 8 + 1) = zlen (mc_data c)). { rewrite Z.quot_div_nonneg by lia. rewrite u8_small by lia. lia. } rewrite Q.
    destruct (put_next _ b6 (zlen (mc_data c)) 12 H8 ltac:(zl) ltac:(lia)) as (b7 & -> & H9). cbn [rbind]. rewrite u8_small in H9 by lia. replace (in_bounds 0 (zlen (mc_data c)) (zlen (mc_data c))) with true by (symmetry; unfold in_bounds; lia).
    rewrite slice_full. destruct (put_bytes_next (mc_data c) _ b7 13 B H9 ltac:(zl) ltac:(lia)) as (b8 & -> & H10). cbn [rbind].
    rewrite <- !app_assoc in H10. apply (Fin _ _ _) with (2 := H10); [|zl..]. unfold pdu. rewrite F'. reflexivity. }
  destruct (mc_fn c =? 16) eqn:F16.
  { assert (F' : mc_fn c = 16) by lia. rewrite F' in D. destruct D as (D1 & D2). destruct (put_word_next _ b5 (mc_len c) 10 H7 (eq_sym Lh) ltac:(lia) Len) as (b6 & -> & H8). cbn [rbind].
    destruct (put_next _ b6 (mc_len c * 2) 12 H8 ltac:(zl) ltac:(lia)) as (b7 & -> & H9). cbn [rbind]. rewrite u8_small in H9 by lia.
    destruct (swapped_all (Z.to_nat (mc_len c)) (mc_data c) _ b7 13 B ltac:(lia) H9 ltac:(zl) ltac:(lia)) as (b8 & -> & H10). cbn [rbind].
    rewrite <- !app_assoc in H10. assert (Lx := zlen_exchanged (Z.to_nat (mc_len c)) (mc_data c) ltac:(lia)). apply (Fin _ _ _) with (2 := H10); [|zl|].
    - unfold pdu. rewrite F', D2. change (16 =? 5) with false. change (16 =? 6) with false. change (16 =? 15) with false. change (16 =? 16) with true. cbv iota. rewrite (Z.mul_comm 2). reflexivity.
    - unfold u16. rewrite Z.mod_small by lia. zl. }
  exfalso. cbn [In] in F. lia.
Qed.
Lemma exchanged_ok k : forall d, zlen d = 2 * Z.of_nat k -> bytes_ok d -> bytes_ok (exchanged d).
Proof.
  induction k as [|k IH]; intros d L B; (destruct d as [|x [|y d]]; [constructor | constructor|]); rewrite !zlen_cons in L; assert (N := zlen_nonneg d); [lia|].
  inversion B as [|? ? Bx B']; subst. inversion B' as [|? ? By Bd]; subst. cbn [exchanged]. constructor; [exact By|]. constructor; [exact Bx|]. apply IH; [lia | exact Bd].
Qed.
Lemma ltb_false_ a b : b <= a -> (a <? b) = false.
Proof. lia. Qed.
(** C59: on a serial line the commands that read, that write one coil, and that write up to 124 registers are sent as the protocol wants them, with the checksum of C55 *)
Theorem C59_rtu_partial : forall c junk jcrc,
  command c -> bytes_ok junk -> zlen junk = 1024 -> mc_fn c <= 5 \/ mc_fn c = 16 /\ mc_len c <= 124 ->
  exists o c', rtu_request c junk jcrc = Done (o, c') /\ sent c o (sealed (pdu c)).
Proof.
  intros c junk jcrc C Bj J Sel. unfold rtu_request. destruct (must_send_any c jcrc C) as (go & c' & -> & G). cbn [rbind]. destruct go; cbn [negb].
  2: { eexists. eexists. split; [reflexivity|]. right. split; [reflexivity | exact (G eq_refl)]. }
  clear G. assert (Fb := first_byte c C). destruct (command_fn c C) as (F & L & Len). destruct C as (Hn & Hr & B & D).
  destruct (put_next _ junk (mc_node c) 0 (holds_nil _ J) eq_refl ltac:(lia)) as (b3 & -> & H5). cbn [rbind]. destruct (put_next _ b3 (mc_fn c) 1 H5 eq_refl ltac:(lia)) as (b4 & -> & H6). cbn [rbind].
  destruct (put_word_next _ b4 (mc_reg c) 2 H6 eq_refl ltac:(lia) Hr) as (b5 & -> & H7). cbn [rbind]. clear H5 H6 b3 b4.
  rewrite <- !app_assoc in H7. cbn [app] in H7. rewrite (u8_small (mc_node c)), (u8_small (mc_fn c)) in H7 by (cbn [In] in F; lia).
  set (hd := mc_node c :: mc_fn c :: word (mc_reg c)) in *. assert (Lh : zlen hd = 4) by reflexivity.
  assert (Bw : forall v, 0 <= v < 65536 -> bytes_ok (word v)) by (intros v Hv; repeat constructor; unfold is_byte; lia).
  assert (Bh : bytes_ok hd). { constructor; [unfold is_byte; lia|]. constructor; [unfold is_byte; cbn [In] in F; lia|]. apply Bw. exact Hr. }
  assert (Fin : forall m b length, pdu c = hd ++ m -> holds (hd ++ m) b -> bytes_ok m -> zlen m < 252 -> length = 4 + zlen m ->
    exists o cz, (crc <-- crc16 b length ;; b <-- put_word b length crc ;; Done (Some (slice 0 (length + 2) b), c')) = Done (o, cz) /\ sent c o (sealed (pdu c))).
  { intros m b length P H Bm Lm ->. assert (Nm := zlen_nonneg m). assert (Bp : bytes_ok (hd ++ m)) by (apply Forall_app; split; assumption).
    assert (S : slice 0 (4 + zlen m) b = hd ++ m) by (rewrite <- (holds_sent _ _ H); f_equal; rewrite zlen_app; lia).
    destruct (C55_value (hd ++ m) (zlen (hd ++ m)) Bp ltac:(rewrite zlen_app; lia) ltac:(rewrite zlen_app; lia)) as (v & E & Rv & _).
    assert (E' : crc16 b (4 + zlen m) = Done v). { rewrite <- E. unfold crc16. rewrite !zlen_app, Lh. unfold u16. rewrite Z.mod_small by lia. rewrite S. assert (Sf : slice 0 (4 + zlen m) (hd ++ m) = hd ++ m) by (rewrite <- Lh, <- zlen_app; apply slice_full). rewrite Sf.
      assert (Lb : zlen b = 1024) by apply H. rewrite !ltb_false_ by lia. reflexivity. }
    rewrite E'. cbn [rbind]. destruct (put_word_next _ b v (4 + zlen m) H ltac:(rewrite zlen_app; lia) ltac:(lia) Rv) as (b' & -> & H'). cbn [rbind]. eexists. eexists. split; [reflexivity|].
    left. eexists. split; [reflexivity|]. rewrite P. exists v. split; [exact E|]. fold (word v). rewrite <- (holds_sent _ _ H'). f_equal. rewrite !zlen_app, zlen_word. lia. }
  destruct ((1 <=? mc_fn c) && (mc_fn c <=? 4)) eqn:F14.
  { destruct (put_word_next _ b5 (mc_len c) 4 H7 (eq_sym Lh) ltac:(lia) Len) as (b6 & -> & H8). cbn [rbind]. apply (Fin _ _ _) with (2 := H8); [|apply Bw; exact Len|reflexivity..]. unfold pdu.
    replace (mc_fn c =? 5) with false by lia. replace (mc_fn c =? 6) with false by lia. replace (mc_fn c =? 15) with false by lia. replace (mc_fn c =? 16) with false by lia. reflexivity. }
  destruct (mc_fn c =? 5) eqn:F5.
  { rewrite Fb. cbn [rbind]. set (v := if nthb (mc_data c) 0 =? 0 then 0 else 255). assert (Hv : 0 <= v < 256) by (unfold v; destruct (nthb (mc_data c) 0 =? 0); lia).
    destruct (put_next _ b5 v 4 H7 (eq_sym Lh) eq_refl) as (b6 & -> & H8). cbn [rbind]. destruct (put_next _ b6 0 5 H8 eq_refl eq_refl) as (b7 & -> & H9). cbn [rbind]. rewrite <- app_assoc in H9. cbn [app] in H9. rewrite (u8_small v) in H9 by exact Hv.
    apply (Fin _ _ _) with (2 := H9); [| |reflexivity..].
    - unfold pdu. rewrite F5. reflexivity.
    - constructor; [exact Hv|]. constructor; [apply u8_byte | constructor]. }
  destruct (mc_fn c =? 6) eqn:F6; [lia|]. destruct (mc_fn c =? 15) eqn:F15; [lia|].
  destruct (mc_fn c =? 16) eqn:F16.
  { assert (F' : mc_fn c = 16) by lia. rewrite F' in D. destruct D as (D1 & D2). destruct (put_word_next _ b5 (mc_len c) 4 H7 (eq_sym Lh) ltac:(lia) Len) as (b6 & -> & H8). cbn [rbind].
    destruct (put_next _ b6 (mc_len c * 2) 6 H8 ltac:(zl) ltac:(lia)) as (b7 & -> & H9). cbn [rbind]. rewrite u8_small in H9 by lia.
    destruct (swapped_all (Z.to_nat (mc_len c)) (mc_data c) _ b7 7 B ltac:(lia) H9 ltac:(zl) ltac:(lia)) as (b8 & -> & H10). cbn [rbind].
    rewrite <- !app_assoc in H10. assert (Lx := zlen_exchanged (Z.to_nat (mc_len c)) (mc_data c) ltac:(lia)). apply (Fin _ _ _) with (2 := H10); [| |zl|].
    - unfold pdu. rewrite F', D2. change (16 =? 5) with false. change (16 =? 6) with false. change (16 =? 15) with false. change (16 =? 16) with true. cbv iota. rewrite (Z.mul_comm 2). unfold hd. rewrite F'. reflexivity.
    - apply Forall_app. split; [apply Bw; exact Len|]. constructor; [unfold is_byte; lia|]. apply (exchanged_ok (Z.to_nat (mc_len c))); [lia | exact B].
    - rewrite u8_small by lia. zl. }
  exfalso. cbn [In] in F. lia.
Qed.
Definition fst_of (r : run (option (list Z) * mbcmd)) : option (list Z) := match r with Done x => fst x | Undef _ => None end.
(** C59: the commands of the theorems above are those the configuration accepts *)
Theorem C59_accepted : forall c node fn reg len c',
  bytes_ok (mc_data c) -> 0 <= reg < 65536 -> 0 <= len < 65536 -> mb_set_command c node fn reg len = (c', true) ->
  command c' /\ mc_node c' = node /\ mc_fn c' = fn /\ mc_reg c' = reg /\ mc_len c' = len.
Proof.
  intros c node fn reg len c' B R L H. unfold mb_set_command in H. destruct ((node <? 1) || (247 <? node)) eqn:N; [discriminate|].
  destruct (negb ((1 <=? fn) && (fn <=? 6) || (fn =? 15) || (fn =? 16))) eqn:F; [discriminate|].
  destruct (((fn =? 1) || (fn =? 2) || (fn =? 15)) && ((len <? 1) || (2000 <? len)) || ((fn =? 3) || (fn =? 4) || (fn =? 16)) && ((len <? 1) || (125 <? len))) eqn:Q; [discriminate|].
  injection H as <-. unfold command. cbn [mc_node mc_fn mc_reg mc_len mc_data].
  assert (Cs : 0 <= cmd_size fn len).
  { unfold cmd_size. destruct ((fn =? 1) || (fn =? 2) || (fn =? 15)) eqn:X; [rewrite Z.quot_div_nonneg by lia; lia|]. destruct ((fn =? 3) || (fn =? 4) || (fn =? 16)); [lia|]. destruct (fn =? 5); lia. }
  assert (Ld : zlen (firstn (Z.to_nat (cmd_size fn len)) (mc_data c ++ zeros (cmd_size fn len))) = cmd_size fn len).
  { unfold zlen, zeros. rewrite firstn_length, app_length, repeat_length. lia. }
  assert (Bd : bytes_ok (firstn (Z.to_nat (cmd_size fn len)) (mc_data c ++ zeros (cmd_size fn len)))).
  { assert (A : bytes_ok (mc_data c ++ zeros (cmd_size fn len))) by (apply Forall_app; split; [exact B | apply bytes_ok_zeros]). unfold bytes_ok in *. rewrite <- (firstn_skipn (Z.to_nat (cmd_size fn len))) in A. apply Forall_app in A. apply A. }
  split; [|repeat split]. split; [lia|]. split; [exact R|]. split; [exact Bd|]. rewrite Ld. clear Ld Bd B.
  assert (Fn : In fn [1; 2; 3; 4; 5; 6; 15; 16]) by (cbn [In]; lia). cbn [In] in Fn. destruct Fn as [<-|[<-|[<-|[<-|[<-|[<-|[<-|[<-|[]]]]]]]]]; unfold cmd_size in *; cbn [Z.eqb Pos.eqb orb andb Z.leb Z.compare Pos.compare Pos.compare_cont negb] in *; try rewrite Z.quot_div_nonneg by lia; lia.
Qed.
(** the hypotheses are met *)
Definition a_cmd fn len data : mbcmd := mk_mbcmd 1 17 fn 260 len data 0 false.
Example C59_ex : command (a_cmd 16 2 [1; 2; 3; 4]) /\ command (a_cmd 3 10 (zeros 20)) /\ command (a_cmd 15 10 [205; 1]) /\ command (a_cmd 5 0 [1]) /\
  fst_of (tcp_request (a_cmd 16 2 [1; 2; 3; 4]) 7 (zeros 1024) 0) = Some [0; 7; 0; 0; 0; 11; 17; 16; 1; 4; 0; 2; 4; 2; 1; 4; 3] /\
  fst_of (tcp_request (a_cmd 3 10 (zeros 20)) 7 (zeros 1024) 0) = Some [0; 7; 0; 0; 0; 6; 17; 3; 1; 4; 0; 10] /\
  fst_of (tcp_request (a_cmd 15 10 [205; 1]) 7 (zeros 1024) 0) = Some [0; 7; 0; 0; 0; 9; 17; 15; 1; 4; 0; 10; 2; 205; 1] /\
  fst_of (rtu_request (a_cmd 5 0 [1]) (zeros 1024) 0) = Some [17; 5; 1; 4; 255; 0; 206; 151].
Proof.
  do 4 (split; [split; [cbn [mc_node a_cmd]; lia|]; split; [cbn [mc_reg a_cmd]; lia|]; split; [apply bytes_check; reflexivity | split; [cbn [mc_len a_cmd]; lia | reflexivity]]|]).
  do 3 (split; [vm_compute; reflexivity|]). vm_compute. reflexivity.
Qed.
(** C59 fails: the second byte of the value of a single coil is never set over TCP; it must be 0 *)
Theorem C59_tcp_coil_refuted : exists junk, zlen junk = 1024 /\ bytes_ok junk /\
  fst_of (tcp_request (a_cmd 5 0 [1]) 7 junk 0) = Some [0; 7; 0; 0; 0; 6; 17; 5; 1; 4; 255; 99].
Proof. exists (repeat 99 1024). split; [vm_compute; reflexivity|]. split; [apply bytes_check; vm_compute; reflexivity | vm_compute; reflexivity]. Qed.
(** C59 fails: a serial request to write one register carries only the low byte of the value (here 0x1234) *)
Theorem C59_rtu_register_refuted : exists f, fst_of (rtu_request (a_cmd 6 0 [52; 18]) (zeros 1024) 0) = Some f /\
  pdu (a_cmd 6 0 [52; 18]) = [17; 6; 1; 4; 18; 52] /\ slice 0 6 f = [17; 6; 1; 4; 0; 52].
Proof. eexists. split; [vm_compute; reflexivity|]. split; vm_compute; reflexivity. Qed.
(** C59 fails: a serial request to write coils announces two bytes of coils and carries none, or as many as an uninitialised byte says *)
Theorem C59_rtu_coils_refuted : exists f, fst_of (rtu_request (a_cmd 15 10 [205; 1]) (zeros 1024) 0) = Some f /\ zlen f = 9 /\ slice 0 7 f = [17; 15; 1; 4; 0; 10; 2] /\
  rtu_request (a_cmd 15 10 [205; 1]) (repeat 99 1024) 0 = Undef UOob.
Proof. eexists. split; [vm_compute; reflexivity|]. split; [vm_compute; reflexivity|]. split; vm_compute; reflexivity. Qed.
(** C59 fails: a serial request to write 125 registers, which the configuration accepts, is 3 bytes long *)
Theorem C59_rtu_long_refuted : command (a_cmd 16 125 (zeros 250)) /\ exists f, fst_of (rtu_request (a_cmd 16 125 (zeros 250)) (zeros 1024) 0) = Some f /\ zlen f = 3.
Proof.
  split; [split; [cbn [mc_node a_cmd]; lia|]; split; [cbn [mc_reg a_cmd]; lia|]; split; [apply bytes_ok_zeros | split; [cbn [mc_len a_cmd]; lia | vm_compute; reflexivity]]|].
  eexists. split; vm_compute; reflexivity.
Qed.
(** C59 fails: the protocol allows 253 bytes after the unit number; a request to write 125 registers has 256 *)
Theorem C59_limit_refuted : exists f, fst_of (tcp_request (a_cmd 16 125 (zeros 250)) 7 (zeros 1024) 0) = Some f /\ zlen f = 7 + 256.
Proof. eexists. split; vm_compute; reflexivity. Qed.
