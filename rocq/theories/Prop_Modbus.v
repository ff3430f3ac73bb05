(** * C56-C58: the Modbus slave *)
From Verif Require Import Base Const Types State Events Atomic Server Inv Reach Lib Frame DataFrame Spec Demo Out Prop_Data ClientTypes ClientData Prop_ClientData Crc Modbus.
From Verif Require Import Prop_Atomic Prop_Maps.

(** ** bytes and bits *)
Lemma put_byte_ok b i v : 0 <= i < zlen b -> put_byte b i v = Done (zset b i (u8 v)).
Proof. intros H. unfold put_byte. replace (in_bounds i 1 (zlen b)) with true by (unfold in_bounds; lia). reflexivity. Qed.
Lemma u8_byte v : 0 <= u8 v < 256.
Proof. unfold u8. apply Z.mod_pos_bound. lia. Qed.
Lemma u8_small v : 0 <= v < 256 -> u8 v = v.
Proof. apply Z.mod_small. Qed.
Lemma nthb_byte l i : bytes_ok l -> 0 <= nthb l i < 256.
Proof.
  intros B. destruct (Z_lt_le_dec i 0).
  - unfold nthb. replace (Z.to_nat i) with 0%nat by lia. destruct B as [|? ? H]; cbn [nth]; lia.
  - destruct (Z_lt_le_dec i (zlen l)).
    + apply (proj1 (bytes_ok_znth _) B i). apply znth_nthb. lia.
    + unfold nthb. rewrite nth_overflow by (unfold zlen in *; lia). lia.
Qed.
Lemma word_at_ok b i : 0 <= i -> i + 2 <= zlen b -> word_at b i = Done (nthb b i * 256 + nthb b (i + 1)).
Proof. intros H1 H2. unfold word_at. replace (in_bounds i 2 (zlen b)) with true by (unfold in_bounds; lia). reflexivity. Qed.

Lemma copy_words_spec k : forall n reg b, bytes_ok reg -> bytes_ok b -> 0 <= n -> 2 * (n + Z.of_nat k) <= zlen reg -> 3 + 2 * (n + Z.of_nat k) <= zlen b ->
  exists b', copy_words k n reg b = Done b' /\ bytes_ok b' /\ zlen b' = zlen b /\
    (forall i, n <= i < n + Z.of_nat k -> nthb b' (3 + 2 * i) = nthb reg (2 * i + 1) /\ nthb b' (4 + 2 * i) = nthb reg (2 * i)) /\
    (forall i, 0 <= i < zlen b -> i < 3 + 2 * n \/ 3 + 2 * (n + Z.of_nat k) <= i -> nthb b' i = nthb b i).
Proof.
  induction k as [|k IH]; intros n reg b Br Bb Hn Hr Hb; cbn [copy_words].
  { exists b. split; [reflexivity|]. split; [exact Bb|]. split; [reflexivity|]. split; [intros i Hi; lia | reflexivity]. }
  replace (zlen reg <? 2 * n + 2) with false by lia. rewrite put_byte_ok by lia. cbn [rbind]. rewrite put_byte_ok by (rewrite zset_zlen; lia). cbn [rbind].
  rewrite !u8_small by (apply nthb_byte; exact Br).
  set (b1 := zset (zset b (3 + n * 2) (nthb reg (2 * n + 1))) (3 + n * 2 + 1) (nthb reg (2 * n))).
  assert (L1 : zlen b1 = zlen b) by (unfold b1; rewrite !zset_zlen; reflexivity).
  assert (B1 : bytes_ok b1) by (unfold b1; repeat apply bytes_ok_zset; try assumption; apply nthb_byte; exact Br).
  assert (K1 : forall j, 0 <= j < zlen b -> nthb b1 j = if j =? 3 + n * 2 + 1 then nthb reg (2 * n) else if j =? 3 + n * 2 then nthb reg (2 * n + 1) else nthb b j).
  { intros j Hj. unfold b1. rewrite nthb_zset by (rewrite ?zset_zlen; lia). destruct (j =? 3 + n * 2 + 1); [reflexivity|]. apply nthb_zset; lia. }
  clearbody b1. destruct (IH (n + 1) reg b1 Br B1 ltac:(lia) ltac:(lia) ltac:(lia)) as (b' & E & B' & L' & W & O).
  exists b'. split; [exact E|]. split; [exact B'|]. split; [lia|]. split.
  - intros i Hi. destruct (Z.eq_dec i n) as [->|N]; [|apply W; lia]. rewrite !O, !K1 by lia.
    replace (3 + 2 * n =? 3 + n * 2 + 1) with false by lia. replace (3 + 2 * n =? 3 + n * 2) with true by lia. replace (4 + 2 * n =? 3 + n * 2 + 1) with true by lia. split; reflexivity.
  - intros i Hi Q. rewrite O, K1 by lia. replace (i =? 3 + n * 2 + 1) with false by lia. replace (i =? 3 + n * 2) with false by lia. reflexivity.
Qed.

Lemma lor_bit x m j : 0 <= m -> 0 <= j -> Z.testbit (Z.lor x (2 ^ m)) j = Z.testbit x j || (m =? j).
Proof. intros Hm Hj. rewrite Z.lor_spec, Z.pow2_bits_eqb by lia. reflexivity. Qed.
Lemma ldiff_bit x m j : 0 <= m -> 0 <= j -> Z.testbit (Z.ldiff x (2 ^ m)) j = Z.testbit x j && negb (m =? j).
Proof. intros Hm Hj. rewrite Z.ldiff_spec, Z.pow2_bits_eqb by lia. reflexivity. Qed.
Lemma ldiff_byte x m : 0 <= x < 256 -> 0 <= Z.ldiff x m < 256.
Proof.
  intros H. assert (N : 0 <= Z.ldiff x m) by (apply Z.ldiff_nonneg; lia). split; [exact N|].
  assert (E : Z.ldiff x m mod 2 ^ 8 = Z.ldiff x m).
  { apply Z.bits_inj'. intros n Hn. destruct (Z.lt_ge_cases n 8); [apply Z.mod_pow2_bits_low; lia|]. rewrite Z.mod_pow2_bits_high by lia. symmetry.
    rewrite Z.ldiff_spec. rewrite <- (Z.mod_small x (2 ^ 8)) by (change (2 ^ 8) with 256; lia). rewrite Z.mod_pow2_bits_high by lia. reflexivity. }
  rewrite <- E. apply Z.mod_pos_bound. reflexivity.
Qed.
Lemma assign_bit_spec b k v : bytes_ok b -> 0 <= k < 8 * zlen b ->
  exists b', assign_bit b k v = Done b' /\ bytes_ok b' /\ zlen b' = zlen b /\
    (forall j, 0 <= j < 8 * zlen b -> bit b' j = if j =? k then v else bit b j) /\ (forall i, 0 <= i < zlen b -> i <> k / 8 -> nthb b' i = nthb b i).
Proof.
  intros B Hk. unfold assign_bit. destruct (znth b (k / 8)) as [x|] eqn:X; [|apply znth_none in X; lia]. assert (Bx := proj1 (bytes_ok_znth _) B _ _ X).
  assert (P : 0 <= 2 ^ (k mod 8) < 256). { split; [apply Z.pow_nonneg; lia|]. change 256 with (2 ^ 8). apply Z.pow_lt_mono_r; lia. }
  set (y := if v then Z.lor x (2 ^ (k mod 8)) else Z.ldiff x (2 ^ (k mod 8))).
  assert (By : 0 <= y < 256) by (unfold y; destruct v; [apply lor_byte; assumption | apply ldiff_byte; assumption]).
  exists (zset b (k / 8) y). split; [reflexivity|]. split; [apply bytes_ok_zset; assumption|]. split; [apply zset_zlen|]. split.
  - intros j Hj. unfold bit. rewrite nthb_zset by lia. destruct (Z.eqb_spec (j / 8) (k / 8)) as [E|E].
    + rewrite <- E in X. rewrite (nthb_znth _ _ _ X). unfold y. destruct (Z.eqb_spec j k) as [->|N].
      * destruct v; [rewrite lor_bit by lia | rewrite ldiff_bit by lia]; rewrite Z.eqb_refl; [apply orb_true_r | apply andb_false_r].
      * assert (k mod 8 =? j mod 8 = false) as Q by lia. destruct v; [rewrite lor_bit by lia | rewrite ldiff_bit by lia]; rewrite Q; [apply orb_false_r | apply andb_true_r].
    + replace (j =? k) with false; [reflexivity|]. symmetry. apply Z.eqb_neq. intros ->. contradiction.
  - intros i Hi N. rewrite nthb_zset by lia. replace (i =? k / 8) with false by lia. reflexivity.
Qed.
Lemma copy_coils_spec k : forall n reg b, bytes_ok b -> 0 <= n -> 2 * ((n + Z.of_nat k) / 16) + 2 <= zlen reg -> 24 + n + Z.of_nat k <= 8 * zlen b ->
  exists b', copy_coils k n reg b = Done b' /\ bytes_ok b' /\ zlen b' = zlen b /\
    (forall j, 0 <= j < 8 * zlen b -> bit b' j = if (24 + n <=? j) && (j <? 24 + n + Z.of_nat k) then bit reg (j - 24) else bit b j) /\
    (forall i, 0 <= i < 3 -> nthb b' i = nthb b i).
Proof.
  induction k as [|k IH]; intros n reg b Bb Hn Hr Hb; cbn [copy_coils].
  { exists b. split; [reflexivity|]. split; [exact Bb|]. split; [reflexivity|]. split; [|reflexivity]. intros j Hj. replace ((24 + n <=? j) && (j <? 24 + n + Z.of_nat 0)) with false by lia. reflexivity. }
  replace (zlen reg <? 2 * (n / 16) + 2) with false by lia.
  destruct (assign_bit_spec b (24 + n) (bit_of reg n) Bb ltac:(lia)) as (b1 & -> & B1 & L1 & K1 & O1). cbn [rbind].
  destruct (IH (n + 1) reg b1 B1 ltac:(lia) ltac:(lia) ltac:(lia)) as (b' & E & B' & L' & W & O).
  exists b'. split; [exact E|]. split; [exact B'|]. split; [lia|]. split.
  - intros j Hj. rewrite W, K1 by lia. destruct (Z.eqb_spec j (24 + n)) as [->|N].
    + replace ((24 + (n + 1) <=? 24 + n) && (24 + n <? 24 + (n + 1) + Z.of_nat k)) with false by lia. replace ((24 + n <=? 24 + n) && (24 + n <? 24 + n + Z.of_nat (S k))) with true by lia.
      replace (24 + n - 24) with n by lia. reflexivity.
    + replace ((24 + (n + 1) <=? j) && (j <? 24 + (n + 1) + Z.of_nat k)) with ((24 + n <=? j) && (j <? 24 + n + Z.of_nat (S k))) by lia. reflexivity.
  - intros i Hi. rewrite O by lia. apply O1; lia.
Qed.

(** ** requests *)
(** the request in [buff]: unit [node], function [f], address [a], and [c], a count or a value *)
Definition asks (buff : list Z) (node f a c : Z) : Prop :=
  znth buff 0 = Some node /\ znth buff 1 = Some f /\ word_at buff 2 = Done a /\ word_at buff 4 = Done c.
(** the node that answers for a unit: itself, or node 0 if it is not configured *)
Definition serves (p : mbport) (node node' : Z) (nd : mbnode) : Prop :=
  (mp_nodes p node = Some nd /\ node' = node) \/ (mp_nodes p node = None /\ mp_nodes p 0 = Some nd /\ node' = 0).
(** the tag and the number of registers a read function reads; [true] for registers of 16 bits *)
Inductive reads (nd : mbnode) : Z -> bool -> Z -> Z -> Prop :=
| reads_coils : reads nd 1 false (nd_coil nd) (nd_coil_size nd)
| reads_disc : reads nd 2 false (nd_disc nd) (nd_disc_size nd)
| reads_hold : reads nd 3 true (nd_hold nd) (nd_hold_size nd)
| reads_input : reads nd 4 true (nd_input nd) (nd_input_size nd).
(** the value of register [j] of a tag that holds [b] *)
Definition reg_value (b : list Z) (j : Z) : Z := nthb b (2 * j) + 256 * nthb b (2 * j + 1).
(** an ordinary tag, with the bytes [b] *)
Definition plain (s : server) (i : Z) (b : list Z) : Prop := stored s i b /\ no_override s i /\ bytes_ok b /\ zlen b < 2147483648.
(** the local arrays of the slave *)
Definition locals (jk : mbjunk) : Prop := bytes_ok (jk_reg jk) /\ zlen (jk_reg jk) = 300 /\ bytes_ok (jk_data jk) /\ zlen (jk_data jk) = 256.

Lemma word_range b i w : bytes_ok b -> word_at b i = Done w -> 0 <= w < 65536.
Proof. intros B H. unfold word_at in H. destruct (in_bounds i 2 (zlen b)); [|discriminate]. injection H as <-. assert (A := nthb_byte b i B). assert (C := nthb_byte b (i + 1) B). lia. Qed.
Lemma word_len b i w : word_at b i = Done w -> 0 <= i /\ i + 2 <= zlen b.
Proof. unfold word_at. destruct (in_bounds i 2 (zlen b)) eqn:Q; [|discriminate]. apply in_bounds_iff in Q. lia. Qed.

Lemma create_read E cc fd p jk buff size s node f a c node' nd w i n :
  asks buff node f a c -> serves p node node' nd -> reads nd f w i n -> call (nd_read_cb nd) node' f a c (jk_result jk) = 0 ->
  create_response E cc fd p jk buff size s =
    if n =? 0 then create_exception s buff ME_WRONG_FUNCTION
    else if w then read_words_response E cc fd jk i n buff size s else read_bits_response E cc fd jk i n buff size s.
Proof.
  intros (A0 & A1 & A2 & A3) S R C. unfold create_response. rewrite A0, A1, A2, A3.
  assert (K : match mp_nodes p node with Some nd => Some (node, nd) | None => match mp_nodes p 0 with Some nd => Some (0, nd) | None => None end end = Some (node', nd)).
  { destruct S as [(-> & ->)|(-> & -> & ->)]; reflexivity. }
  cbv zeta. rewrite K. cbn [rbind].
  destruct R; cbn [Z.eqb Pos.eqb orb]; rewrite C; change (negb (0 =? 0)) with false; cbv iota; unfold function_ok; cbn [Z.eqb Pos.eqb orb];
    match goal with |- context [negb (negb (?z =? 0))] => destruct (z =? 0) end; reflexivity.
Qed.
Lemma slave_words E cc fd i a c reg s b : reachable E s -> plain s i b -> bytes_ok reg -> 0 <= a -> 0 <= c -> 2 * c <= zlen reg -> zlen reg <= 4000 -> a < 65536 ->
  exists s' reg', slave_read E cc fd true i a c reg s = Done (s', reg') /\ s_db s' = s_db s /\ bytes_ok reg' /\ zlen reg' = zlen reg /\
    (2 * (a + c) <= zlen b -> forall k, 0 <= k < 2 * c -> nthb reg' k = nthb b (2 * a + k)).
Proof.
  intros R (S & NO & Bb & Zb) Br Ha Hc Hr Hr2 Ha2. unfold slave_read, slave_handle, dax_tag_read. cbn [h_size h_type h_byte h_index h_count].
  replace (MSG_DATA_SIZE <? c * 2) with false by (unfold MSG_DATA_SIZE, DAX_MSGMAX in *; lia).
  unfold c_read. replace (MSG_DATA_SIZE <? c * 2) with false by (unfold MSG_DATA_SIZE, DAX_MSGMAX in *; lia). rewrite s32_small by lia.
  assert (T := C09_nonneg_read_partial E s fd i (a * 2) (c * 2) b R S Zb NO ltac:(lia) ltac:(unfold MSG_DATA_SIZE, DAX_MSGMAX; lia) ltac:(lia)).
  rewrite (ask_after _ _ _ _ T). cbn [rbind]. destruct (a * 2 + c * 2 <=? zlen b) eqn:Q.
  - assert (B : in_bounds (a * 2) (c * 2) (zlen b) = true) by (unfold in_bounds; lia). assert (L := zlen_slice _ _ _ B). rewrite L.
    assert (B2 : in_bounds 0 (zlen (slice (a * 2) (c * 2) b)) (zlen reg) = true) by (rewrite L; unfold in_bounds; lia). rewrite L in B2. rewrite B2. rewrite <- L in B2. cbn [rbind].
    change (negb (0 =? 0)) with false. cbv iota. change (T_UINT =? T_BOOL) with false. cbv iota. unfold read_format.
    rewrite (base_fmt false _ _ _ 2) by (rewrite ?zlen_splice by exact B2; first [lia | cbn; tauto]). cbn [rbind].
    eexists. eexists. split; [reflexivity|]. split; [reflexivity|]. split; [|split; [apply zlen_splice; exact B2|]].
    + apply bytes_ok_splice; [|exact Br]. apply bytes_ok_slice. exact Bb.
    + intros _ k Hk. apply nthb_znth. rewrite (znth_splice _ _ _ _ B2) by lia. rewrite L. replace ((0 <=? k) && (k <? 0 + c * 2)) with true by lia.
      rewrite znth_slice by lia. replace (a * 2 + (k - 0)) with (2 * a + k) by lia. apply znth_nthb. lia.
  - cbn [rbind]. change (negb (E_2BIG =? 0)) with true. cbv iota. cbn [rbind]. eexists. eexists. split; [reflexivity|]. split; [reflexivity|]. split; [exact Br|]. split; [reflexivity|]. lia.
Qed.
(** C56: a read of 16 bit registers that exist is answered with their values *)
Theorem C56_words : forall E cc fd p jk buff size s node f a c node' nd i n b,
  reachable E s -> plain s i b -> locals jk -> bytes_ok buff -> zlen buff = size -> size <= 256 ->
  asks buff node f a c -> serves p node node' nd -> call (nd_read_cb nd) node' f a c (jk_result jk) = 0 ->
  reads nd f true i n -> 2 * n <= zlen b -> 1 <= c -> a + c <= n -> 2 * c <= size - 3 ->
  exists s' buff', create_response E cc fd p jk buff size s = Done (s', buff', 3 + 2 * c) /\ s_db s' = s_db s /\ zlen buff' = zlen buff /\ bytes_ok buff' /\
    nthb buff' 0 = node /\ nthb buff' 1 = f /\ nthb buff' 2 = 2 * c /\
    forall k, 0 <= k < c -> word_at buff' (3 + 2 * k) = Done (reg_value b (a + k)).
Proof.
  intros E cc fd p jk buff size s node f a c node' nd i n b R P (J1 & J2 & _) Bb Lb Hs A S C Rd Hn Hc Hac Hcs.
  rewrite (create_read _ _ _ _ _ _ _ _ _ _ _ _ _ _ _ _ _ A S Rd C). destruct A as (A0 & A1 & A2 & A3).
  assert (Ra := word_range _ _ _ Bb A2). assert (Rc := word_range _ _ _ Bb A3). replace (n =? 0) with false by lia.
  unfold read_words_response. rewrite A2, A3. cbn [rbind].
  destruct (slave_words E cc fd i a c (jk_reg jk) s b R P J1 ltac:(lia) ltac:(lia) ltac:(lia) ltac:(lia) ltac:(lia)) as (s' & reg & -> & D & Br & Lr & K).
  cbn [rbind]. replace (size - 3 <? c * 2) with false by lia. replace (n <? a + c) with false by lia. rewrite put_byte_ok by lia. cbn [rbind].
  rewrite u8_small by lia. set (b1 := zset buff 2 (c * 2)). assert (L1 : zlen b1 = zlen buff) by apply zset_zlen.
  destruct (copy_words_spec (Z.to_nat c) 0 reg b1 Br ltac:(apply bytes_ok_zset; [exact Bb|lia]) ltac:(lia) ltac:(lia) ltac:(lia)) as (b2 & -> & B2 & L2 & W & O).
  cbn [rbind]. exists s', b2. split; [rewrite (Z.mul_comm c 2), (Z.add_comm (2 * c) 3); reflexivity|]. split; [exact D|]. split; [lia|]. split; [exact B2|].
  assert (N : forall j, 0 <= j < 3 -> nthb b2 j = if j =? 2 then c * 2 else nthb buff j). { intros j Hj. rewrite O by lia. apply nthb_zset; lia. }
  rewrite !N by lia. split; [apply nthb_znth; exact A0|]. split; [apply nthb_znth; exact A1|]. split; [cbn [Z.eqb Pos.eqb]; lia|].
  intros k Hk. rewrite word_at_ok by lia. destruct (W k ltac:(lia)) as (W1 & W2). replace (3 + 2 * k + 1) with (4 + 2 * k) by lia. rewrite W1, W2, !K by lia.
  unfold reg_value. replace (2 * a + (2 * k + 1)) with (2 * (a + k) + 1) by lia. replace (2 * a + 2 * k) with (2 * (a + k)) by lia. f_equal. lia.
Qed.

Definition bits_size (a c : Z) : Z := Z.quot (Z.rem a 8 + c - 1) 8 - Z.quot (Z.rem a 8) 8 + 1.
Lemma bits_size_pos a c : 0 <= a -> 1 <= c -> bits_size a c = (a mod 8 + c - 1) / 8 + 1.
Proof.
  intros Ha Hc. unfold bits_size. rewrite Z.rem_mod_nonneg by lia. assert (0 <= a mod 8 < 8) by lia.
  rewrite !Z.quot_div_nonneg by lia. replace (a mod 8 / 8) with 0 by lia. lia.
Qed.
Lemma slave_bits E cc fd i a c reg s b : reachable E s -> plain s i b -> 0 <= a -> 1 <= c -> bits_size a c <= zlen reg -> zlen reg <= 4000 -> a < 65536 ->
  exists s' reg', slave_read E cc fd false i a c reg s = Done (s', reg') /\ s_db s' = s_db s /\ zlen reg' = zlen reg /\
    (a + c <= 8 * zlen b -> forall k, 0 <= k < c -> bit reg' k = bit b (a + k)).
Proof.
  intros R (S & NO & Bb & Zb) Ha Hc Hr Hr2 Ha2. assert (Sz := bits_size_pos a c Ha Hc).
  unfold slave_read, slave_handle. fold (bits_size a c). rewrite Z.rem_mod_nonneg, Z.quot_div_nonneg by lia. cbv zeta. set (h := mk_h i (a / 8) (a mod 8) c (bits_size a c) T_BOOL).
  destruct (Z_lt_le_dec (zlen b) (a / 8 + bits_size a c)) as [Q|Q].
  - unfold dax_tag_read, h. cbn [h_size h_type h_byte h_index h_count].
    replace (MSG_DATA_SIZE <? bits_size a c) with false by (unfold MSG_DATA_SIZE, DAX_MSGMAX in *; lia).
    unfold c_read. replace (MSG_DATA_SIZE <? bits_size a c) with false by (unfold MSG_DATA_SIZE, DAX_MSGMAX in *; lia). rewrite s32_small by lia.
    assert (T := C09_nonneg_read_partial E s fd i (a / 8) (bits_size a c) b R S Zb NO ltac:(lia) ltac:(unfold MSG_DATA_SIZE, DAX_MSGMAX; lia) ltac:(lia)).
    replace (a / 8 + bits_size a c <=? zlen b) with false in T by lia. rewrite (ask_after _ _ _ _ T). cbn [rbind]. change (negb (E_2BIG =? 0)) with true. cbv iota. cbn [rbind].
    eexists. eexists. split; [reflexivity|]. split; [reflexivity|]. split; [reflexivity|]. lia.
  - destruct (C46_read_bits E cc fd s h reg b R S NO Zb) as (s' & reg' & -> & D & L & K & _); unfold h; cbn [h_size h_type h_byte h_index h_count h_bit]; try lia; try reflexivity.
    { unfold inside. cbn [h_byte h_size]. lia. }
    cbn [rbind]. exists s', reg'. split; [reflexivity|]. split; [exact D|]. split; [exact L|]. intros _ k Hk. unfold h in K. cbn [h_size h_count h_byte h_bit] in K. rewrite K by lia.
    replace (k <? c) with true by lia. cbn [andb]. f_equal. lia.
Qed.
(** C56: a read of coils or discrete inputs that exist is answered with their states, the first one in the lowest bit of the first byte *)
Theorem C56_bits : forall E cc fd p jk buff size s node f a c node' nd i n b,
  reachable E s -> plain s i b -> locals jk -> bytes_ok buff -> zlen buff = size -> size <= 256 ->
  asks buff node f a c -> serves p node node' nd -> call (nd_read_cb nd) node' f a c (jk_result jk) = 0 ->
  reads nd f false i n -> n <= 8 * zlen b -> 1 <= c -> a + c <= n -> (c + 7) / 8 <= size - 3 ->
  exists s' buff', create_response E cc fd p jk buff size s = Done (s', buff', 3 + (c + 7) / 8) /\ s_db s' = s_db s /\ zlen buff' = zlen buff /\ bytes_ok buff' /\
    nthb buff' 0 = node /\ nthb buff' 1 = f /\ nthb buff' 2 = (c + 7) / 8 /\
    forall k, 0 <= k < c -> bit buff' (8 * 3 + k) = bit b (a + k).
Proof.
  intros E cc fd p jk buff size s node f a c node' nd i n b R P (J1 & J2 & _) Bb Lb Hs A S C Rd Hn Hc Hac Hcs.
  rewrite (create_read _ _ _ _ _ _ _ _ _ _ _ _ _ _ _ _ _ A S Rd C). destruct A as (A0 & A1 & A2 & A3).
  assert (Ra := word_range _ _ _ Bb A2). assert (Rc := word_range _ _ _ Bb A3). replace (n =? 0) with false by lia.
  unfold read_bits_response. rewrite A2, A3. cbn [rbind]. assert (Sz := bits_size_pos a c ltac:(lia) Hc).
  destruct (slave_bits E cc fd i a c (jk_reg jk) s b R P ltac:(lia) ltac:(lia) ltac:(lia) ltac:(lia) ltac:(lia)) as (s' & reg & -> & D & Lr & K).
  cbn [rbind]. rewrite Z.quot_div_nonneg by lia. replace (size - 3 <? (c - 1) / 8 + 1) with false by lia. replace (n <? a + c) with false by lia. rewrite put_byte_ok by lia. cbn [rbind].
  rewrite u8_small by lia. set (b1 := zset buff 2 ((c - 1) / 8 + 1)). assert (L1 : zlen b1 = zlen buff) by apply zset_zlen.
  destruct (copy_coils_spec (Z.to_nat c) 0 reg b1 ltac:(apply bytes_ok_zset; [exact Bb|lia]) ltac:(lia) ltac:(lia) ltac:(lia)) as (b2 & -> & B2 & L2 & W & O).
  cbn [rbind]. exists s', b2. replace (3 + (c + 7) / 8) with ((c - 1) / 8 + 4) by lia. split; [reflexivity|]. split; [exact D|]. split; [lia|]. split; [exact B2|].
  assert (N : forall j, 0 <= j < 3 -> nthb b2 j = if j =? 2 then (c - 1) / 8 + 1 else nthb buff j). { intros j Hj. rewrite O by lia. apply nthb_zset; lia. }
  rewrite !N by lia. split; [apply nthb_znth; exact A0|]. split; [apply nthb_znth; exact A1|]. split; [cbn [Z.eqb Pos.eqb]; lia|].
  intros k Hk. rewrite W by lia. replace ((24 + 0 <=? 8 * 3 + k) && (8 * 3 + k <? 24 + 0 + Z.of_nat (Z.to_nat c))) with true by lia.
  replace (8 * 3 + k - 24) with k by lia. apply K; lia.
Qed.

(** an exception response: the function code with its highest bit set, and the code *)
Definition exception (E : env) (cc : ctypes) (fd : Z) (p : mbport) (jk : mbjunk) (buff : list Z) (size : Z) (s : server) (node f code : Z) : Prop :=
  exists s' buff', create_response E cc fd p jk buff size s = Done (s', buff', 3) /\ s_db s' = s_db s /\
    nthb buff' 0 = node /\ nthb buff' 1 = f + 128 /\ nthb buff' 2 = code.
Lemma exception_spec s buff node f code : 3 <= zlen buff -> znth buff 0 = Some node -> znth buff 1 = Some f -> 0 <= f < 128 -> 0 <= code < 256 ->
  exists buff', create_exception s buff code = Done (s, buff', 3) /\ nthb buff' 0 = node /\ nthb buff' 1 = f + 128 /\ nthb buff' 2 = code.
Proof.
  intros L A0 A1 Hf Hc. unfold create_exception. rewrite A1, put_byte_ok by lia. cbn [rbind]. rewrite put_byte_ok by (rewrite zset_zlen; lia). cbn [rbind].
  assert (Z.lor f 128 = f + 128) as ->.
  { rewrite Z.add_comm. symmetry. rewrite <- Z.lxor_lor, Z.add_nocarry_lxor; [apply Z.lxor_comm| |];
      apply Z.bits_inj'; intros n Hn; rewrite Z.land_spec, Z.bits_0; change 128 with (2 ^ 7); rewrite Z.pow2_bits_eqb by lia;
      destruct (Z.eqb_spec 7 n) as [<-|]; rewrite ?andb_false_l, ?andb_false_r; try reflexivity;
      rewrite ?andb_true_l, ?andb_true_r; rewrite <- (Z.mod_small f (2 ^ 7)) by (change (2 ^ 7) with 128; lia); apply Z.mod_pow2_bits_high; lia. }
  rewrite !u8_small by lia. eexists. split; [reflexivity|]. rewrite !nthb_zset by (rewrite ?zset_zlen; lia). cbn [Z.eqb Pos.eqb].
  split; [apply nthb_znth; exact A0|]. split; reflexivity.
Qed.
(** C56: a read that goes beyond the registers, and whose answer would fit, is answered with exception 2 *)
Theorem C56_bad_address : forall E cc fd p jk buff size s node f a c node' nd w i n b,
  reachable E s -> plain s i b -> locals jk -> bytes_ok buff -> zlen buff = size -> size <= 256 ->
  asks buff node f a c -> serves p node node' nd -> call (nd_read_cb nd) node' f a c (jk_result jk) = 0 ->
  reads nd f w i n -> n <> 0 -> 1 <= c -> n < a + c -> (if w then 2 * c else (c + 7) / 8) <= size - 3 ->
  exception E cc fd p jk buff size s node f 2.
Proof.
  intros E cc fd p jk buff size s node f a c node' nd w i n b R P (J1 & J2 & _) Bb Lb Hs A S C Rd Hn Hc Hac Hcs. unfold exception.
  rewrite (create_read _ _ _ _ _ _ _ _ _ _ _ _ _ _ _ _ _ A S Rd C). destruct A as (A0 & A1 & A2 & A3).
  assert (Ra := word_range _ _ _ Bb A2). assert (Rc := word_range _ _ _ Bb A3). assert (Lw := word_len _ _ _ A3). replace (n =? 0) with false by lia.
  assert (Hf : 0 <= f < 128) by (destruct Rd; lia). destruct w.
  - unfold read_words_response. rewrite A2, A3. cbn [rbind].
    destruct (slave_words E cc fd i a c (jk_reg jk) s b R P J1 ltac:(lia) ltac:(lia) ltac:(lia) ltac:(lia) ltac:(lia)) as (s' & reg & -> & D & _).
    cbn [rbind]. replace (size - 3 <? c * 2) with false by lia. replace (n <? a + c) with true by lia. change ME_BAD_ADDRESS with 2.
    destruct (exception_spec s' buff node f 2 ltac:(lia) A0 A1 Hf ltac:(lia)) as (b' & -> & X). exists s', b'. split; [reflexivity|]. split; [exact D|exact X].
  - unfold read_bits_response. rewrite A2, A3. cbn [rbind]. assert (Sz := bits_size_pos a c ltac:(lia) Hc).
    destruct (slave_bits E cc fd i a c (jk_reg jk) s b R P ltac:(lia) ltac:(lia) ltac:(lia) ltac:(lia) ltac:(lia)) as (s' & reg & -> & D & _).
    cbn [rbind]. rewrite Z.quot_div_nonneg by lia. replace (size - 3 <? (c - 1) / 8 + 1) with false by lia. replace (n <? a + c) with true by lia. change ME_BAD_ADDRESS with 2.
    destruct (exception_spec s' buff node f 2 ltac:(lia) A0 A1 Hf ltac:(lia)) as (b' & -> & X). exists s', b'. split; [reflexivity|]. split; [exact D|exact X].
Qed.
(** C56: a function for which the node has no registers is answered with exception 1, whatever the rest of the request *)
Theorem C56_bad_function : forall E cc fd p jk buff size s node f a c node' nd w i,
  6 <= zlen buff -> asks buff node f a c -> serves p node node' nd -> call (nd_read_cb nd) node' f a c (jk_result jk) = 0 ->
  reads nd f w i 0 -> exception E cc fd p jk buff size s node f 1.
Proof.
  intros E cc fd p jk buff size s node f a c node' nd w i L A S C Rd. unfold exception.
  rewrite (create_read E cc fd p jk buff size s node f a c node' nd w i 0 A S Rd C). destruct A as (A0 & A1 & A2 & A3).
  assert (Hf : 0 <= f < 128) by (inversion Rd; lia). change (0 =? 0) with true. cbv iota. change ME_WRONG_FUNCTION with 1.
  destruct (exception_spec s buff node f 1 ltac:(lia) A0 A1 Hf ltac:(lia)) as (b' & -> & X). exists s, b'. split; [reflexivity|]. split; [reflexivity|exact X].
Qed.

(** ** a slave: 200 holding registers, the same as input registers, 12 coils, the same as discrete inputs *)
Definition mb_server : server := after_ops env0 (demo_ops ++ [OpTagAdd 5 (str "regs") T_UINT 200 0; OpWrite 5 16 10 [52; 18; 120; 86]; OpWrite 5 14 0 [165; 9]]).
Lemma mb_reachable : reachable env0 mb_server.
Proof. apply after_reachable. vm_compute. reflexivity. Qed.
Definition mb_slave : mbport := mk_port (fun n => if n =? 1 then Some (mk_node 16 200 16 200 14 12 14 12 None None) else None) true.
Definition no_junk : mbjunk := mk_junk 0 (zeros 300) (zeros 256).
(** a request in a buffer of 250 bytes *)
Definition req (l : list Z) : list Z := l ++ zeros (250 - zlen l).
Definition answer_to (l : list Z) : run (list Z * Z) :=
  x <-- create_response env0 [] 7 mb_slave no_junk (req l) 250 mb_server ;; let '(_, b, r) := x in Done (slice 0 (Z.max 0 r) b, r).
Lemma bytes_check l : forallb (fun x => (0 <=? x) && (x <? 256)) l = true -> bytes_ok l.
Proof. intros H. apply Forall_forall. intros x Hx. apply (proj1 (forallb_forall _ _)) with (x := x) in H; [|exact Hx]. unfold is_byte. lia. Qed.
Ltac plain_tag := split; [find_tag; split; vm_compute; reflexivity|]; split; [intros t A; vm_compute in A; injection A as <-; vm_compute; reflexivity|];
  split; [apply bytes_check; vm_compute; reflexivity | vm_compute; reflexivity].
Lemma regs_plain : exists b, plain mb_server 16 b /\ zlen b = 400 /\ reg_value b 5 = 4660 /\ reg_value b 6 = 22136.
Proof. eexists. split; [plain_tag|]. split; [vm_compute; reflexivity|]. split; vm_compute; reflexivity. Qed.
Lemma coils_plain : exists b, plain mb_server 14 b /\ zlen b = 2 /\ b = [165; 9].
Proof. eexists. split; [plain_tag|]. split; vm_compute; reflexivity. Qed.

(** the hypotheses of C56 are met, and the answers: registers 5 and 6, coils 2 to 11 *)
Example C56_ex :
  asks (req [1; 3; 0; 5; 0; 2]) 1 3 5 2 /\ serves mb_slave 1 1 (mk_node 16 200 16 200 14 12 14 12 None None) /\ locals no_junk /\
  answer_to [1; 3; 0; 5; 0; 2] = Done ([1; 3; 4; 18; 52; 86; 120], 7) /\
  asks (req [1; 1; 0; 2; 0; 10]) 1 1 2 10 /\ answer_to [1; 1; 0; 2; 0; 10] = Done ([1; 1; 2; 105; 2], 5) /\
  answer_to [1; 4; 0; 199; 0; 2] = Done ([1; 132; 2], 3) /\ answer_to [1; 2; 0; 8; 0; 5] = Done ([1; 130; 2], 3).
Proof.
  split; [vm_compute; repeat split; reflexivity|]. split; [left; vm_compute; repeat split; reflexivity|].
  split; [split; [apply bytes_ok_zeros|split; [vm_compute; reflexivity|split; [apply bytes_ok_zeros|vm_compute; reflexivity]]]|].
  split; [vm_compute; reflexivity|]. split; [vm_compute; repeat split; reflexivity|]. split; [vm_compute; reflexivity|]. split; vm_compute; reflexivity.
Qed.
(** C56 fails: 124 registers are a legal count, they exist, and the request gets no answer; it stays in the
    connection's buffer, so that the next request, put behind it, is not recognised either *)
Definition talk (p : mbport) (s : server) (rxs : list (list Z)) : run (list (list Z * Z)) :=
  x <-- mb_serve env0 [] 7 p no_junk (mk_mbconn (zeros 256) 0) rxs s ;; Done (snd x).
Theorem C56_count_refuted :
  talk mb_slave mb_server [[0; 1; 0; 0; 0; 6; 1; 3; 0; 0; 0; 124]; [0; 2; 0; 0; 0; 6; 1; 3; 0; 5; 0; 1]] = Done [([], MB_ERR_OVERFLOW); ([], MB_ERR_OVERFLOW)] /\
  talk mb_slave mb_server [[0; 2; 0; 0; 0; 6; 1; 3; 0; 5; 0; 1]] = Done [([0; 2; 0; 0; 0; 5; 1; 3; 2; 18; 52], 0)].
Proof. split; vm_compute; reflexivity. Qed.
(** C56 fails: the bits of the last byte that belong to no coil must be zero; they are left over from the request (here its address, 8) *)
Theorem C56_padding_refuted : answer_to [1; 1; 0; 8; 0; 3] = Done ([1; 1; 1; 9], 4).
Proof. vm_compute. reflexivity. Qed.
(** C56 fails: a request for no coils at all is answered with a byte of the request, not with an exception *)
Theorem C56_zero_refuted : answer_to [1; 1; 0; 7; 0; 0] = Done ([1; 1; 1; 7], 4) /\ answer_to [1; 3; 0; 1; 0; 0] = Done ([1; 3; 0], 3).
Proof. split; vm_compute; reflexivity. Qed.
(** C56 fails: without a callback, [result] is looked at before anything was stored in it: a correct request may be refused with any exception *)
Theorem C56_uninit_refuted : forall E cc fd p jk buff size s node f a c node' nd w i n,
  asks buff node f a c -> serves p node node' nd -> reads nd f w i n -> nd_read_cb nd = None -> 0 < jk_result jk < 128 ->
  exception E cc fd p jk buff size s node f (jk_result jk).
Proof.
  intros E cc fd p jk buff size s node f a c node' nd w i n (A0 & A1 & A2 & A3) S R C J. assert (Hf : 0 <= f < 128) by (destruct R; lia).
  assert (Lw := word_len _ _ _ A3). unfold exception, create_response. rewrite A0, A1, A2, A3.
  assert (K : match mp_nodes p node with Some nd => Some (node, nd) | None => match mp_nodes p 0 with Some nd => Some (0, nd) | None => None end end = Some (node', nd)).
  { destruct S as [(-> & ->)|(-> & -> & ->)]; reflexivity. }
  cbv zeta. rewrite K. cbn [rbind]. rewrite C. unfold call.
  replace (if (f =? 1) || (f =? 2) || (f =? 3) || (f =? 4) then jk_result jk else jk_result jk) with (jk_result jk) by (destruct ((f =? 1) || (f =? 2) || (f =? 3) || (f =? 4)); reflexivity).
  replace (negb (jk_result jk =? 0)) with true by lia.
  destruct (exception_spec s buff node f (jk_result jk) ltac:(lia) A0 A1 Hf ltac:(lia)) as (b' & -> & X). exists s, b'. split; [reflexivity|]. split; [reflexivity | exact X].
Qed.
