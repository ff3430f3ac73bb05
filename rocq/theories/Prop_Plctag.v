(** * Prop_Plctag: C81 (values read from a PLC), C82 (values written to a PLC),
    C83 (compound types and byte maps), C84 (callbacks stay within memory) *)
From Verif Require Import Base Const Lib Script Plctag LuaConvProofs.

Lemma ploop_inv {S} (P : Z -> S -> Prop) (f : Z -> S -> run S) : forall k n s,
  (forall i s, n <= i < n + Z.of_nat k -> P i s -> exists s', f i s = Done s' /\ P (i + 1) s') ->
  P n s -> exists s', ploop k n f s = Done s' /\ P (n + Z.of_nat k) s'.
Proof.
  induction k as [|k IH]; intros n s H P0.
  - exists s. split; [reflexivity|]. rewrite Z.add_0_r. exact P0.
  - destruct (H n s ltac:(lia) P0) as (s1 & E1 & P1). cbn [ploop]. rewrite E1.
    destruct (IH (n + 1) s1) as (s2 & E2 & P2); [|exact P1|].
    + intros i s' I. apply H. lia.
    + exists s2. split; [exact E2|]. replace (n + Z.of_nat (Datatypes.S k)) with (n + 1 + Z.of_nat k) by lia. exact P2.
Qed.

(** Bytes of a number of the base type [t], by the code of the type (opendax.h) *)
Definition width (t : Z) : Z := 2 ^ (t mod 16) / 8.
Definition number_types : list Z :=
  [T_BYTE; T_SINT; T_CHAR; T_WORD; T_INT; T_UINT; T_DWORD; T_DINT; T_UDINT; T_LWORD; T_LINT; T_ULINT; T_TIME; T_REAL].

Lemma le_get_u n off plc : in_bounds off n (zlen plc) = true -> bytes_ok plc ->
  le_bytes (Z.to_nat n) (plc_get_u n off plc) = slice off n plc.
Proof.
  intros B K. unfold plc_get_u. rewrite B. pose proof (zlen_slice _ _ _ B) as L.
  rewrite <- (le_bytes_le_val (slice off n plc)) by (apply bytes_ok_slice; exact K).
  rewrite le_val_le_bytes.
  replace (Z.to_nat n) with (length (slice off n plc)) by (unfold zlen in L; lia).
  f_equal. rewrite <- le_val_le_bytes. rewrite le_bytes_le_val by (apply bytes_ok_slice; exact K). reflexivity.
Qed.
Lemma le_bytes_mod n : forall z k, le_bytes n (z + k * 256 ^ Z.of_nat n) = le_bytes n z.
Proof.
  induction n as [|n IH]; intros z k; [reflexivity|]. cbn [le_bytes].
  replace (256 ^ Z.of_nat (S n)) with (256 * 256 ^ Z.of_nat n) by (rewrite Nat2Z.inj_succ, Z.pow_succ_r by lia; reflexivity).
  set (p := 256 ^ Z.of_nat n) in *.
  replace ((z + k * (256 * p)) / 256) with (z / 256 + k * p).
  - rewrite IH. f_equal. replace (z + k * (256 * p)) with (z + (k * p) * 256) by ring. apply Z_mod_plus_full.
  - replace (z + k * (256 * p)) with (z + (k * p) * 256) by ring. rewrite Z_div_plus_full by lia. reflexivity.
Qed.
Lemma le_get_s n off plc : in_bounds off n (zlen plc) = true -> bytes_ok plc ->
  le_bytes (Z.to_nat n) (plc_get_s n off plc) = slice off n plc.
Proof.
  intros B K. rewrite <- (le_get_u n off plc B K). unfold plc_get_s, plc_get_u. rewrite B. cbv zeta.
  destruct (_ <? _); [reflexivity|].
  replace (le_val (slice off n plc) - 256 ^ n) with (le_val (slice off n plc) + (-1) * 256 ^ Z.of_nat (Z.to_nat n)).
  - apply le_bytes_mod.
  - unfold in_bounds in B. rewrite Z2Nat.id by lia. ring.
Qed.
Lemma le_get_f off plc : in_bounds off 4 (zlen plc) = true -> bytes_ok plc ->
  le_bytes (Z.to_nat 4) (plc_get_f off plc) = slice off 4 plc.
Proof. intros B K. rewrite <- (le_get_u 4 off plc B K). unfold plc_get_f, plc_get_u. rewrite B. reflexivity. Qed.

(** The block holds the elements of the PLC *)
Definition holds_elems (w es count : Z) (plc buff : list Z) : Prop :=
  forall i b, 0 <= i < count -> 0 <= b < w -> nthb buff (i * w + b) = nthb plc (i * es + b).

Lemma read_nums w es count get plc old : 0 < w -> 0 < es -> 0 <= count -> zlen old = count * w ->
  (0 < count -> (count - 1) * es + w <= zlen plc) -> zlen plc < 2 ^ 31 ->
  (forall off, in_bounds off w (zlen plc) = true -> le_bytes (Z.to_nat w) (get off) = slice off w plc) ->
  exists new, ploop (Z.to_nat count) 0 (read_num w es get) old = Done new /\ zlen new = zlen old /\ holds_elems w es count plc new.
Proof.
  intros W ES C0 L PL PS G.
  destruct (ploop_inv (fun n b => zlen b = zlen old /\ holds_elems w es n plc b) (read_num w es get) (Z.to_nat count) 0 old)
    as (new & E & LN & H).
  - intros i s I [LS HS]. rewrite Z2Nat.id in I by lia. unfold read_num, at_plc.
    assert (i * es + w <= zlen plc) by nia.
    replace (fits32 (i * es)) with true by (unfold fits32; clear - H PS I ES W; assert (0 <= i * es) by nia; lia).
    assert (B : in_bounds (i * es) w (zlen plc) = true) by (unfold in_bounds; assert (0 <= i * es) by nia; lia).
    rewrite (G _ B). unfold store. pose proof (zlen_slice _ _ _ B) as LB. rewrite LB.
    assert (BB : in_bounds (i * w) w (zlen s) = true) by (unfold in_bounds; rewrite LS, L; assert (i * w + w <= count * w) by nia; nia).
    rewrite BB. eexists. split; [reflexivity|].
    assert (BB' : in_bounds (i * w) (zlen (slice (i * es) w plc)) (zlen s) = true) by (rewrite LB; exact BB). clear BB. rename BB' into BB. split; [rewrite zlen_splice by exact BB; exact LS|].
    intros j b J Bb. rewrite nthb_splice by (try exact BB; nia). rewrite LB.
    destruct (Z.eq_dec j i) as [-> |NE].
    + replace ((i * w <=? i * w + b) && (i * w + b <? i * w + w)) with true by lia.
      rewrite nthb_slice by (try exact B; lia). f_equal. lia.
    + assert (j * w + b < i * w) by nia.
      replace ((i * w <=? j * w + b) && (j * w + b <? i * w + w)) with false by lia. apply HS; lia.
  - split; [reflexivity|]. intros i b I. lia.
  - exists new. rewrite Z.add_0_l, Z2Nat.id in H by lia. auto.
Qed.

(** ** C81 *)
(** After a completed read element i of the tag holds the bytes that the PLC has at i * elem_size *)
Theorem C81_read_partial : forall widen junk plc t old, In (p_type t) number_types ->
  p_buff t = Some old -> zlen old = p_count t * width (p_type t) -> 0 < p_count t -> 0 < p_es t ->
  (p_count t - 1) * p_es t + width (p_type t) <= zlen plc -> zlen plc < 2 ^ 31 -> bytes_ok plc ->
  exists new, read_tag widen junk plc t = Done new /\ zlen new = zlen old /\
    holds_elems (width (p_type t)) (p_es t) (p_count t) plc new.
Proof.
  intros widen junk plc t old T B L C ES PL PS K. unfold read_tag. replace (p_es t <=? 0) with false by lia. rewrite B.
  cbv [number_types In] in T.
  repeat (destruct T as [T|T]; [rewrite <- T in *; match goal with |- context[acc_of ?x] =>
      let a := eval vm_compute in (acc_of x) in change (acc_of x) with a end;
    match goal with |- context[width ?x] => let a := eval vm_compute in (width x) in change (width x) with a in * end;
    cbv beta iota; apply read_nums; auto; try lia; intros off O; first [apply le_get_u | apply le_get_s | apply le_get_f]; auto|]).
  destruct T.
Qed.

Lemma bit_updb l k (b : bool) m : 0 <= k < 8 * zlen l -> 0 <= m ->
  bit_of (updb l (k / 8) (if b then Z.setbit (nthb l (k / 8)) (k mod 8) else Z.clearbit (nthb l (k / 8)) (k mod 8))) m
  = if m =? k then b else bit_of l m.
Proof.
  intros K M. unfold bit_of. rewrite nthb_updb by lia. destruct (m / 8 =? k / 8) eqn:E.
  - destruct (m =? k) eqn:F.
    + replace m with k by lia. destruct b; [apply Z.setbit_eq; lia|apply Z.clearbit_eq].
    + replace (m / 8) with (k / 8) by lia.
      destruct b; [apply Z.setbit_neq; lia|apply Z.clearbit_neq; lia].
  - replace (m =? k) with false by lia. reflexivity.
Qed.
Lemma zlen_updb l i x : zlen (updb l i x) = zlen l.
Proof. unfold zlen, updb. rewrite upd_length. reflexivity. Qed.

Theorem C81_bool_partial : forall widen junk plc t old, p_type t = T_BOOL ->
  p_buff t = Some old -> 0 < p_es t -> 0 <= p_count t -> p_count t <= 8 * zlen old -> p_count t <= 8 * zlen plc ->
  exists new, read_tag widen junk plc t = Done new /\ zlen new = zlen old /\
    forall k, 0 <= k -> bit_of new k = if k <? p_count t then bit_of plc k else bit_of old k.
Proof.
  intros widen junk plc t old T B ES C L1 L2. unfold read_tag. replace (p_es t <=? 0) with false by lia. rewrite B, T.
  change (acc_of T_BOOL) with ABit. cbv beta iota.
  destruct (ploop_inv (fun n b => zlen b = zlen old /\ forall k, 0 <= k -> bit_of b k = if k <? n then bit_of plc k else bit_of old k)
    (read_bit1 plc) (Z.to_nat (p_count t)) 0 old) as (new & E & LN & H).
  - intros i s I [LS HS]. rewrite Z2Nat.id in I by lia. unfold read_bit1, plc_get_bit.
    replace ((0 <=? i) && (i <? 8 * zlen plc)) with true by lia. cbv zeta.
    replace ((if bit_of plc i then 1 else 0) <? 0) with false by (destruct (bit_of plc i); reflexivity).
    replace (in_bounds (i / 8) 1 (zlen s)) with true by (unfold in_bounds; lia).
    replace (0 <? (if bit_of plc i then 1 else 0)) with (bit_of plc i) by (destruct (bit_of plc i); reflexivity).
    eexists. split; [reflexivity|]. split; [rewrite zlen_updb; exact LS|].
    intros k K. rewrite bit_updb by lia. destruct (k =? i) eqn:F.
    + replace (k <? i + 1) with true by lia. f_equal. lia.
    + rewrite HS by auto. replace (k <? i + 1) with (k <? i) by lia. reflexivity.
  - split; [reflexivity|]. intros k K. replace (k <? 0) with false by lia. reflexivity.
  - exists new. rewrite Z.add_0_l, Z2Nat.id in H by lia. auto.
Qed.

(** An LREAL is read as a float: whatever the conversion, some PLC value does not arrive *)
Definition lreal_tag (old : list Z) : ptag :=
  {| p_type := T_LREAL; p_count := 1; p_size := 8; p_buff := Some old; p_es := 8; p_map := None |}.
Theorem C81_lreal_refuted : forall widen junk, exists plc, zlen plc = 8 /\ bytes_ok plc /\
  exists new, read_tag widen junk plc (lreal_tag (zeros 8)) = Done new /\ new <> plc.
Proof.
  intros widen junk.
  set (w := le_bytes 8 (widen 0)).
  assert (R : forall a b c d, read_tag widen junk [0; 0; 0; 0; a; b; c; d] (lreal_tag (zeros 8)) = Done w).
  { intros a b c d. unfold read_tag, lreal_tag. cbn [p_es p_buff p_count p_type p_map].
    change (acc_of T_LREAL) with AL. cbv beta iota. reflexivity. }
  destruct (list_eq_dec Z.eq_dec w [0; 0; 0; 0; 0; 0; 240; 63]) as [E|E].
  - exists [0; 0; 0; 0; 0; 0; 0; 64]. split; [reflexivity|]. split; [repeat constructor; lia|]. exists w. split; [apply R|]. rewrite E. discriminate.
  - exists [0; 0; 0; 0; 0; 0; 240; 63]. split; [reflexivity|]. split; [repeat constructor; lia|]. exists w. split; [apply R|]. exact E.
Qed.

(** An element that the PLC does not have becomes the error value of libplctag, taken for data *)
Theorem C81_short_refuted : forall widen junk b x y, 0 <= b < 256 ->
  read_tag widen junk [b] {| p_type := T_BYTE; p_count := 2; p_size := 2; p_buff := Some [x; y]; p_es := 1; p_map := None |}
  = Done [b; 255].
Proof.
  intros widen junk b x y B. unfold read_tag. cbn [p_es p_buff p_count p_type p_map]. change (acc_of T_BYTE) with (AU 1).
  change (1 <=? 0) with false. change (Z.to_nat 2) with 2%nat. cbv beta iota.
  assert (E : le_bytes 1 (b + 256 * 0) = [b]) by (cbn [le_bytes]; f_equal; lia).
  cbn [ploop]. unfold read_num at 1. change (plc_get_u 1 (0 * 1) [b]) with (b + 256 * 0). change (at_plc 0 1) with (Done 0). cbv beta iota.
  change (Z.to_nat 1) with 1%nat. change (plc_get_u 1 0 [b]) with (b + 256 * 0). rewrite E. reflexivity.
Qed.

Definition demo_tag : ptag :=
  {| p_type := T_INT; p_count := 2; p_size := 4; p_buff := Some [0; 0; 0; 0]; p_es := 4; p_map := None |}.
Example C81_ex : read_tag (fun x => x) [] [1; 2; 3; 4; 254; 255; 255; 255] demo_tag = Done [1; 2; 254; 255] /\
  In (p_type demo_tag) number_types /\ zlen [0; 0; 0; 0] = p_count demo_tag * width (p_type demo_tag).
Proof. repeat split; try reflexivity. cbv. tauto. Qed.

(** ** C82 *)
Lemma in_elem es w i m : 0 < es -> w <= es -> 0 <= m -> (i * es <=? m) && (m <? i * es + w) = (m / es =? i) && (m mod es <? w).
Proof.
  intros E W M. pose proof (Z.div_mod m es ltac:(lia)) as D. pose proof (Z.mod_pos_bound m es E) as B.
  set (q := m / es) in *. set (r := m mod es) in *. clearbody q r. subst m.
  destruct (Z.eq_dec q i) as [-> |NE].
  - replace (i =? i) with true by lia. cbn [andb]. lia.
  - replace (q =? i) with false by lia. cbn [andb]. assert (es * q + es <= i * es \/ es * q >= i * es + es) by nia. lia.
Qed.

(** The PLC has the elements of the data at i * elem_size, and its other bytes as they were *)
Definition has_elems (w es count : Z) (data plc plc' : list Z) : Prop :=
  zlen plc' = zlen plc /\
  forall m, 0 <= m < zlen plc -> nthb plc' m =
    if (m / es <? count) && (m mod es <? w) then nthb data (m / es * w + m mod es) else nthb plc m.

Lemma write_nums w es count data plc : 0 < w -> w <= es -> 0 <= count -> zlen data = count * w ->
  (0 < count -> (count - 1) * es + w <= zlen plc) -> zlen plc < 2 ^ 31 ->
  exists plc', ploop (Z.to_nat count) 0 (write_num w es data) plc = Done plc' /\ has_elems w es count data plc plc'.
Proof.
  intros W ES C0 L PL PS.
  destruct (ploop_inv (fun n p => has_elems w es n data plc p) (write_num w es data) (Z.to_nat count) 0 plc) as (new & E & H).
  - intros i s I [LS HS]. rewrite Z2Nat.id in I by lia. unfold write_num, load, at_plc.
    assert (i * es + w <= zlen plc) by nia. assert (0 <= i * es) by nia.
    assert (B : in_bounds (i * w) w (zlen data) = true) by (unfold in_bounds; rewrite L; assert (i * w + w <= count * w) by nia; nia).
    rewrite B. replace (fits32 (i * es)) with true by (unfold fits32; clear - H H0 PS W; lia).
    unfold plc_set. pose proof (zlen_slice _ _ _ B) as LB.
    assert (BB : in_bounds (i * es) (zlen (slice (i * w) w data)) (zlen s) = true) by (unfold in_bounds; lia).
    rewrite BB. eexists. split; [reflexivity|]. split; [rewrite zlen_splice by exact BB; exact LS|].
    intros m M. rewrite nthb_splice by (try exact BB; lia). rewrite LB, in_elem by lia. rewrite HS by lia.
    assert (0 <= m / es) by (apply Z.div_pos; lia). pose proof (Z.mod_pos_bound m es ltac:(lia)).
    pose proof (Z.div_mod m es ltac:(lia)) as D. set (q := m / es) in *. set (r := m mod es) in *. clearbody q r.
    destruct (r <? w) eqn:R; [|rewrite !andb_false_r; reflexivity]. rewrite !andb_true_r.
    destruct (q =? i) eqn:Q.
    + replace (q <? i + 1) with true by lia. assert (q = i) by lia. subst q.
      rewrite nthb_slice; [|exact B|nia]. f_equal. nia.
    + replace (q <? i + 1) with (q <? i) by lia. reflexivity.
  - split; [reflexivity|]. intros m M. replace (m / es <? 0) with false; [reflexivity|].
    assert (0 <= m / es) by (apply Z.div_pos; lia). lia.
  - exists new. rewrite Z.add_0_l, Z2Nat.id in H by lia. auto.
Qed.

(** A change in the tag server arrives in the PLC, for every number type *)
Theorem C82_write : forall junk data plc t old, In (p_type t) (T_LREAL :: number_types) -> p_buff t = Some old ->
  zlen data = p_count t * width (p_type t) -> 0 < p_count t -> width (p_type t) <= p_es t ->
  (p_count t - 1) * p_es t + width (p_type t) <= zlen plc -> zlen plc < 2 ^ 31 ->
  exists plc', write_tag junk data plc t = Done plc' /\ has_elems (width (p_type t)) (p_es t) (p_count t) data plc plc'.
Proof.
  intros junk data plc t old T B L C ES PL PS. unfold write_tag.
  cbv [number_types In] in T.
  repeat (destruct T as [T|T]; [rewrite <- T in *; match goal with |- context[acc_of ?x] =>
      let a := eval vm_compute in (acc_of x) in change (acc_of x) with a end;
    match goal with |- context[width ?x] => let a := eval vm_compute in (width x) in change (width x) with a in * end;
    replace (p_es t <=? 0) with false by lia; rewrite B;
    cbv beta iota; apply write_nums; auto; lia|]).
  destruct T.
Qed.

Theorem C82_write_bool : forall junk data plc t old, p_type t = T_BOOL -> p_buff t = Some old -> 0 < p_es t ->
  0 <= p_count t -> p_count t <= 8 * zlen data -> p_count t <= 8 * zlen plc ->
  exists plc', write_tag junk data plc t = Done plc' /\ zlen plc' = zlen plc /\
    forall k, 0 <= k -> bit_of plc' k = if k <? p_count t then bit_of data k else bit_of plc k.
Proof.
  intros junk data plc t old T B ES C L1 L2. unfold write_tag. replace (p_es t <=? 0) with false by lia. rewrite B, T.
  change (acc_of T_BOOL) with ABit. cbv beta iota.
  destruct (ploop_inv (fun n b => zlen b = zlen plc /\ forall k, 0 <= k -> bit_of b k = if k <? n then bit_of data k else bit_of plc k)
    (write_bit1 data) (Z.to_nat (p_count t)) 0 plc) as (new & E & LN & H).
  - intros i s I [LS HS]. rewrite Z2Nat.id in I by lia. unfold write_bit1, plc_set_bit.
    replace (in_bounds (i / 8) 1 (zlen data)) with true by (unfold in_bounds; lia).
    replace ((0 <=? i) && (i <? 8 * zlen s)) with true by lia.
    eexists. split; [reflexivity|]. split; [rewrite zlen_updb; exact LS|].
    intros k K. rewrite bit_updb by lia. destruct (k =? i) eqn:F.
    + replace (k <? i + 1) with true by lia. f_equal. lia.
    + rewrite HS by auto. replace (k <? i + 1) with (k <? i) by lia. reflexivity.
  - split; [reflexivity|]. intros k K. replace (k <? 0) with false by lia. reflexivity.
  - exists new. rewrite Z.add_0_l, Z2Nat.id in H by lia. auto.
Qed.

(** What was written is what is read back *)
Theorem C82_round_partial : forall widen junk junk' data plc t old, In (p_type t) number_types -> p_buff t = Some old ->
  zlen old = p_count t * width (p_type t) ->
  zlen data = p_count t * width (p_type t) -> 0 < p_count t -> width (p_type t) <= p_es t ->
  (p_count t - 1) * p_es t + width (p_type t) <= zlen plc -> zlen plc < 2 ^ 31 -> bytes_ok data -> bytes_ok plc ->
  exists plc', write_tag junk data plc t = Done plc' /\ read_tag widen junk' plc' t = Done data.
Proof.
  intros widen junk junk' data plc t old T B LO L C ES PL PS KD KP.
  destruct (C82_write junk data plc t old) as (plc' & W & LP & HP); auto. { right. exact T. }
  exists plc'. split; [exact W|]. set (w := width (p_type t)) in *.
  assert (W0 : 0 < w).
  { unfold w. clear - T. cbv [number_types In] in T. repeat (destruct T as [T|T]; [rewrite <- T; vm_compute; reflexivity|]). destruct T. }
  assert (KP' : bytes_ok plc').
  { apply Forall_forall. intros x X. apply In_nth with (d := 0) in X. destruct X as (n & N & X).
    assert (M : 0 <= Z.of_nat n < zlen plc) by (unfold zlen in *; lia).
    specialize (HP (Z.of_nat n) M). unfold nthb at 1 in HP. rewrite Nat2Z.id, X in HP. rewrite HP.
    destruct (_ && _); apply nthb_byte; assumption. }
  destruct (C81_read_partial widen junk' plc' t old) as (new & R & LN & H); auto; try lia; fold w; try lia.
  fold w in H.
  rewrite R. f_equal. apply znth_ext.
  intros m M0. destruct (Z_lt_dec m (zlen data)) as [M1|M1].
  2: { unfold znth. replace (m <? zlen new) with false by lia. replace (m <? zlen data) with false by lia. rewrite !andb_false_r. reflexivity. }
  assert (M : 0 <= m < zlen data) by lia. rewrite !znth_nthb by lia. f_equal.
  assert (Q : 0 <= m / w < p_count t) by (split; [apply Z.div_pos; lia|apply Z.div_lt_upper_bound; lia]).
  pose proof (Z.mod_pos_bound m w W0) as MB. pose proof (Z.div_mod m w ltac:(lia)) as DM.
  specialize (H (m / w) (m mod w) Q MB). replace (m / w * w + m mod w) with m in H by lia. rewrite H.
  rewrite HP by nia.
  replace ((m / w * p_es t + m mod w) / p_es t) with (m / w) by (apply Z.div_unique with (r := m mod w); lia).
  replace ((m / w * p_es t + m mod w) mod p_es t) with (m mod w) by (apply Z.mod_unique with (q := m / w); lia).
  replace ((m / w <? p_count t) && (m mod w <? w)) with true by lia. f_equal. lia.
Qed.

(** but for LREAL *)
Theorem C82_round_refuted : forall widen junk, exists data plc', zlen data = 8 /\ bytes_ok data /\
  write_tag junk data (zeros 8) (lreal_tag (zeros 8)) = Done plc' /\
  exists new, read_tag widen junk plc' (lreal_tag (zeros 8)) = Done new /\ new <> data.
Proof.
  intros widen junk. destruct (C81_lreal_refuted widen junk) as (plc & L & K & new & R & N).
  exists plc, plc. repeat split; auto.
  - unfold write_tag, lreal_tag. cbn [p_es p_buff p_count p_type p_map]. change (acc_of T_LREAL) with AL.
    change (8 <=? 0) with false. change (Z.to_nat 1) with 1%nat. cbv beta iota. cbn [ploop]. unfold write_num, load.
    rewrite L. change (in_bounds (0 * 8) 8 8) with true. cbv iota. change (at_plc 0 8) with (Done 0). cbv iota.
    change (0 * 8) with 0. replace (slice 0 8 plc) with plc by (rewrite <- L; symmetry; apply slice_full). unfold plc_set. rewrite L. change (in_bounds 0 8 (zlen (zeros 8))) with true. cbv iota.
    unfold splice. change (Z.to_nat 0) with O. cbn [firstn app Nat.add]. rewrite skipn_all2; [rewrite app_nil_r; reflexivity|]. unfold zlen in L. change (length (zeros 8)) with 8%nat. lia.
  - exists new. auto.
Qed.

Example C82_ex : write_tag [] [1; 2; 254; 255] [9; 9; 9; 9; 9; 9; 9; 9] demo_tag = Done [1; 2; 9; 9; 254; 255; 9; 9].
Proof. reflexivity. Qed.

(** ** C83 *)
Definition good_map (es : Z) (map : list Z) : Prop :=
  zlen map = es /\ forall n, 0 <= n < es -> 0 <= nthb map n < es.

Lemma unmap_loop es raw map i buff : 0 < es -> good_map es map -> zlen raw = es -> 0 <= i -> i + es <= zlen buff ->
  exists b, ploop (Z.to_nat es) 0 (unmap1 raw map i) buff = Done b /\ zlen b = zlen buff /\
    forall m, 0 <= m -> nthb b m = if (i <=? m) && (m <? i + es) then nthb raw (nthb map (m - i)) else nthb buff m.
Proof.
  intros ES [ML MR] RL I L.
  destruct (ploop_inv (fun k b => zlen b = zlen buff /\
    forall m, 0 <= m -> nthb b m = if (i <=? m) && (m <? i + k) then nthb raw (nthb map (m - i)) else nthb buff m)
    (unmap1 raw map i) (Z.to_nat es) 0 buff) as (b & E & LB & H).
  - intros n s N [LS HS]. rewrite Z2Nat.id in N by lia. unfold unmap1. rewrite znth_nthb by lia.
    rewrite znth_nthb by (rewrite RL; apply MR; lia). unfold store.
    assert (BB : in_bounds (i + n) (zlen [nthb raw (nthb map n)]) (zlen s) = true) by (unfold in_bounds; change (zlen [_]) with 1; lia).
    rewrite BB. eexists. split; [reflexivity|]. split; [rewrite zlen_splice by exact BB; exact LS|].
    intros m M. rewrite nthb_splice by (try exact BB; lia). change (zlen [_]) with 1.
    destruct ((i + n <=? m) && (m <? i + n + 1)) eqn:E.
    + replace ((i <=? m) && (m <? i + (n + 1))) with true by lia. replace (m - (i + n)) with 0 by lia. change (nthb [?a] 0) with a.
      replace (m - i) with n by lia. reflexivity.
    + rewrite HS by lia. replace ((i <=? m) && (m <? i + (n + 1))) with ((i <=? m) && (m <? i + n)) by lia. reflexivity.
  - split; [reflexivity|]. intros m M. replace ((i <=? m) && (m <? i + 0)) with false by lia. reflexivity.
  - exists b. rewrite Z.add_0_l, Z2Nat.id in H by lia. auto.
Qed.

(** The bytes of each element of a compound type arrive in the order of the byte map *)
Theorem C83_read_map_partial : forall widen junk plc t map old, acc_of (p_type t) = ARaw -> p_map t = Some map ->
  0 < p_es t -> 0 <= p_count t -> good_map (p_es t) map -> p_buff t = Some old -> p_count t * p_es t <= zlen old ->
  p_count t * p_es t <= zlen plc -> zlen plc < 2 ^ 31 ->
  exists new, read_tag widen junk plc t = Done new /\ zlen new = zlen old /\
    forall i n, 0 <= i < p_count t -> 0 <= n < p_es t -> nthb new (i * p_es t + n) = nthb plc (i * p_es t + nthb map n).
Proof.
  intros widen junk plc t map old A MP ES C G B LO LP PS. unfold read_tag. replace (p_es t <=? 0) with false by lia. rewrite B, A, MP.
  set (es := p_es t) in *. set (count := p_count t) in *.
  destruct (ploop_inv (fun k rb => zlen (snd rb) = zlen old /\
    forall i n, 0 <= i < k -> 0 <= n < es -> nthb (snd rb) (i * es + n) = nthb plc (i * es + nthb map n))
    (read_map plc map es) (Z.to_nat count) 0 (junk, old)) as ([raw new] & E & LB & H).
  - intros i [raw s] I [LS HS]. cbn [snd] in *. rewrite Z2Nat.id in I by lia. unfold read_map, at_plc.
    assert (0 <= i * es) by nia. assert (i * es + es <= count * es) by nia.
    replace (fits32 (i * es)) with true by (unfold fits32; lia).
    assert (BB : in_bounds (i * es) es (zlen plc) = true) by (unfold in_bounds; lia). rewrite BB. cbv zeta.
    pose proof (zlen_slice _ _ _ BB) as SL.
    destruct (unmap_loop es (slice (i * es) es plc) map (i * es) s) as (b & E & LB & H1); auto; try lia.
    rewrite E. eexists. split; [reflexivity|]. cbn [snd]. split; [lia|]. intros j n J N. rewrite H1 by nia.
    destruct (Z.eq_dec j i) as [-> |NE].
    + replace ((i * es <=? i * es + n) && (i * es + n <? i * es + es)) with true by lia.
      replace (i * es + n - i * es) with n by lia. apply nthb_slice; [exact BB|]. apply G. lia.
    + assert (j * es + n < i * es) by nia.
      replace ((i * es <=? j * es + n) && (j * es + n <? i * es + es)) with false by lia. apply HS; lia.
  - cbn [snd]. split; [reflexivity|]. intros i n I. lia.
  - exists new. rewrite E. rewrite Z.add_0_l, Z2Nat.id in H by lia. cbn [snd] in *. auto.
Qed.

Definition injective (es : Z) (map : list Z) : Prop :=
  forall a b, 0 <= a < es -> 0 <= b < es -> nthb map a = nthb map b -> a = b.

Lemma map_loop es data map i raw : 0 < es -> good_map es map -> injective es map -> zlen raw = es -> 0 <= i -> i + es <= zlen data ->
  exists r, ploop (Z.to_nat es) 0 (map1 data map i) raw = Done r /\ zlen r = es /\
    forall n, 0 <= n < es -> nthb r (nthb map n) = nthb data (i + n).
Proof.
  intros ES [ML MR] INJ RL I L.
  destruct (ploop_inv (fun k b => zlen b = es /\ forall n, 0 <= n < k -> nthb b (nthb map n) = nthb data (i + n))
    (map1 data map i) (Z.to_nat es) 0 raw) as (b & E & LB & H).
  - intros n s N [LS HS]. rewrite Z2Nat.id in N by lia. unfold map1, load.
    assert (B1 : in_bounds (i + n) 1 (zlen data) = true) by (unfold in_bounds; lia). rewrite B1, znth_nthb by lia. unfold store.
    pose proof (zlen_slice _ _ _ B1) as SL. pose proof (MR n ltac:(lia)).
    assert (BB : in_bounds (nthb map n) (zlen (slice (i + n) 1 data)) (zlen s) = true) by (unfold in_bounds; lia).
    rewrite BB. eexists. split; [reflexivity|]. split; [rewrite zlen_splice by exact BB; exact LS|].
    intros m M. pose proof (MR m ltac:(lia)). rewrite nthb_splice by (try exact BB; lia). rewrite SL.
    destruct (Z.eq_dec m n) as [-> |NE].
    + replace ((nthb map n <=? nthb map n) && (nthb map n <? nthb map n + 1)) with true by lia.
      rewrite Z.sub_diag, nthb_slice by (auto; lia). f_equal. lia.
    + assert (nthb map m <> nthb map n) by (intros X; apply INJ in X; lia).
      replace ((nthb map n <=? nthb map m) && (nthb map m <? nthb map n + 1)) with false by lia. apply HS. lia.
  - split; [exact RL|]. intros m M. lia.
  - exists b. rewrite Z.add_0_l, Z2Nat.id in H by lia. auto.
Qed.

Theorem C83_write_map_partial : forall junk data plc t map old, acc_of (p_type t) = ARaw -> p_map t = Some map ->
  0 < p_es t -> 0 <= p_count t -> good_map (p_es t) map -> injective (p_es t) map -> zlen junk = p_es t ->
  p_buff t = Some old -> p_count t * p_es t <= zlen data ->
  p_count t * p_es t <= zlen plc -> zlen plc < 2 ^ 31 ->
  exists plc', write_tag junk data plc t = Done plc' /\ zlen plc' = zlen plc /\
    (forall i n, 0 <= i < p_count t -> 0 <= n < p_es t -> nthb plc' (i * p_es t + nthb map n) = nthb data (i * p_es t + n)) /\
    forall m, p_count t * p_es t <= m -> nthb plc' m = nthb plc m.
Proof.
  intros junk data plc t map old A MP ES C G INJ LJ B LD LP PS. unfold write_tag. replace (p_es t <=? 0) with false by lia. rewrite B, A, MP.
  set (es := p_es t) in *. set (count := p_count t) in *.
  destruct (ploop_inv (fun k rb => zlen (fst rb) = es /\ zlen (snd rb) = zlen plc /\
    (forall i n, 0 <= i < k -> 0 <= n < es -> nthb (snd rb) (i * es + nthb map n) = nthb data (i * es + n)) /\
    forall m, count * es <= m -> nthb (snd rb) m = nthb plc m)
    (write_map data map es) (Z.to_nat count) 0 (junk, plc)) as ([raw new] & E & LR & LB & H & HF).
  - intros i [raw s] I (LR & LS & HS & HF). cbn [fst snd] in *. rewrite Z2Nat.id in I by lia. unfold write_map, at_plc.
    assert (0 <= i * es) by nia. assert (i * es + es <= count * es) by nia.
    replace (fits32 (i * es)) with true by (unfold fits32; lia).
    destruct (map_loop es data map (i * es) raw) as (r & E & LB & H1); auto; try lia.
    rewrite E. eexists. split; [reflexivity|]. cbn [fst snd]. unfold plc_set.
    assert (BB : in_bounds (i * es) (zlen r) (zlen s) = true) by (unfold in_bounds; lia). rewrite BB.
    split; [exact LB|]. split; [rewrite zlen_splice by exact BB; exact LS|]. split.
    + intros j n J N. destruct G as [_ G]. pose proof (G n N). rewrite nthb_splice by (try exact BB; nia). rewrite LB.
      destruct (Z.eq_dec j i) as [-> |NE].
      * replace ((i * es <=? i * es + nthb map n) && (i * es + nthb map n <? i * es + es)) with true by lia.
        replace (i * es + nthb map n - i * es) with (nthb map n) by lia. apply H1. lia.
      * assert (j * es + nthb map n < i * es) by nia.
        replace ((i * es <=? j * es + nthb map n) && (j * es + nthb map n <? i * es + es)) with false by lia. apply HS; lia.
    + intros m M. rewrite nthb_splice by (try exact BB; nia). rewrite LB.
      replace ((i * es <=? m) && (m <? i * es + es)) with false by lia. auto.
  - cbn [fst snd]. repeat split; auto. intros i n I. lia.
  - exists new. rewrite E. rewrite Z.add_0_l, Z2Nat.id in H by lia. cbn [fst snd] in *. auto.
Qed.

(** With a map that names a byte twice the PLC receives what happened to be on the stack *)
Theorem C83_map_refuted : forall a b x y j0 j1,
  write_tag [j0; j1] [a; b] [x; y] {| p_type := 2 ^ 31; p_count := 1; p_size := 2; p_buff := Some [0; 0]; p_es := 2; p_map := Some [0; 0] |}
  = Done [b; j1].
Proof. reflexivity. Qed.

(** Without a map the bytes are copied to the place of the element *)
Theorem C83_raw_partial : forall widen junk plc t old z, acc_of (p_type t) = ARaw -> p_map t = None ->
  0 < p_es t <= z -> 0 < p_count t -> p_size t = p_count t * z -> p_count t * p_size t <= 2 ^ 32 ->
  p_buff t = Some old -> zlen old = p_size t -> p_count t * p_es t <= zlen plc -> zlen plc < 2 ^ 31 ->
  exists new, read_tag widen junk plc t = Done new /\ zlen new = zlen old /\
    forall i n, 0 <= i < p_count t -> 0 <= n < z ->
      nthb new (i * z + n) = if n <? p_es t then nthb plc (i * p_es t + n) else nthb old (i * z + n).
Proof.
  intros widen junk plc t old z A MP ES C SZ BIG B LO LP PS. unfold read_tag. replace (p_es t <=? 0) with false by lia. rewrite B, A, MP.
  set (es := p_es t) in *. set (count := p_count t) in *.
  destruct (ploop_inv (fun k b => zlen b = zlen old /\
    forall i n, 0 <= i < count -> 0 <= n < z ->
      nthb b (i * z + n) = if (i <? k) && (n <? es) then nthb plc (i * es + n) else nthb old (i * z + n))
    (read_raw plc es (p_size t) count) (Z.to_nat count) 0 old) as (new & E & LB & H).
  - intros i s I [LS HS]. rewrite Z2Nat.id in I by lia. unfold read_raw, at_plc.
    assert (0 <= i * es) by nia. assert (i * es + es <= count * es) by nia.
    replace (fits32 (i * es)) with true by (unfold fits32; lia).
    assert (BB : in_bounds (i * es) es (zlen plc) = true) by (unfold in_bounds; lia). rewrite BB.
    assert (AB : at_buff i (p_size t) count = i * z).
    { unfold at_buff, u32. rewrite Z.mod_small by nia. rewrite SZ. replace (i * (count * z)) with (i * z * count) by ring. apply Z.div_mul. lia. }
    rewrite AB. unfold store. pose proof (zlen_slice _ _ _ BB) as SL.
    assert (B2 : in_bounds (i * z) (zlen (slice (i * es) es plc)) (zlen s) = true)
      by (unfold in_bounds; assert (i * z + z <= count * z) by nia; assert (0 <= i * z) by nia; lia).
    rewrite B2. eexists. split; [reflexivity|]. split; [rewrite zlen_splice by exact B2; exact LS|].
    intros j n J N. rewrite nthb_splice by (try exact B2; nia). rewrite SL.
    destruct (Z.eq_dec j i) as [-> |NE].
    + replace (i <? i + 1) with true by lia. cbn [andb]. destruct (n <? es) eqn:F.
      * replace ((i * z <=? i * z + n) && (i * z + n <? i * z + es)) with true by lia.
        rewrite nthb_slice by (auto; lia). f_equal. lia.
      * replace ((i * z <=? i * z + n) && (i * z + n <? i * z + es)) with false by lia.
        rewrite HS by lia. rewrite F, andb_false_r. reflexivity.
    + replace (j <? i + 1) with (j <? i) by lia.
      assert (j * z + n < i * z \/ i * z + z <= j * z + n) by nia.
      replace ((i * z <=? j * z + n) && (j * z + n <? i * z + es)) with false by lia. apply HS; lia.
  - split; [reflexivity|]. intros i n I N. replace (i <? 0) with false by lia. reflexivity.
  - exists new. split; [exact E|]. split; [exact LB|]. rewrite Z.add_0_l, Z2Nat.id in H by lia.
    intros i n I N. rewrite H by lia. replace (i <? count) with true by lia. reflexivity.
Qed.

(** A tag of 65536 elements of two bytes: the place is computed with 32 bits, and element 32768 is
    stored over element 0 *)
Theorem C83_big_refuted : forall plc buff, zlen plc = 131072 ->
  read_raw plc 2 131072 65536 32768 buff = store 0 (slice 65536 2 plc) buff.
Proof. intros plc buff L. unfold read_raw. rewrite L. reflexivity. Qed.

Definition cdt_tag : ptag :=
  {| p_type := 2 ^ 31; p_count := 2; p_size := 4; p_buff := Some [0; 0; 0; 0]; p_es := 2; p_map := Some [1; 0] |}.
Example C83_ex : read_tag (fun x => x) [7; 7] [1; 2; 3; 4] cdt_tag = Done [2; 1; 4; 3] /\
  write_tag [7; 7] [2; 1; 4; 3] [0; 0; 0; 0] cdt_tag = Done [1; 2; 3; 4] /\
  acc_of (p_type cdt_tag) = ARaw /\ good_map 2 [1; 0] /\ injective 2 [1; 0].
Proof.
  split; [reflexivity|]. split; [reflexivity|]. split; [reflexivity|]. split.
  - split; [reflexivity|]. intros n N. assert (n = 0 \/ n = 1) as [-> | -> ] by lia; cbv; split; discriminate || reflexivity.
  - intros a b A B. assert (a = 0 \/ a = 1) as [-> | -> ] by lia; assert (b = 0 \/ b = 1) as [-> | -> ] by lia; cbv; intros X; try discriminate; reflexivity.
Qed.

(** ** C84 *)
(** The handle, the block and the element size fit together *)
Definition fits (t : ptag) : Prop :=
  0 < p_es t /\ 0 < p_count t /\ p_count t * p_es t < 2 ^ 31 /\
  exists old, p_buff t = Some old /\ zlen old = p_size t /\
    ((p_type t = T_BOOL /\ p_count t <= 8 * p_size t) \/
     (In (p_type t) (T_LREAL :: number_types) /\ p_count t * width (p_type t) = p_size t) \/
     (acc_of (p_type t) = ARaw /\ exists z, p_size t = p_count t * z /\ p_es t <= z /\ p_count t * p_size t <= 2 ^ 32 /\
        match p_map t with Some map => good_map (p_es t) map | None => True end)).

Lemma ploop_defined {S} (P : S -> Prop) (f : Z -> S -> run S) k n s :
  (forall i s, n <= i < n + Z.of_nat k -> P s -> exists s', f i s = Done s' /\ P s') ->
  P s -> exists s', ploop k n f s = Done s' /\ P s'.
Proof. intros H P0. apply (ploop_inv (fun _ => P) f k n s); auto. Qed.

Lemma le_len n z : zlen (le_bytes (Z.to_nat n) z) = Z.max 0 n.
Proof. rewrite zlen_le_bytes. lia. Qed.
Lemma read_nums_defined w es count get old : 0 < w -> 0 < es -> 0 < count -> count * es < 2 ^ 31 -> zlen old = count * w ->
  exists new, ploop (Z.to_nat count) 0 (read_num w es get) old = Done new /\ zlen new = zlen old.
Proof.
  intros W ES C CE L. apply ploop_defined; [|reflexivity]. intros i s I LS. rewrite Z2Nat.id in I by lia. unfold read_num, at_plc.
  assert (0 <= i * es) by nia. assert (i * es < count * es) by nia. replace (fits32 (i * es)) with true by (unfold fits32; lia).
  unfold store. assert (BB : in_bounds (i * w) (zlen (le_bytes (Z.to_nat w) (get (i * es)))) (zlen s) = true).
  { rewrite le_len. unfold in_bounds. assert (0 <= i * w) by nia. assert (i * w + w <= count * w) by nia. lia. }
  rewrite BB. eexists. split; [reflexivity|]. rewrite zlen_splice by exact BB. exact LS.
Qed.
Lemma write_nums_defined w es count data plc : 0 < w -> 0 < es -> 0 < count -> count * es < 2 ^ 31 -> zlen data = count * w ->
  exists new, ploop (Z.to_nat count) 0 (write_num w es data) plc = Done new.
Proof.
  intros W ES C CE L. destruct (ploop_defined (fun _ => True) (write_num w es data) (Z.to_nat count) 0 plc) as (s & E & _); eauto.
  intros i s I _. rewrite Z2Nat.id in I by lia. unfold write_num, at_plc, load.
  assert (0 <= i * es) by nia. assert (i * es < count * es) by nia.
  replace (in_bounds (i * w) w (zlen data)) with true
    by (unfold in_bounds; assert (0 <= i * w) by nia; assert (i * w + w <= count * w) by nia; lia).
  replace (fits32 (i * es)) with true by (unfold fits32; lia). eauto.
Qed.

Lemma number_acc t : In t (T_LREAL :: number_types) -> 0 < width t /\
  (acc_of t = AU (width t) \/ acc_of t = AS (width t) \/ acc_of t = AF /\ width t = 4 \/ acc_of t = AL /\ width t = 8).
Proof.
  intros T. cbv [number_types In] in T.
  repeat (destruct T as [T|T]; [rewrite <- T; vm_compute; split; [reflexivity|tauto]|]). destruct T.
Qed.

Lemma read_defined widen junk plc t : fits t -> zlen junk = p_es t ->
  exists new, read_tag widen junk plc t = Done new /\ zlen new = p_size t.
Proof.
  intros (ES & C & CE & old & B & L & K) LJ. unfold read_tag. replace (p_es t <=? 0) with false by lia. rewrite B.
  destruct K as [[T LB]|[[T W]|[A (z & SZ & EZ & BIG & MP)]]].
  - rewrite T. change (acc_of T_BOOL) with ABit. cbv beta iota. rewrite <- L.
    apply (ploop_defined (fun s => zlen s = zlen old)); [|reflexivity]. intros i s I LS. rewrite Z2Nat.id in I by lia.
    unfold read_bit1. cbv zeta. destruct (_ <? 0); [eauto|].
    replace (in_bounds (i / 8) 1 (zlen s)) with true by (unfold in_bounds; lia).
    eexists. split; [reflexivity|]. rewrite zlen_updb. exact LS.
  - destruct (number_acc _ T) as [W0 A]. rewrite <- L. rewrite <- L in W.
    destruct A as [A|[A|[[A W4]|[A W8]]]]; rewrite A; cbv beta iota; try rewrite W4 in *; try rewrite W8 in *; apply read_nums_defined; auto; lia.
  - rewrite A. destruct (p_map t) as [map|].
    + destruct (ploop_defined (fun rb => zlen (fst rb) = p_es t /\ zlen (snd rb) = p_size t) (read_map plc map (p_es t)) (Z.to_nat (p_count t)) 0 (junk, old))
        as ([r b] & E & _ & H).
      * intros i [raw s] I [LR LS]. cbn [fst snd] in *. rewrite Z2Nat.id in I by lia. unfold read_map, at_plc.
        assert (0 <= i * p_es t) by nia. assert (i * p_es t + p_es t <= p_count t * p_es t) by nia.
        replace (fits32 (i * p_es t)) with true by (unfold fits32; lia). cbv zeta.
        set (raw' := if in_bounds _ _ _ then _ else _).
        assert (LR' : zlen raw' = p_es t) by (unfold raw'; destruct (in_bounds _ _ _) eqn:BB; [apply zlen_slice; exact BB|exact LR]).
        destruct (unmap_loop (p_es t) raw' map (i * p_es t) s) as (b & E & LB & _); auto; [nia|].
        rewrite E. eexists. split; [reflexivity|]. cbn [fst snd]. split; [exact LR'|lia].
      * cbn [fst snd]. split; [exact LJ|exact L].
      * rewrite E. eauto.
    + apply (ploop_defined (fun s => zlen s = p_size t)); [|exact L]. intros i s I LS. rewrite Z2Nat.id in I by lia.
      unfold read_raw, at_plc. assert (0 <= i * p_es t) by nia. assert (i * p_es t + p_es t <= p_count t * p_es t) by nia.
      replace (fits32 (i * p_es t)) with true by (unfold fits32; lia).
      destruct (in_bounds _ _ (zlen plc)) eqn:BB; [|eauto].
      assert (AB : at_buff i (p_size t) (p_count t) = i * z).
      { unfold at_buff, u32. rewrite Z.mod_small by nia. rewrite SZ. replace (i * (p_count t * z)) with (i * z * p_count t) by ring. apply Z.div_mul. lia. }
      rewrite AB. unfold store. pose proof (zlen_slice _ _ _ BB) as SL.
      assert (B2 : in_bounds (i * z) (zlen (slice (i * p_es t) (p_es t) plc)) (zlen s) = true)
        by (unfold in_bounds; assert (i * z + z <= p_count t * z) by nia; assert (0 <= i * z) by nia; lia).
      rewrite B2. eexists. split; [reflexivity|]. rewrite zlen_splice by exact B2. exact LS.
Qed.

Lemma map1_defined es data map i raw : 0 < es -> good_map es map -> zlen raw = es -> 0 <= i -> i + es <= zlen data ->
  exists r, ploop (Z.to_nat es) 0 (map1 data map i) raw = Done r /\ zlen r = es.
Proof.
  intros ES [ML MR] RL I L. apply (ploop_defined (fun s => zlen s = es)); [|exact RL].
  intros n s N LS. rewrite Z2Nat.id in N by lia. unfold map1, load.
  assert (B1 : in_bounds (i + n) 1 (zlen data) = true) by (unfold in_bounds; lia). rewrite B1, znth_nthb by lia. unfold store.
  pose proof (zlen_slice _ _ _ B1) as SL. pose proof (MR n ltac:(lia)).
  assert (BB : in_bounds (nthb map n) (zlen (slice (i + n) 1 data)) (zlen s) = true) by (unfold in_bounds; lia).
  rewrite BB. eexists. split; [reflexivity|]. rewrite zlen_splice by exact BB. exact LS.
Qed.

Lemma write_defined junk data plc t : fits t -> zlen junk = p_es t -> zlen data = p_size t ->
  exists plc', write_tag junk data plc t = Done plc'.
Proof.
  intros (ES & C & CE & old & B & _ & K) LJ L. unfold write_tag. replace (p_es t <=? 0) with false by lia. rewrite B.
  destruct K as [[T LB]|[[T W]|[A (z & SZ & EZ & BIG & MP)]]].
  - rewrite T. change (acc_of T_BOOL) with ABit. cbv beta iota.
    destruct (ploop_defined (fun _ => True) (write_bit1 data) (Z.to_nat (p_count t)) 0 plc) as (s & E & _); eauto.
    intros i s I _. rewrite Z2Nat.id in I by lia.
    unfold write_bit1. replace (in_bounds (i / 8) 1 (zlen data)) with true by (unfold in_bounds; lia). eauto.
  - destruct (number_acc _ T) as [W0 A]. rewrite <- L in W.
    destruct A as [A|[A|[[A W4]|[A W8]]]]; rewrite A; cbv beta iota; try rewrite W4 in *; try rewrite W8 in *; apply write_nums_defined; auto; lia.
  - rewrite A. destruct (p_map t) as [map|].
    + destruct (ploop_defined (fun rb => zlen (fst rb) = p_es t) (write_map data map (p_es t)) (Z.to_nat (p_count t)) 0 (junk, plc))
        as ([r b] & E & _).
      * intros i [raw s] I LR. cbn [fst] in *. rewrite Z2Nat.id in I by lia. unfold write_map, at_plc.
        assert (0 <= i * p_es t) by nia. assert (i * p_es t + p_es t <= p_count t * p_es t) by nia.
        replace (fits32 (i * p_es t)) with true by (unfold fits32; lia).
        destruct (map1_defined (p_es t) data map (i * p_es t) raw) as (b & E & LB); auto; [nia|].
        rewrite E. eexists. split; [reflexivity|]. exact LB.
      * exact LJ.
      * rewrite E. eauto.
    + destruct (ploop_defined (fun _ => True) (write_raw data (p_es t) (p_size t) (p_count t)) (Z.to_nat (p_count t)) 0 plc) as (s & E & _); eauto.
      intros i s I _. rewrite Z2Nat.id in I by lia.
      unfold write_raw, at_plc, load. assert (0 <= i * p_es t) by nia. assert (i * p_es t + p_es t <= p_count t * p_es t) by nia.
      replace (fits32 (i * p_es t)) with true by (unfold fits32; lia).
      assert (AB : at_buff i (p_size t) (p_count t) = i * z).
      { unfold at_buff, u32. rewrite Z.mod_small by nia. rewrite SZ. replace (i * (p_count t * z)) with (i * z * p_count t) by ring. apply Z.div_mul. lia. }
      rewrite AB. replace (in_bounds (i * z) (p_es t) (zlen data)) with true
        by (unfold in_bounds; assert (i * z + z <= p_count t * z) by nia; assert (0 <= i * z) by nia; lia). eauto.
Qed.

Lemma fits_set b t : fits t -> zlen b = p_size t -> fits (set_buff b t).
Proof.
  intros (ES & C & CE & old & B & L & K) LB. unfold fits, set_buff. cbn [p_es p_count p_buff p_size p_type p_map].
  repeat split; auto. exists b. auto.
Qed.

(** Once a tag is set up, no completed read and no change event leaves its memory, whatever the
    PLC sends and however short its tag is *)
Theorem C84_defined_partial : forall widen junk evs t, fits t -> zlen junk = p_es t ->
  (forall data plc, In (TChange data plc) evs -> zlen data = p_size t) ->
  exists t', tsteps widen junk evs t = Done t'.
Proof.
  intros widen junk. induction evs as [|e evs IH]; intros t F J H; cbn [tsteps]; [eauto|].
  assert (B : exists old, p_buff t = Some old) by (destruct F as (_ & _ & _ & old & B & _); eauto). destruct B as [old B].
  destruct e as [es|ty c sz|mem|plc|data plc]; cbn [tstep].
  - replace (p_es t =? -1) with false by (destruct F as [F _]; lia).
    apply IH; auto. intros d p I. cbn. apply (H d p). right. exact I.
  - rewrite B. apply IH; auto. intros d p I. apply (H d p). right. exact I.
  - rewrite B. apply IH; auto. intros d p I. apply (H d p). right. exact I.
  - destruct (read_defined widen junk plc t F J) as (new & R & L). rewrite R, B.
    apply IH; auto using fits_set. intros d p I. cbn. apply (H d p). right. exact I.
  - assert (L : zlen data = p_size t) by (apply (H data plc); left; reflexivity).
    destruct (write_defined junk data plc t F J L) as (new & R). rewrite R.
    apply IH; auto using fits_set. intros d p I. cbn. apply (H d p). right. exact I.
Qed.

(** A change in the tag server before the PLC has answered: an array of -1 bytes *)
Theorem C84_early_change_refuted : forall widen junk map ty count size mem data plc,
  tsteps widen junk [TFound ty count size; TAlloc mem; TChange data plc] (new_tag 0 map) = Undef UOob.
Proof. reflexivity. Qed.
(** A read that completes between the two statements that set up the tag *)
Theorem C84_early_read_refuted : forall widen junk map es ty count size plc, 0 < es -> count <> 0 ->
  tsteps widen junk [TCreated es; TFound ty count size; TRead plc] (new_tag 0 map) = Undef UNull.
Proof.
  intros widen junk map es ty count size plc ES C. cbn [tsteps tstep new_tag p_buff p_es p_type p_count p_size p_map].
  change ((if 0 =? 0 then -1 else 0) =? -1) with true. cbv iota. unfold read_tag. cbn [p_buff p_es p_type p_count p_size p_map].
  replace (es <=? 0) with false by lia. replace (count =? 0) with false by lia. reflexivity.
Qed.
(** A compound type smaller than the element of the PLC: the read leaves the block *)
Theorem C84_overrun_refuted : forall widen junk ty size old es plc, acc_of ty = ARaw -> zlen old = size ->
  size < es -> es <= zlen plc -> 0 <= size ->
  read_tag widen junk plc {| p_type := ty; p_count := 1; p_size := size; p_buff := Some old; p_es := es; p_map := None |} = Undef UOob.
Proof.
  intros widen junk ty size old es plc A L S P S0. unfold read_tag. cbn [p_buff p_es p_type p_count p_size p_map].
  replace (es <=? 0) with false by lia. rewrite A. change (Z.to_nat 1) with 1%nat. cbn [ploop]. unfold read_raw.
  change (at_plc 0 es) with (Done 0). cbv iota.
  assert (B : in_bounds 0 es (zlen plc) = true) by (unfold in_bounds; lia). rewrite B.
  change (at_buff 0 size 1) with 0. unfold store. rewrite (zlen_slice _ _ _ B), L.
  replace (in_bounds 0 es size) with false by (unfold in_bounds; lia). reflexivity.
Qed.

Example C84_ex : fits demo_tag /\ fits cdt_tag /\
  tsteps (fun x => x) [0; 0; 0; 0] [TRead [1; 2]; TChange [5; 6; 7; 8] []; TRead []] demo_tag =
    Done (set_buff [0; 128; 0; 128] demo_tag).
Proof.
  split; [|split; [|reflexivity]].
  - split; [reflexivity|]. split; [reflexivity|]. split; [reflexivity|]. exists [0; 0; 0; 0]. split; [reflexivity|]. split; [reflexivity|].
    right. left. split; [cbv; tauto|reflexivity].
  - split; [reflexivity|]. split; [reflexivity|]. split; [reflexivity|]. exists [0; 0; 0; 0]. split; [reflexivity|]. split; [reflexivity|].
    right. right. split; [reflexivity|]. exists 2. split; [reflexivity|]. split; [discriminate|]. split; [discriminate|].
    destruct C83_ex as (_ & _ & _ & G & _). exact G.
Qed.
