(** * C55: the Modbus checksum is CRC-16/MODBUS and detects what such a checksum should *)
From Verif Require Import Base Const Lib Spec Crc Prop_Wire.
From Coq Require Import Lia.

(** The definition of CRC-16/MODBUS: a register of 16 bits, preset to ones, the polynomial x^16 + x^15 + x^2 + 1 with its bits
    reversed (0xA001), the bits of each byte taken from the least significant one. *)
Definition crc_bit (c : Z) : Z := Z.lxor (Z.shiftr c 1) (if Z.odd c then 40961 else 0).
Fixpoint bits (n : nat) (c : Z) : Z := match n with O => c | S n => bits n (crc_bit c) end.
Definition crc_byte (c b : Z) : Z := bits 8 (Z.lxor c b).
Definition crc_modbus (msg : list Z) : Z := fold_left crc_byte msg 65535.

(** ** Linearity *)
Lemma odd_lxor a b : Z.odd (Z.lxor a b) = xorb (Z.odd a) (Z.odd b).
Proof. rewrite <- !Z.bit0_odd. apply Z.lxor_spec. Qed.
Lemma crc_bit_lxor a b : crc_bit (Z.lxor a b) = Z.lxor (crc_bit a) (crc_bit b).
Proof.
  unfold crc_bit. rewrite Z.shiftr_lxor, odd_lxor. apply Z.bits_inj'. intros n Hn. rewrite !Z.lxor_spec.
  destruct (Z.odd a), (Z.odd b); cbn [xorb]; rewrite ?Z.bits_0; destruct (Z.testbit (Z.shiftr a 1) n), (Z.testbit (Z.shiftr b 1) n), (Z.testbit 40961 n); reflexivity.
Qed.
Lemma bits_lxor n : forall a b, bits n (Z.lxor a b) = Z.lxor (bits n a) (bits n b).
Proof. induction n as [|n IH]; intros a b; cbn [bits]; [reflexivity|]. rewrite crc_bit_lxor. apply IH. Qed.
Lemma bits_0 n : bits n 0 = 0.
Proof. induction n; [reflexivity|]. exact IHn. Qed.
Lemma bits_plus m : forall n c, bits (m + n) c = bits n (bits m c).
Proof. induction m as [|m IH]; intros n c; cbn [plus bits]; [reflexivity|apply IH]. Qed.
Lemma crc_bit_double v : crc_bit (2 * v) = v.
Proof. unfold crc_bit. rewrite Z.odd_mul. cbn [Z.odd andb]. rewrite Z.lxor_0_r. rewrite Z.shiftr_div_pow2 by lia. change (2 ^ 1) with 2. rewrite Z.mul_comm. apply Z.div_mul. lia. Qed.
Lemma bits_shift n : forall v, bits n (2 ^ Z.of_nat n * v) = v.
Proof.
  induction n as [|n IH]; intros v; cbn [bits]; [change (2 ^ Z.of_nat 0) with 1; lia|].
  rewrite Nat2Z.inj_succ, Z.pow_succ_r by lia. rewrite <- Z.mul_assoc, crc_bit_double. apply IH.
Qed.
Lemma bits8_high v : bits 8 (256 * v) = v.
Proof. replace 256 with (2 ^ Z.of_nat 8) by reflexivity. apply bits_shift. Qed.
Lemma low_lxor x y : 0 <= x < 256 -> x + 256 * y = Z.lxor (256 * y) x.
Proof.
  intros H. rewrite Z.add_comm. apply Z.add_nocarry_lxor. apply Z.bits_inj'. intros n Hn. rewrite Z.land_spec, Z.bits_0.
  destruct (Z.lt_ge_cases n 8).
  - rewrite Z.mul_comm. change 256 with (2 ^ 8). rewrite Z.mul_pow2_bits_low by lia. reflexivity.
  - replace (Z.testbit x n) with false; [apply andb_false_r|].
    symmetry. rewrite <- (Z.mod_small x (2 ^ 8)) by (change (2 ^ 8) with 256; lia). apply Z.mod_pow2_bits_high. lia.
Qed.
Lemma lxor_range k a b : 0 <= k -> 0 <= a < 2 ^ k -> 0 <= b < 2 ^ k -> 0 <= Z.lxor a b < 2 ^ k.
Proof.
  intros Hk Ha Hb. assert (E : Z.lxor a b mod 2 ^ k = Z.lxor a b).
  { apply Z.bits_inj'. intros n Hn. destruct (Z.lt_ge_cases n k).
    - apply Z.mod_pow2_bits_low. lia.
    - rewrite Z.mod_pow2_bits_high by lia. symmetry. rewrite Z.lxor_spec.
      rewrite <- (Z.mod_small a (2 ^ k)) by lia. rewrite <- (Z.mod_small b (2 ^ k)) by lia.
      rewrite !Z.mod_pow2_bits_high by lia. reflexivity. }
  rewrite <- E. apply Z.mod_pos_bound. apply Z.pow_pos_nonneg; lia.
Qed.
Lemma lxor8 a b : 0 <= a < 256 -> 0 <= b < 256 -> 0 <= Z.lxor a b < 256.
Proof. replace 256 with (2 ^ 8) by reflexivity. apply lxor_range. lia. Qed.
Lemma crc_bit_range c : 0 <= c < 65536 -> 0 <= crc_bit c < 65536.
Proof.
  intros H. unfold crc_bit. change 65536 with (2 ^ 16). apply lxor_range; [lia| |].
  - rewrite Z.shiftr_div_pow2 by lia. change (2 ^ 1) with 2. change (2 ^ 16) with 65536. lia.
  - change (2 ^ 16) with 65536. destruct (Z.odd c); lia.
Qed.
Lemma bits_range n : forall c, 0 <= c < 65536 -> 0 <= bits n c < 65536.
Proof. induction n as [|n IH]; intros c H; cbn [bits]; [exact H|]. apply IH, crc_bit_range, H. Qed.
Lemma crc_bit_zero c : 0 <= c < 65536 -> crc_bit c = 0 -> c = 0.
Proof.
  intros H E. unfold crc_bit in E. apply Z.lxor_eq in E. rewrite Z.shiftr_div_pow2 in E by lia. change (2 ^ 1) with 2 in E.
  destruct (Z.odd c) eqn:O; [lia|]. rewrite Zodd_mod in O. apply Zeq_bool_neq in O. lia.
Qed.
Lemma bits_zero n : forall c, 0 <= c < 65536 -> bits n c = 0 -> c = 0.
Proof.
  induction n as [|n IH]; intros c H E; cbn [bits] in E; [exact E|]. apply crc_bit_zero; [exact H|].
  apply IH; [apply crc_bit_range, H|exact E].
Qed.
Lemma bits_inj n a b : 0 <= a < 65536 -> 0 <= b < 65536 -> bits n a = bits n b -> a = b.
Proof.
  intros Ha Hb E. apply Z.lxor_eq. apply (bits_zero n). { change 65536 with (2 ^ 16). apply lxor_range; [lia|exact Ha|exact Hb]. }
  rewrite bits_lxor, E. apply Z.lxor_nilpotent.
Qed.
Lemma crc_byte_range c b : 0 <= c < 65536 -> 0 <= b < 256 -> 0 <= crc_byte c b < 65536.
Proof. intros Hc Hb. apply bits_range. change 65536 with (2 ^ 16). apply lxor_range; [lia|exact Hc|change (2 ^ 16) with 65536; lia]. Qed.
Lemma fold_cons {A B} (f : A -> B -> A) b m c : fold_left f (b :: m) c = fold_left f m (f c b).
Proof. reflexivity. Qed.
Lemma fold_range m : forall c, bytes_ok m -> 0 <= c < 65536 -> 0 <= fold_left crc_byte m c < 65536.
Proof.
  induction m as [|b m IH]; intros c Hm Hc; rewrite ?fold_cons; [exact Hc|]. inversion Hm; subst.
  apply IH; [assumption|]. apply crc_byte_range; [exact Hc|]. assumption.
Qed.

(** ** The register after a message, as one division *)
Lemma fold_bits m : forall c, bytes_ok m -> fold_left crc_byte m c = bits (8 * length m) (Z.lxor c (le_val m)).
Proof.
  induction m as [|b m IH]; intros c Hm; rewrite ?fold_cons; cbn [length le_val].
  - cbn [fold_left]. change (bits (8 * 0) (Z.lxor c 0)) with (Z.lxor c 0). symmetry. apply Z.lxor_0_r.
  - inversion Hm; subst. rewrite IH by assumption. replace (8 * S (length m))%nat with (8 + 8 * length m)%nat by lia.
    rewrite bits_plus. f_equal. rewrite low_lxor by assumption. unfold crc_byte.
    rewrite <- Z.lxor_assoc, (Z.lxor_comm c (256 * le_val m)), Z.lxor_assoc, (bits_lxor 8 (256 * le_val m)).
    rewrite bits8_high. apply Z.lxor_comm.
Qed.

(** ** The tables *)
Lemma tables : forallb (fun b => (bits 8 b =? nthb aCRCHi b + 256 * nthb aCRCLo b) && (0 <=? nthb aCRCHi b) && (nthb aCRCHi b <? 256)
  && (0 <=? nthb aCRCLo b) && (nthb aCRCLo b <? 256)) (map Z.of_nat (seq 0 256)) = true.
Proof. vm_compute. reflexivity. Qed.
Lemma table b : 0 <= b < 256 -> bits 8 b = nthb aCRCHi b + 256 * nthb aCRCLo b /\ 0 <= nthb aCRCHi b < 256 /\ 0 <= nthb aCRCLo b < 256.
Proof.
  intros H. pose proof tables as T. rewrite forallb_forall in T. specialize (T b).
  assert (In b (map Z.of_nat (seq 0 256))) as I. { apply in_map_iff. exists (Z.to_nat b). split; [lia|]. apply in_seq. lia. }
  specialize (T I). rewrite !andb_true_iff, Z.eqb_eq, !Z.leb_le, !Z.ltb_lt in T. intuition lia.
Qed.
#[local] Opaque bits aCRCHi aCRCLo.
Lemma table_step hi lo b : 0 <= hi < 256 -> 0 <= lo < 256 -> 0 <= b < 256 ->
  crc_byte (hi + 256 * lo) b = Z.lxor lo (nthb aCRCHi (Z.lxor hi b)) + 256 * nthb aCRCLo (Z.lxor hi b).
Proof.
  intros Hh Hl Hb. assert (Hx : 0 <= Z.lxor hi b < 256) by (apply lxor8; assumption).
  destruct (table _ Hx) as (T & T1 & T2). generalize dependent (nthb aCRCHi (Z.lxor hi b)). generalize dependent (nthb aCRCLo (Z.lxor hi b)).
  intros l L h T Hh'. unfold crc_byte. rewrite (low_lxor hi lo) by assumption. rewrite (Z.lxor_assoc (256 * lo)), bits_lxor, bits8_high, T.
  rewrite (low_lxor h l) by assumption. rewrite (low_lxor (Z.lxor lo h) l) by (apply lxor8; assumption).
  rewrite <- (Z.lxor_assoc (256 * l)), (Z.lxor_comm (256 * l) lo), Z.lxor_assoc. reflexivity.
Qed.
Lemma crc_loop_cons b m hi lo : crc_loop (b :: m) hi lo = crc_loop m (Z.lxor lo (nthb aCRCHi (Z.lxor hi b))) (nthb aCRCLo (Z.lxor hi b)).
Proof. reflexivity. Qed.
Lemma crc_loop_ref m : forall hi lo, bytes_ok m -> 0 <= hi < 256 -> 0 <= lo < 256 ->
  crc_loop m hi lo = (fold_left crc_byte m (hi + 256 * lo) mod 256, fold_left crc_byte m (hi + 256 * lo) / 256).
Proof.
  induction m as [|b m IH]; intros hi lo Hm Hh Hl; rewrite ?fold_cons, ?crc_loop_cons.
  - cbn [crc_loop fold_left]. f_equal; lia.
  - inversion Hm as [|? ? Hb Hm']; subst. assert (Hx : 0 <= Z.lxor hi b < 256) by (apply lxor8; assumption).
    destruct (table _ Hx) as (_ & T1 & T2). rewrite table_step by assumption. apply IH; [exact Hm'|apply lxor8; assumption|exact T2].
Qed.
Lemma crc_byte_eq c b : crc_byte c b = bits 8 (Z.lxor c b).
Proof. reflexivity. Qed.
#[local] Opaque crc_byte.

(** C55 (first half): the value computed is CRC-16/MODBUS with its two bytes exchanged, which is the order in which they are sent *)
Theorem C55_value m n : bytes_ok m -> 0 <= n <= zlen m -> n < 65536 ->
  exists c, crc16 m n = Done c /\ 0 <= c < 65536 /\ c / 256 = crc_modbus (slice 0 n m) mod 256 /\ c mod 256 = crc_modbus (slice 0 n m) / 256.
Proof.
  intros Hm Hn H6. unfold crc16, u16. rewrite (Z.mod_small n) by lia. destruct (zlen m <? n) eqn:E; [lia|].
  assert (Hs : bytes_ok (slice 0 n m)) by (apply bytes_ok_slice; exact Hm).
  rewrite (crc_loop_ref _ 255 255 Hs) by lia. change (255 + 256 * 255) with 65535. fold (crc_modbus (slice 0 n m)).
  pose proof (fold_range (slice 0 n m) 65535 Hs ltac:(lia)) as R. fold (crc_modbus (slice 0 n m)) in R.
  eexists. split; [reflexivity|]. lia.
Qed.

(** ** Acceptance *)
Lemma fold_app2 m x y : crc_modbus (m ++ [x; y]) = crc_byte (crc_byte (crc_modbus m) x) y.
Proof. unfold crc_modbus. rewrite fold_left_app. reflexivity. Qed.
Lemma residue c x y : 0 <= c < 65536 -> 0 <= x < 256 -> 0 <= y < 256 ->
  (crc_byte (crc_byte c x) y = 0 <-> x = c mod 256 /\ y = c / 256).
Proof.
  intros Hc Hx Hy. split.
  - intros E. assert (R1 : 0 <= Z.lxor c x < 65536) by (apply (lxor_range 16); [lia|exact Hc|change (2 ^ 16) with 65536; lia]).
    assert (E1 : Z.lxor (crc_byte c x) y = 0).
    { apply (bits_zero 8); [|rewrite <- crc_byte_eq; exact E]. apply (lxor_range 16); [lia|apply crc_byte_range; assumption|change (2 ^ 16) with 65536; lia]. }
    apply Z.lxor_eq in E1. rewrite crc_byte_eq in E1. rewrite <- (bits8_high y) in E1. apply bits_inj in E1; [|exact R1|lia].
    assert (E2 : c = Z.lxor (256 * y) x) by (rewrite <- E1, Z.lxor_assoc, Z.lxor_nilpotent, Z.lxor_0_r; reflexivity).
    rewrite <- low_lxor in E2 by exact Hx. lia.
  - intros (-> & ->). assert (E : c = Z.lxor (256 * (c / 256)) (c mod 256)) by (rewrite <- low_lxor; lia).
    rewrite !crc_byte_eq. rewrite E at 1. rewrite Z.lxor_assoc, Z.lxor_nilpotent, Z.lxor_0_r, bits8_high, Z.lxor_nilpotent. reflexivity.
Qed.
Lemma split_last2 (f : list Z) : 2 <= zlen f -> exists m x y, f = m ++ [x; y].
Proof.
  intros H. destruct (exists_last (l := f)) as (g & y & ->); [intros ->; change (zlen (@nil Z)) with 0 in H; lia|].
  rewrite zlen_app in H. change (zlen [y]) with 1 in H. destruct (exists_last (l := g)) as (m & x & ->); [intros ->; change (zlen (@nil Z)) with 0 in H; lia|].
  exists m, x, y. rewrite <- app_assoc. reflexivity.
Qed.
Lemma check_residue f : bytes_ok f -> 2 <= zlen f <= 65537 -> crc16check f (zlen f) = Done (if crc_modbus f =? 0 then 1 else 0).
Proof.
  intros Hf L. unfold crc16check. destruct (zlen f <? 2) eqn:E; [lia|]. destruct (C55_value f (zlen f - 2) Hf ltac:(lia) ltac:(lia)) as (c & -> & Rc & C1 & C2).
  cbn [rbind]. destruct (split_last2 f ltac:(lia)) as (m & x & y & ->). rewrite zlen_app in *. change (zlen [x; y]) with 2 in *.
  replace (zlen m + 2 - 2) with (zlen m) in * by lia. rewrite slice_app1 in C1, C2 by reflexivity.
  assert (Hm : bytes_ok m /\ 0 <= x < 256 /\ 0 <= y < 256).
  { unfold bytes_ok in *. rewrite Forall_app in Hf. destruct Hf as (A & B). inversion B as [|? ? Bx By]; subst. inversion By; subst. tauto. }
  destruct Hm as (Hm & Hx & Hy). assert (R := fold_range m 65535 Hm ltac:(lia)). fold (crc_modbus m) in R.
  unfold word_at. rewrite zlen_app. change (zlen [x; y]) with 2. assert (N := zlen_nonneg m).
  replace (in_bounds (zlen m) 2 (zlen m + 2)) with true by (unfold in_bounds; lia). cbn [rbind].
  replace (nthb (m ++ [x; y]) (zlen m)) with x. 2: { symmetry. apply nthb_znth. rewrite znth_app2, Z.sub_diag by lia. reflexivity. }
  replace (nthb (m ++ [x; y]) (zlen m + 1)) with y. 2: { symmetry. apply nthb_znth. rewrite znth_app2 by lia. replace (zlen m + 1 - zlen m) with 1 by lia. reflexivity. }
  rewrite fold_app2. assert (I := residue (crc_modbus m) x y R Hx Hy).
  destruct (crc_byte (crc_byte (crc_modbus m) x) y =? 0) eqn:Q; destruct (c =? x * 256 + y) eqn:W; try reflexivity; exfalso.
  - apply Z.eqb_eq, I in Q. lia.
  - apply Z.eqb_neq in Q. apply Q, I. lia.
Qed.
(** what [crc16] returns, appended most significant byte first as the slave does (mbslave.c:118-119) *)
Definition sealed (m : list Z) (f : list Z) : Prop :=
  exists c, crc16 m (zlen m) = Done c /\ f = m ++ [c / 256; c mod 256].
(** C55: a frame with its checksum appended is accepted *)
Theorem C55_accepts m f : bytes_ok m -> zlen m < 65536 -> sealed m f -> crc16check f (zlen f) = Done 1.
Proof.
  intros Hm L (c & C & ->). destruct (C55_value m (zlen m) Hm ltac:(assert (A := zlen_nonneg m); lia) L) as (c' & C' & Rc & C1 & C2).
  rewrite C in C'. injection C' as <-. rewrite slice_full in C1, C2. rewrite check_residue.
  - rewrite fold_app2. assert (R := fold_range m 65535 Hm ltac:(lia)). fold (crc_modbus m) in R.
    replace (crc_byte (crc_byte (crc_modbus m) (c / 256)) (c mod 256)) with 0; [reflexivity|]. symmetry. apply residue; lia.
  - apply bytes_ok_app; [exact Hm|]. repeat constructor; lia.
  - rewrite zlen_app. change (zlen [_; _]) with 2. assert (A := zlen_nonneg m). lia.
Qed.

(** ** Errors *)
Lemma le_val_bit l : forall k, bytes_ok l -> 0 <= k -> Z.testbit (le_val l) k = bit l k.
Proof.
  unfold bit. induction l as [|b l IH]; intros k Hl Hk; cbn [le_val].
  - rewrite Z.bits_0. unfold nthb. destruct (Z.to_nat (k / 8)); symmetry; apply Z.bits_0.
  - inversion Hl; subst. rewrite low_lxor, Z.lxor_spec by assumption. rewrite (Z.mul_comm 256). change 256 with (2 ^ 8).
    destruct (Z.lt_ge_cases k 8).
    + rewrite Z.mul_pow2_bits_low by lia. replace (k / 8) with 0 by lia. replace (k mod 8) with k by lia. unfold nthb. cbn [Z.to_nat nth]. apply xorb_false_l.
    + rewrite Z.mul_pow2_bits by lia. rewrite IH by (try assumption; lia). replace (Z.testbit b k) with false.
      2: { symmetry. rewrite <- (Z.mod_small b (2 ^ 8)) by (change (2 ^ 8) with 256; lia). apply Z.mod_pow2_bits_high. lia. }
      rewrite xorb_false_r. unfold nthb. replace (Z.to_nat (k / 8)) with (S (Z.to_nat ((k - 8) / 8))) by lia. cbn [nth]. f_equal. lia.
Qed.
Lemma lxor_cancel c a b : Z.lxor (Z.lxor c a) (Z.lxor c b) = Z.lxor a b.
Proof. rewrite (Z.lxor_comm c a), Z.lxor_assoc, <- (Z.lxor_assoc c c b), Z.lxor_nilpotent, Z.lxor_0_l. reflexivity. Qed.
Lemma difference f g : bytes_ok f -> bytes_ok g -> zlen f = zlen g ->
  Z.lxor (crc_modbus f) (crc_modbus g) = bits (8 * length f) (Z.lxor (le_val f) (le_val g)).
Proof.
  intros Hf Hg L. unfold crc_modbus. rewrite !fold_bits by assumption. replace (length g) with (length f) by (unfold zlen in L; lia).
  rewrite <- bits_lxor, lxor_cancel. reflexivity.
Qed.
Lemma rejects f g : bytes_ok f -> bytes_ok g -> zlen f = zlen g -> 2 <= zlen f <= 65537 -> crc16check f (zlen f) = Done 1 ->
  bits (8 * length f) (Z.lxor (le_val f) (le_val g)) <> 0 -> crc16check g (zlen g) = Done 0.
Proof.
  intros Hf Hg L R C N. rewrite check_residue in C by assumption. rewrite check_residue by (try assumption; lia).
  rewrite <- difference in N by assumption. destruct (crc_modbus f =? 0) eqn:E; [|discriminate]. apply Z.eqb_eq in E. rewrite E, Z.lxor_0_l in N.
  destruct (crc_modbus g =? 0) eqn:E2; [lia|reflexivity].
Qed.
(** the positions at which two frames differ, numbering bits from the first one sent *)
Definition wrong (f g : list Z) (p : Z) : Prop := bit f p <> bit g p.

Lemma err_bit f g p : bytes_ok f -> bytes_ok g -> 0 <= p -> Z.testbit (Z.lxor (le_val f) (le_val g)) p = xorb (bit f p) (bit g p).
Proof. intros. rewrite Z.lxor_spec, !le_val_bit by assumption. reflexivity. Qed.
Lemma err_range f g : bytes_ok f -> bytes_ok g -> zlen f = zlen g -> 0 <= Z.lxor (le_val f) (le_val g) < 2 ^ (8 * zlen f).
Proof.
  intros Hf Hg L. assert (A := zlen_nonneg f). apply lxor_range; [lia| |].
  - rewrite Z.pow_mul_r by lia. apply le_val_range, Hf.
  - rewrite Z.pow_mul_r, L by lia. apply le_val_range, Hg.
Qed.
Lemma err_nonzero f g : bytes_ok f -> bytes_ok g -> zlen f = zlen g -> f <> g -> Z.lxor (le_val f) (le_val g) <> 0.
Proof. intros Hf Hg L N E. apply Z.lxor_eq in E. apply N. apply le_val_inj; try assumption. unfold zlen in L. lia. Qed.

(** C55: a frame that differs from an accepted one of the same length is rejected if its wrong bits all lie within 16 consecutive bits *)
Theorem C55_burst f g k : bytes_ok f -> bytes_ok g -> zlen f = zlen g -> zlen f <= 65537 -> f <> g ->
  (forall p, 0 <= p -> wrong f g p -> k <= p < k + 16) ->
  crc16check f (zlen f) = Done 1 -> crc16check g (zlen g) = Done 0.
Proof.
  intros Hf Hg L R N W C. assert (R2 : 2 <= zlen f). { unfold crc16check in C. destruct (zlen f <? 2) eqn:E; [discriminate|lia]. }
  apply (rejects f g); try assumption; [lia|]. assert (ER := err_range f g Hf Hg L). assert (EN := err_nonzero f g Hf Hg L N).
  assert (EB : forall p, 0 <= p -> ~ (k <= p < k + 16) -> Z.testbit (Z.lxor (le_val f) (le_val g)) p = false).
  { intros p Hp O. rewrite err_bit by assumption. unfold wrong in W. specialize (W p Hp). destruct (bit f p), (bit g p); try reflexivity; exfalso; apply O, W; discriminate. }
  set (e := Z.lxor (le_val f) (le_val g)) in *. clearbody e.
  set (j := Z.max 0 k). set (w := e / 2 ^ j).
  assert (Ew : e = 2 ^ j * w).
  { unfold w. apply Z.bits_inj'. intros n Hn. rewrite Z.mul_comm. destruct (Z.lt_ge_cases n j).
    - rewrite Z.mul_pow2_bits_low by lia. apply EB; lia.
    - rewrite Z.mul_pow2_bits by lia. rewrite Z.div_pow2_bits by lia. f_equal. lia. }
  assert (Hw : 0 <= w < 65536).
  { assert (w mod 2 ^ 16 = w) as <-.
    { apply Z.bits_inj'. intros n Hn. destruct (Z.lt_ge_cases n 16); [apply Z.mod_pow2_bits_low; lia|]. rewrite Z.mod_pow2_bits_high by lia. symmetry.
      unfold w. rewrite Z.div_pow2_bits by lia. apply EB; lia. }
    apply Z.mod_pos_bound. lia. }
  assert (Hj : j < 8 * zlen f). { apply (Z.pow_lt_mono_r_iff 2); [lia|assert (A := zlen_nonneg f); lia|]. assert (0 < 2 ^ j) by (apply Z.pow_pos_nonneg; lia). assert (1 <= w) by (destruct (Z.eq_dec w 0) as [Z0|]; [rewrite Z0 in Ew|]; lia). nia. }
  replace (8 * length f)%nat with (Z.to_nat j + (8 * length f - Z.to_nat j))%nat by (unfold zlen in Hj; lia).
  rewrite bits_plus, Ew. replace (2 ^ j) with (2 ^ Z.of_nat (Z.to_nat j)) by (f_equal; lia). rewrite bits_shift.
  intros Q. apply bits_zero in Q; [|exact Hw]. rewrite Q in Ew. lia.
Qed.
(** C55: in particular one wrong byte is always noticed *)
Theorem C55_byte f g i : bytes_ok f -> bytes_ok g -> zlen f = zlen g -> zlen f <= 65537 -> f <> g ->
  (forall j, 0 <= j -> j <> i -> nthb f j = nthb g j) ->
  crc16check f (zlen f) = Done 1 -> crc16check g (zlen g) = Done 0.
Proof.
  intros Hf Hg L R N W. apply (C55_burst f g (8 * i)); try assumption. intros p Hp D.
  destruct (Z.eq_dec (p / 8) i) as [E|E]; [lia|]. exfalso. apply D. unfold bit. rewrite (W (p / 8)) by (assumption || lia). reflexivity.
Qed.

(** ** An odd number of errors *)
Fixpoint parity (n : nat) (z : Z) : bool := match n with O => false | S n => xorb (Z.testbit z (Z.of_nat n)) (parity n z) end.
Lemma parity_lxor n a b : parity n (Z.lxor a b) = xorb (parity n a) (parity n b).
Proof. induction n as [|n IH]; cbn [parity]; [reflexivity|]. rewrite IH, Z.lxor_spec. destruct (Z.testbit a _), (Z.testbit b _), (parity n a), (parity n b); reflexivity. Qed.
Lemma parity_0 n : parity n 0 = false.
Proof. induction n as [|n IH]; cbn [parity]; [reflexivity|]. rewrite IH, Z.bits_0. reflexivity. Qed.
Lemma parity_shift n z : parity n (Z.shiftr z 1) = xorb (Z.odd z) (parity (S n) z).
Proof.
  induction n as [|n IH].
  - cbn [parity]. change (Z.of_nat 0) with 0. rewrite Z.bit0_odd. destruct (Z.odd z); reflexivity.
  - change (parity (S (S n)) z) with (xorb (Z.testbit z (Z.of_nat (S n))) (parity (S n) z)).
    change (parity (S n) (Z.shiftr z 1)) with (xorb (Z.testbit (Z.shiftr z 1) (Z.of_nat n)) (parity n (Z.shiftr z 1))).
    rewrite IH, Z.shiftr_spec by lia. replace (Z.of_nat n + 1) with (Z.of_nat (S n)) by lia.
    destruct (Z.testbit z _), (Z.odd z), (parity (S n) z); reflexivity.
Qed.
Lemma small_bit n z : 0 <= z < 2 ^ Z.of_nat n -> Z.testbit z (Z.of_nat n) = false.
Proof. intros H. rewrite <- (Z.mod_small z (2 ^ Z.of_nat n)) by lia. apply Z.mod_pow2_bits_high. lia. Qed.
Lemma parity_poly n : parity (16 + n) 40961 = true.
Proof.
  induction n as [|n IH]; [vm_compute; reflexivity|]. replace (16 + S n)%nat with (S (16 + n)) by lia.
  change (parity (S (16 + n)) 40961) with (xorb (Z.testbit 40961 (Z.of_nat (16 + n))) (parity (16 + n) 40961)). rewrite IH, small_bit; [reflexivity|].
  split; [lia|]. apply Z.lt_le_trans with (2 ^ 16); [reflexivity|]. apply Z.pow_le_mono_r; lia.
Qed.
Lemma crc_bit_size n z : (16 <= n)%nat -> 0 <= z < 2 ^ Z.of_nat n -> 0 <= crc_bit z < 2 ^ Z.of_nat n.
Proof.
  intros Hn H. unfold crc_bit. apply lxor_range; [lia| |].
  - rewrite Z.shiftr_div_pow2 by lia. change (2 ^ 1) with 2. lia.
  - assert (2 ^ 16 <= 2 ^ Z.of_nat n) by (apply Z.pow_le_mono_r; lia). change (2 ^ 16) with 65536 in *. destruct (Z.odd z); lia.
Qed.
Lemma parity_bit n z : (16 <= n)%nat -> 0 <= z < 2 ^ Z.of_nat n -> parity n (crc_bit z) = parity n z.
Proof.
  intros Hn H. unfold crc_bit. rewrite parity_lxor, parity_shift. cbn [parity]. rewrite small_bit by exact H.
  destruct (Z.odd z); [|rewrite parity_0]; [replace n with (16 + (n - 16))%nat at 2 by lia; rewrite parity_poly|]; destruct (parity n z); reflexivity.
Qed.
Lemma parity_bits n m : forall z, (16 <= n)%nat -> 0 <= z < 2 ^ Z.of_nat n -> parity n (bits m z) = parity n z.
Proof. induction m as [|m IH]; intros z Hn H; cbn [bits]; [reflexivity|]. rewrite IH by (try assumption; apply crc_bit_size; assumption). apply parity_bit; assumption. Qed.
(** how many of the first n bits differ *)
Fixpoint count_wrong (f g : list Z) (n : nat) : nat :=
  match n with O => 0%nat | S n => ((if Bool.eqb (bit f (Z.of_nat n)) (bit g (Z.of_nat n)) then 0 else 1) + count_wrong f g n)%nat end.
Lemma parity_count f g n : bytes_ok f -> bytes_ok g -> parity n (Z.lxor (le_val f) (le_val g)) = Nat.odd (count_wrong f g n).
Proof.
  intros Hf Hg. induction n as [|n IH]; cbn [parity count_wrong]; [reflexivity|]. rewrite IH, err_bit by (try assumption; lia).
  rewrite Nat.odd_add. destruct (bit f _), (bit g _); reflexivity.
Qed.
(** C55: an odd number of wrong bits is always noticed *)
Theorem C55_odd f g : bytes_ok f -> bytes_ok g -> zlen f = zlen g -> zlen f <= 65537 ->
  Nat.odd (count_wrong f g (8 * length f)) = true ->
  crc16check f (zlen f) = Done 1 -> crc16check g (zlen g) = Done 0.
Proof.
  intros Hf Hg L R N C. assert (R2 : 2 <= zlen f). { unfold crc16check in C. destruct (zlen f <? 2) eqn:E; [discriminate|lia]. }
  apply (rejects f g); try assumption; [lia|]. assert (ER := err_range f g Hf Hg L). rewrite <- parity_count in N by assumption.
  intros Q. replace (8 * zlen f) with (Z.of_nat (8 * length f)) in ER by (unfold zlen; lia).
  rewrite <- (parity_bits _ (8 * length f)) in N by (try exact ER; unfold zlen in R2; lia). rewrite Q, parity_0 in N. discriminate.
Qed.

(** ** Two errors *)
Fixpoint no_return (n : nat) (c : Z) : bool := match n with O => true | S n => let c := crc_bit c in negb (c =? 1) && no_return n c end.
Lemma period : no_return (Z.to_nat 32766) 1 = true.
Proof. vm_compute. reflexivity. Qed.
Lemma no_return_bits n : forall c d, no_return n c = true -> (0 < d <= n)%nat -> bits d c <> 1.
Proof.
  induction n as [|n IH]; intros c d H D; [lia|]. cbn [no_return] in H. apply andb_prop in H as [H1 H2].
  destruct d as [|d]; [lia|]. cbn [bits]. destruct d as [|d]; [cbn [bits]; lia|]. apply IH; [exact H2|lia].
Qed.
Lemma two_bits n i d : (0 < d <= Z.to_nat 32766)%nat -> (i + d < n)%nat -> bits n (Z.lxor (2 ^ Z.of_nat i) (2 ^ Z.of_nat (i + d))) <> 0.
Proof.
  intros Hd Hn. replace n with (i + (d + (n - i - d)))%nat by lia. rewrite bits_plus, bits_lxor.
  replace (2 ^ Z.of_nat i) with (2 ^ Z.of_nat i * 1) by lia. rewrite bits_shift. rewrite Nat2Z.inj_add, Z.pow_add_r, bits_shift by lia.
  rewrite bits_plus, bits_lxor. replace (2 ^ Z.of_nat d) with (2 ^ Z.of_nat d * 1) by lia. rewrite bits_shift.
  assert (B := no_return_bits _ 1 d period Hd). intros Q. apply bits_zero in Q; [|apply (lxor_range 16); [lia|apply bits_range; lia|change (2 ^ 16) with 65536; lia]].
  apply Z.lxor_eq in Q. apply B, Q.
Qed.
(** C55: in a frame of at most 4095 bytes (a Modbus frame has at most 256) two wrong bits are always noticed *)
Theorem C55_two f g i j : bytes_ok f -> bytes_ok g -> zlen f = zlen g -> zlen f <= 4095 ->
  0 <= i < j -> j < 8 * zlen f -> (forall p, 0 <= p -> (wrong f g p <-> p = i \/ p = j)) ->
  crc16check f (zlen f) = Done 1 -> crc16check g (zlen g) = Done 0.
Proof.
  intros Hf Hg L R I J W C. assert (R2 : 2 <= zlen f). { unfold crc16check in C. destruct (zlen f <? 2) eqn:E; [discriminate|lia]. }
  apply (rejects f g); try assumption; [lia|].
  assert (E : Z.lxor (le_val f) (le_val g) = Z.lxor (2 ^ i) (2 ^ j)).
  { apply Z.bits_inj'. intros n Hn. rewrite err_bit, Z.lxor_spec by assumption. rewrite !Z.pow2_bits_eqb by lia. specialize (W n Hn). unfold wrong in W.
    destruct (Z.eqb_spec i n), (Z.eqb_spec j n); cbn [xorb]; destruct (bit f n), (bit g n); cbn [xorb]; try reflexivity; exfalso; (lia || (destruct W as [W1 W2]; first [apply W2; [lia|reflexivity] | assert (n = i \/ n = j) by (apply W1; discriminate); lia])). }
  rewrite E. replace (2 ^ i) with (2 ^ Z.of_nat (Z.to_nat i)) by (f_equal; lia). replace (2 ^ j) with (2 ^ Z.of_nat (Z.to_nat i + Z.to_nat (j - i))) by (f_equal; lia).
  apply two_bits; unfold zlen in *; lia.
Qed.

(** ** A request to read ten registers, and the same with one byte wrong *)
Definition crc_frame : list Z := [17; 3; 0; 107; 0; 3; 118; 135].
Example C55_ex : crc16 [17; 3; 0; 107; 0; 3] 6 = Done (118 * 256 + 135) /\ crc16check crc_frame 8 = Done 1 /\
  crc16check [17; 3; 0; 107; 0; 7; 118; 135] 8 = Done 0 /\ sealed [17; 3; 0; 107; 0; 3] crc_frame /\
  crc16 [49; 50; 51; 52; 53; 54; 55; 56; 57] 9 = Done (55 * 256 + 75).
Proof.
  split; [vm_compute; reflexivity|]. split; [vm_compute; reflexivity|]. split; [vm_compute; reflexivity|]. split; [|vm_compute; reflexivity].
  exists (118 * 256 + 135). split; vm_compute; reflexivity.
Qed.
