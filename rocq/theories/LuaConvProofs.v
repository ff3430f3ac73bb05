(** * LuaConvProofs: a value read from a tag and written back *)
From Verif Require Import Base Const Types Lib LuaConv.

Scheme lty_mut := Induction for lty Sort Prop with lms_mut := Induction for lms Sort Prop.
Combined Scheme lty_lms_ind from lty_mut, lms_mut.
Fixpoint names (ms : lms) : list name := match ms with MNil => [] | MCons nm _ _ r => nm :: names r end.
(** The members of each compound type have different names *)
Fixpoint uniq (ty : lty) : Prop :=
  match ty with LB _ => True | LC ms => NoDup (names ms) /\ uniq_ms ms end
with uniq_ms (ms : lms) : Prop :=
  match ms with MNil => True | MCons _ ty _ r => uniq ty /\ uniq_ms r end.

Definition agree (new data mask : list Z) : Prop :=
  forall k, 0 <= k -> bit_of mask k = true -> bit_of data k = bit_of new k.
Definition submask (m m' : list Z) : Prop := forall k, 0 <= k -> bit_of m k = true -> bit_of m' k = true.

Lemma zlen_updb l i x : zlen (updb l i x) = zlen l.
Proof. unfold zlen, updb. rewrite upd_length. reflexivity. Qed.
Lemma nthb_updb l i x j : 0 <= i < zlen l -> 0 <= j -> nthb (updb l i x) j = if j =? i then x else nthb l j.
Proof.
  intros I J. unfold nthb, updb. destruct (j =? i) eqn:E.
  - assert (j = i) as -> by lia. apply nth_error_nth, nth_error_upd_eq. unfold zlen in I. lia.
  - destruct (nth_error l (Z.to_nat j)) eqn:N.
    + rewrite (nth_error_nth _ _ _ N). apply nth_error_nth. rewrite nth_error_upd_ne; [exact N|lia].
    + rewrite !nth_overflow; auto; apply nth_error_None; auto. rewrite nth_error_upd_ne; [exact N|lia].
Qed.
Lemma nthb_splice off new l i : in_bounds off (zlen new) (zlen l) = true -> 0 <= i ->
  nthb (splice off new l) i = if (off <=? i) && (i <? off + zlen new) then nthb new (i - off) else nthb l i.
Proof.
  intros B I. pose proof (znth_splice off new l i B I) as Z. apply in_bounds_iff in B as (B1 & B2 & B3).
  pose proof (zlen_splice off new l ltac:(apply in_bounds_iff; auto)) as L.
  destruct (Z.lt_ge_cases i (zlen l)) as [H|H].
  - rewrite znth_nthb in Z by lia.
    destruct ((off <=? i) && (i <? off + zlen new)) eqn:E.
    + rewrite znth_nthb in Z by lia. congruence.
    + rewrite znth_nthb in Z by lia. congruence.
  - replace ((off <=? i) && (i <? off + zlen new)) with false by lia.
    unfold nthb. rewrite !nth_overflow; auto; unfold zlen in *; lia.
Qed.
Lemma nthb_repeat n x i : 0 <= i < Z.of_nat n -> nthb (repeat x n) i = x.
Proof. intros H. unfold nthb. rewrite nth_indep with (d' := x) by (rewrite repeat_length; lia). apply nth_repeat. Qed.
Lemma zlen_repeat {A} (x : A) n : zlen (repeat x n) = Z.of_nat n.
Proof. unfold zlen. rewrite repeat_length. reflexivity. Qed.
Lemma testbit_255 k : 0 <= k < 8 -> Z.testbit 255 k = true.
Proof. intros H. assert (k = 0 \/ k = 1 \/ k = 2 \/ k = 3 \/ k = 4 \/ k = 5 \/ k = 6 \/ k = 7) as D by lia.
  destruct D as [-> | [-> | [-> | [-> | [-> | [-> | [-> | -> ]]]]]]]; reflexivity. Qed.

Lemma byte_of_bits a b : 0 <= a < 256 -> 0 <= b < 256 -> (forall j, 0 <= j < 8 -> Z.testbit a j = Z.testbit b j) -> a = b.
Proof.
  intros A B H. apply Z.bits_inj'. intros n N. destruct (Z.lt_ge_cases n 8) as [L|L]; [apply H; lia|].
  rewrite !Z.bits_above_log2; auto; try lia.
  - destruct (Z.eq_dec b 0) as [-> |]; [cbn; lia|]. apply Z.log2_lt_pow2; [lia|]. apply Z.lt_le_trans with (2 ^ 8); [lia|].
    apply Z.pow_le_mono_r; lia.
  - destruct (Z.eq_dec a 0) as [-> |]; [cbn; lia|]. apply Z.log2_lt_pow2; [lia|]. apply Z.lt_le_trans with (2 ^ 8); [lia|].
    apply Z.pow_le_mono_r; lia.
Qed.
Lemma nthb_byte l i : bytes_ok l -> 0 <= nthb l i < 256.
Proof.
  intros B. unfold nthb. destruct (nth_in_or_default (Z.to_nat i) l 0) as [H | H]; [|rewrite H; lia].
  unfold bytes_ok in B. rewrite Forall_forall in B. auto.
Qed.
Lemma bit_of_byte l i j : 0 <= j < 8 -> bit_of l (8 * i + j) = Z.testbit (nthb l i) j.
Proof. intros H. unfold bit_of. replace ((8 * i + j) / 8) with i by lia. replace ((8 * i + j) mod 8) with j by lia. reflexivity. Qed.
Lemma slice_ext off n a b : in_bounds off n (zlen a) = true -> zlen a = zlen b ->
  (forall i, off <= i < off + n -> nthb a i = nthb b i) -> slice off n a = slice off n b.
Proof.
  intros B L H. apply in_bounds_iff in B as (B1 & B2 & B3). apply znth_ext. intros i I.
  destruct (Z.lt_ge_cases i n) as [X|X].
  - rewrite !znth_slice by lia. rewrite !znth_nthb by lia. rewrite H by lia. reflexivity.
  - rewrite (proj2 (znth_none _ _)), (proj2 (znth_none _ _)); auto; right; rewrite zlen_slice; auto; apply in_bounds_iff; lia.
Qed.
Lemma nthb_slice off n l i : in_bounds off n (zlen l) = true -> 0 <= i < n -> nthb (slice off n l) i = nthb l (off + i).
Proof.
  intros B I. pose proof (zlen_slice _ _ _ B). apply in_bounds_iff in B as (B1 & B2 & B3).
  pose proof (znth_slice off n l i B1 I) as Z. rewrite !znth_nthb in Z by lia. congruence.
Qed.

Section Step.
Context (new : list Z) (NB : bytes_ok new).
Definition alike (c : list Z) : Prop := zlen c = zlen new /\ bytes_ok c.
Record step (w w' : lw) (R : list Z -> Prop) : Prop := {
  st_stk : w_stk w' = w_stk w;
  st_data : zlen (w_data w') = zlen new;
  st_mask : zlen (w_mask w') = zlen new;
  st_agree : agree new (w_data w') (w_mask w');
  st_sub : submask (w_mask w) (w_mask w');
  st_read : forall c, alike c -> agree new c (w_mask w') -> R c }.
Record ready (w : lw) : Prop := {
  rd_data : zlen (w_data w) = zlen new;
  rd_mask : zlen (w_mask w) = zlen new;
  rd_agree : agree new (w_data w) (w_mask w) }.
Lemma step_ready w w' R : step w w' R -> ready w'.
Proof. intros [A B C D F G]. constructor; auto. Qed.
Lemma step_weak w w' (R R' : list Z -> Prop) : step w w' R -> (forall c, alike c -> R c -> R' c) -> step w w' R'.
Proof. intros [A B C D F G] H. constructor; auto. Qed.
Lemma agree_sub c m m' : submask m m' -> agree new c m' -> agree new c m.
Proof. intros S A k K B. apply A; auto. Qed.
Lemma step_trans w w1 w2 R1 R2 : step w w1 R1 -> step w1 w2 R2 -> step w w2 (fun c => R1 c /\ R2 c).
Proof.
  intros [A B C D F G] [A' B' C' D' F' G']. constructor; auto; try congruence.
  - intros k K X. auto.
  - intros c AL AG. split; auto. apply G; auto. apply agree_sub with (w_mask w2); auto.
Qed.
Lemma step_refl w : ready w -> step w w (fun _ => True).
Proof. intros [A B C]. constructor; auto. intros k K X. exact X. Qed.
Lemma ready_push v w : ready w -> ready (push v w).
Proof. intros [A B C]. constructor; auto. Qed.
Lemma step_under v w w1 R : step (push v w) w1 R -> step w (pop w1) R.
Proof. intros [A B C D F G]. constructor; auto. cbn. rewrite A. reflexivity. Qed.

Lemma put_bytes_step off n w : ready w -> in_bounds off n (zlen new) = true ->
  exists w', put_bytes off (slice off n new) w = Done w' /\ step w w' (fun c => slice off n c = slice off n new).
Proof.
  intros [A B C] I. pose proof (zlen_slice _ _ _ I) as L. unfold put_bytes. rewrite L, A, B, I. cbn [andb].
  eexists. split; [reflexivity|].
  assert (LR : zlen (repeat 255 (length (slice off n new))) = n). { rewrite zlen_repeat. exact L. }
  assert (ID : in_bounds off (zlen (slice off n new)) (zlen (w_data w)) = true) by congruence.
  assert (IM : in_bounds off (zlen (repeat 255 (length (slice off n new)))) (zlen (w_mask w)) = true) by congruence.
  apply in_bounds_iff in I as I'. destruct I' as (I1 & I2 & I3).
  assert (MK : forall k, 0 <= k -> bit_of (splice off (repeat 255 (length (slice off n new))) (w_mask w)) k =
     if (off <=? k / 8) && (k / 8 <? off + n) then true else bit_of (w_mask w) k).
  { intros k K. unfold bit_of. rewrite nthb_splice by (auto; lia). rewrite LR.
    destruct (_ && _) eqn:E; [|reflexivity]. rewrite nthb_repeat; [apply testbit_255; lia|]. unfold zlen in L. lia. }
  constructor; cbn [w_stk w_data w_mask]; auto.
  - rewrite zlen_splice; auto.
  - rewrite zlen_splice; auto.
  - intros k K. rewrite MK by auto. intros M. unfold bit_of at 1. rewrite nthb_splice by (auto; lia). rewrite L.
    destruct (_ && _) eqn:E; [|apply C; auto]. rewrite nthb_slice by (auto; lia). unfold bit_of. do 2 f_equal. lia.
  - intros k K M. rewrite MK by auto. rewrite M. destruct (_ && _); reflexivity.
  - intros c [CL CB] AG. apply slice_ext; [congruence|auto|]. intros i J. apply byte_of_bits; [apply nthb_byte; auto|apply nthb_byte; auto|].
    intros j JJ. rewrite <- !bit_of_byte by lia. apply AG; [lia|]. rewrite MK by lia.
    replace ((off <=? (8 * i + j) / 8) && ((8 * i + j) / 8 <? off + n)) with true by lia. reflexivity.
Qed.

Lemma put_bit_step off bit w : ready w -> in_bounds (off + bit / 8) 1 (zlen new) = true ->
  let b := Z.testbit (nthb new (off + bit / 8)) (bit mod 8) in
  exists w', put_bit off bit b w = Done w' /\
    step w w' (fun c => Z.testbit (nthb c (off + bit / 8)) (bit mod 8) = b).
Proof.
  intros [A B C] I b. unfold put_bit. rewrite A, B, I. cbn [andb]. eexists. split; [reflexivity|].
  apply in_bounds_iff in I as (I1 & I2 & I3). set (i := off + bit / 8) in *. set (j := bit mod 8) in *.
  assert (J : 0 <= j < 8) by (unfold j; lia).
  assert (MK : forall k, 0 <= k -> bit_of (updb (w_mask w) i (Z.setbit (nthb (w_mask w) i) j)) k =
     if (k =? 8 * i + j) then true else bit_of (w_mask w) k).
  { intros k K. unfold bit_of. rewrite nthb_updb by lia. destruct (k / 8 =? i) eqn:E.
    - assert (X : k / 8 = i) by lia. rewrite X. destruct (Z.eq_dec (k mod 8) j) as [Y|N].
      + rewrite Y, Z.setbit_eq by lia. replace (k =? 8 * i + j) with true by lia. reflexivity.
      + rewrite Z.setbit_neq by lia. replace (k =? 8 * i + j) with false by lia. reflexivity.
    - replace (k =? 8 * i + j) with false by lia. reflexivity. }
  constructor; cbn [w_stk w_data w_mask]; auto.
  - rewrite zlen_updb; auto.
  - rewrite zlen_updb; auto.
  - intros k K. rewrite MK by auto. intros M. unfold bit_of at 1. rewrite nthb_updb by lia. destruct (k / 8 =? i) eqn:E.
    + assert (X : k / 8 = i) by lia. destruct (Z.eq_dec (k mod 8) j) as [Y|N].
      * unfold bit_of. rewrite X, Y. fold b. destruct b; [rewrite Z.setbit_eq by lia|rewrite Z.clearbit_eq]; auto.
      * replace (k =? 8 * i + j) with false in M by lia. specialize (C k K M). unfold bit_of in C. rewrite X in C.
        unfold bit_of. rewrite X, <- C. destruct b; [rewrite Z.setbit_neq by lia|rewrite Z.clearbit_neq by lia]; auto.
    + replace (k =? 8 * i + j) with false in M by lia. apply C; auto.
  - intros k K M. rewrite MK, M by auto. destruct (_ =? _); reflexivity.
  - intros c [CL CB] AG. unfold b. rewrite <- !bit_of_byte by lia. apply AG; [lia|]. rewrite MK by lia.
    replace (8 * i + j =? 8 * i + j) with true by lia. reflexivity.
Qed.

(** ** Elements *)
(** Values that survive: REAL and TIME do not, 64 bit integers up to 2^53 do *)
Definition ok_elem (t x : Z) : Prop :=
  if (t =? T_REAL) || (t =? T_TIME) then False
  else if (t =? T_LWORD) || (t =? T_ULINT) then x <= 2 ^ 53
  else if t =? T_LINT then Z.abs (s64 x) <= 2 ^ 53
  else True.
Definition esize (t : Z) : Z := typesize_bits t / 8.

Lemma round_small p z : 0 < p -> Z.abs z <= 2 ^ p -> round_sig p z = z.
Proof.
  intros P A. unfold round_sig. destruct (Z.log2 (Z.abs z) - (p - 1) <=? 0) eqn:K; [reflexivity|].
  assert (Z.abs z = 2 ^ p) as E.
  { destruct (Z.eq_dec (Z.abs z) (2 ^ p)) as [E|N]; [exact E|]. exfalso.
    destruct (Z.eq_dec (Z.abs z) 0) as [Z0|Z0]; [rewrite Z0 in K; cbn in K; lia|].
    assert (Z.log2 (Z.abs z) < p) by (apply Z.log2_lt_pow2; lia). lia. }
  rewrite E. rewrite Z.log2_pow2 by lia. replace (p - (p - 1)) with 1 by lia.
  change (2 ^ 1) with 2. change (2 ^ (1 - 1)) with 1.
  assert (D : 2 ^ p = 2 * 2 ^ (p - 1)) by (rewrite <- Z.pow_succ_r by lia; f_equal; lia).
  set (a := 2 ^ (p - 1)) in *.
  replace (2 ^ p mod 2) with 0 by lia. replace (2 ^ p / 2) with a by lia. cbn [Z.ltb Z.eqb Z.compare andb orb]. lia.
Qed.

Lemma rd_done n off l x : rd n off l = Done x -> in_bounds off n (zlen l) = true /\ x = le_val (slice off n l).
Proof. unfold rd. destruct (in_bounds _ _ _); [|discriminate]. intros [= <-]. auto. Qed.
Lemma rd_same n off c : alike c -> in_bounds off n (zlen new) = true -> slice off n c = slice off n new -> rd n off c = rd n off new.
Proof. intros [L B] I S. unfold rd. rewrite L, I, S. reflexivity. Qed.
Lemma le_slice n off z : 0 <= n -> in_bounds off n (zlen new) = true -> z mod 256 ^ n = le_val (slice off n new) ->
  le_bytes (Z.to_nat n) z = slice off n new.
Proof.
  intros N I E. pose proof (zlen_slice _ _ _ I) as L. apply le_val_inj.
  - apply le_bytes_ok.
  - apply bytes_ok_slice; auto.
  - rewrite le_bytes_length. unfold zlen in L. lia.
  - rewrite le_val_le_bytes, Z2Nat.id by lia. exact E.
Qed.

Lemma put_val n off z w : 0 <= n -> ready w -> in_bounds off n (zlen new) = true -> z mod 256 ^ n = le_val (slice off n new) ->
  exists w', put_bytes off (le_bytes (Z.to_nat n) z) w = Done w' /\ step w w' (fun c => rd n off c = rd n off new).
Proof.
  intros N W I E. rewrite (le_slice n off z N I E). destruct (put_bytes_step off n w W I) as (w' & P & S).
  exists w'. split; [exact P|]. eapply step_weak; [exact S|]. intros c AL X. apply rd_same; auto.
Qed.
Lemma slice_val n off : 0 <= n -> in_bounds off n (zlen new) = true -> 0 <= le_val (slice off n new) < 256 ^ n.
Proof. intros N I. pose proof (zlen_slice _ _ _ I) as L. pose proof (le_val_range _ (bytes_ok_slice off n new NB)) as R. rewrite L in R. exact R. Qed.

Lemma s8_facts x : -128 <= s8 x < 128 /\ (s8 x) mod 256 = x mod 256.
Proof. unfold s8. cbv zeta. destruct (_ <? _) eqn:L; lia. Qed.
Lemma s16_facts x : -32768 <= s16 x < 32768 /\ (s16 x) mod 65536 = x mod 65536.
Proof. unfold s16. cbv zeta. destruct (_ <? _) eqn:L; lia. Qed.
Lemma s32_facts x : -2147483648 <= s32 x < 2147483648 /\ (s32 x) mod 4294967296 = x mod 4294967296.
Proof. unfold s32. cbv zeta. destruct (_ <? _) eqn:L; lia. Qed.
Lemma s64_facts x : (s64 x) mod 18446744073709551616 = x mod 18446744073709551616 /\ (0 <= x < 9223372036854775808 -> s64 x = x).
Proof. unfold s64. cbv zeta. destruct (_ <? _) eqn:L; lia. Qed.

Lemma write_elem E t idx off v w :
  read_to_stack t (off + esize t * idx) new = Done v -> ok_elem t (le_val (slice (off + esize t * idx) (esize t) new)) ->
  ready w -> top w = v ->
  v <> LNil /\ exists w', write_from_stack E t idx off w = Done w' /\
    step w w' (fun c => read_to_stack t (off + esize t * idx) c = Done v).
Proof.
  intros RD OK W T. unfold write_from_stack. rewrite T. unfold read_to_stack, ok_elem in *.
  Ltac elem_case t T0 := destruct (t =? T0) eqn:?; [assert (t = T0) as -> by lia|].
  Ltac go n := 
    match goal with RD : rbind (rd _ ?o new) _ = Done _ |- _ =>
      destruct (rd n o new) as [x|] eqn:RX; [|discriminate RD]; cbn [rbind] in RD;
      let I := fresh "I" in let X := fresh "X" in
      pose proof (rd_done _ _ _ _ RX) as [I X];
      pose proof (slice_val n _ ltac:(lia) I) as SV; rewrite <- X in SV
    end.
  elem_case t T_BYTE; [|elem_case t T_SINT; [|elem_case t T_CHAR; [|elem_case t T_WORD; [|elem_case t T_UINT; [|elem_case t T_INT; [|
  elem_case t T_DWORD; [|elem_case t T_UDINT; [|elem_case t T_DINT; [|elem_case t T_REAL; [|elem_case t T_LWORD; [|elem_case t T_ULINT; [|
  elem_case t T_TIME; [|elem_case t T_LINT; [|elem_case t T_LREAL; [|discriminate RD]]]]]]]]]]]]]]].
  all: repeat match goal with
    | |- context [?a =? ?b] => let r := eval vm_compute in (a =? b) in match r with true => change (a =? b) with true | false => change (a =? b) with false end
    | H : context [?a =? ?b] |- _ => let r := eval vm_compute in (a =? b) in match r with true => change (a =? b) with true in H | false => change (a =? b) with false in H end
    | |- context [esize ?t] => let r := eval vm_compute in (esize t) in change (esize t) with r
    | H : context [esize ?t] |- _ => let r := eval vm_compute in (esize t) in change (esize t) with r in H
    end; cbn [orb] in *.
  1: go 1. 2: go 1. 3: go 1. 4: go 2. 5: go 2. 6: go 2. 7: go 4. 8: go 4. 9: go 4. 10: contradiction.
  10: go 8. 11: go 8. 12: contradiction. 12: go 8. 13: go 8.
  all: injection RD as <-; split; [discriminate|].
  all: rewrite <- ?X in OK.
  all: pose proof (s8_facts x); pose proof (s16_facts x); pose proof (s32_facts x); pose proof (s64_facts x).
  all: cbn [toint tonum]; unfold dbl_of_int.
  all: rewrite ?(round_small 53) by lia.
  all: cbn [dbl_to]; unfold dbl_to; cbn beta iota.
  all: try match goal with |- context [(?a <=? ?z) && (?z <=? ?b)] =>
         replace ((a <=? z) && (z <=? b)) with true by lia end; cbn [rbind].
  all: match goal with RX : rd ?n ?o _ = Done ?x, X : ?x = _ |- ex (fun w' => put_bytes ?o' (le_bytes _ ?z) ?w0 = _ /\ _) =>
    replace o' with o by lia;
    destruct (put_val n o z w0 ltac:(lia) ltac:(assumption) ltac:(assumption)) as (w' & P & S);
    [rewrite <- X; try lia|exists w'; split; [exact P|eapply step_weak; [exact S|]; intros c AL RC; rewrite RC, RX; cbn [rbind]; rewrite ?(round_small 53) by lia; reflexivity]]
  end.
Qed.

(** ** Arrays *)
Lemma rawget_cons k j v t : rawget k ((j, v) :: t) = if key_eqb k j then v else rawget k t.
Proof. reflexivity. Qed.
Lemma fill_keep f : forall k n acc tb i, fill k n f acc = Done tb -> i <= n -> rawget (KI i) tb = rawget (KI i) acc.
Proof.
  induction k as [|k IH]; intros n acc tb i F I; cbn in F; [congruence|].
  destruct (f n) as [v|]; [|discriminate]. cbn in F. rewrite (IH _ _ _ i F) by lia.
  rewrite rawget_cons. cbn [key_eqb]. replace (i =? n + 1) with false by lia. reflexivity.
Qed.
Lemma fill_get f : forall k n acc tb, fill k n f acc = Done tb ->
  forall i, n <= i < n + Z.of_nat k -> f i = Done (rawget (KI (i + 1)) tb).
Proof.
  induction k as [|k IH]; intros n acc tb F i I; [lia|]. cbn in F.
  destruct (f n) as [v|] eqn:FN; [|discriminate]. cbn in F. destruct (Z.eq_dec i n) as [-> |N].
  - rewrite (fill_keep _ _ _ _ _ (n + 1) F) by lia. rewrite rawget_cons. cbn [key_eqb]. rewrite Z.eqb_refl. exact FN.
  - apply (IH _ _ _ F). lia.
Qed.
Lemma fill_ext f g : forall k n acc, (forall i, n <= i < n + Z.of_nat k -> f i = g i) -> fill k n f acc = fill k n g acc.
Proof.
  induction k as [|k IH]; intros n acc H; [reflexivity|]. cbn. rewrite (H n) by lia. destruct (g n); [|reflexivity].
  cbn. apply IH. intros i I. apply H. lia.
Qed.

Lemma read_bit_done off bit l v : read_bit off bit l = Done v ->
  in_bounds (off + bit / 8) 1 (zlen l) = true /\ v = LBool (Z.testbit (nthb l (off + bit / 8)) (bit mod 8)).
Proof. unfold read_bit. destruct (in_bounds _ _ _); [|discriminate]. intros [= <-]. auto. Qed.
Lemma write_bit off bit v w : read_bit off bit new = Done v -> ready w ->
  v <> LNil /\ exists w', put_bit off bit (tobool v) w = Done w' /\ step w w' (fun c => read_bit off bit c = Done v).
Proof.
  intros RD W. apply read_bit_done in RD as (I & ->). split; [discriminate|].
  destruct (put_bit_step off bit w W I) as (w' & P & S). exists w'. split; [exact P|].
  eapply step_weak; [exact S|]. intros c [L B] X. cbn beta in X. unfold read_bit. rewrite L, I, X. reflexivity.
Qed.

Definition elem_read (t bit off n : Z) (l : list Z) : run lval :=
  if t =? T_BOOL then read_bit off (n + bit) l else read_to_stack t (off + esize t * n) l.
Definition elem_ok (t off n : Z) : Prop :=
  t = T_BOOL \/ ok_elem t (le_val (slice (off + esize t * n) (esize t) new)).
Lemma write_one E t bit off n v w : elem_read t bit off n new = Done v -> elem_ok t off n -> ready w -> top w = v ->
  v <> LNil /\ exists w', (if t =? T_BOOL then put_bit off (n + bit) (tobool (top w)) w else write_from_stack E t n off w) = Done w' /\
    step w w' (fun c => elem_read t bit off n c = Done v).
Proof.
  unfold elem_read. intros RD OK W T. destruct (t =? T_BOOL) eqn:B.
  - rewrite T. apply write_bit; auto.
  - apply write_elem; auto. destruct OK as [-> |OK]; [discriminate B|exact OK].
Qed.

Lemma pop_loop_step E t bit off tb : forall k n w,
  (forall i, n <= i < n + Z.of_nat k -> elem_read t bit off i new = Done (rawget (KI (i + 1)) tb) /\ elem_ok t off i) ->
  ready w -> top w = LTab tb ->
  exists w', pop_loop E k n t bit off w = Done w' /\
    step w w' (fun c => forall i, n <= i < n + Z.of_nat k -> elem_read t bit off i c = Done (rawget (KI (i + 1)) tb)).
Proof.
  induction k as [|k IH]; intros n w H W T.
  - exists w. split; [reflexivity|]. eapply step_weak; [apply step_refl, W|]. intros c _ _ i I. lia.
  - destruct (H n) as [RD OK]; [lia|]. cbn [pop_loop]. unfold get_key. rewrite T. cbn [rbind].
    set (v := rawget (KI (n + 1)) tb) in *.
    destruct (write_one E t bit off n v (push v w) RD OK) as (NN & w1 & P & S); [apply ready_push, W|reflexivity|].
    assert (is_lnil (top (push v w)) = false) as -> by (cbn; destruct v; [congruence|reflexivity..]).
    rewrite P. cbn [rbind]. apply step_under in S.
    destruct (IH (n + 1) (pop w1)) as (w2 & P2 & S2).
    + intros i I. apply H. lia.
    + eapply step_ready, S.
    + unfold top. rewrite (st_stk _ _ _ S). exact T.
    + exists w2. split; [exact P2|]. eapply step_weak; [exact (step_trans _ _ _ _ _ S S2)|].
      intros c _ [C1 C2] i I. destruct (Z.eq_dec i n) as [-> |N]; [exact C1|]. apply C2. lia.
Qed.

Definition ok_base (t count off : Z) : Prop :=
  if (t =? T_CHAR) && (1 <? count) then forall i, 0 <= i < count -> nthb new (off + i) <> 0
  else forall n, 0 <= n < Z.max 1 count -> elem_ok t off n.

Lemma before_nul_all l : Forall (fun b => b <> 0) l -> before_nul l = l.
Proof. induction 1 as [|b l B _ IH]; [reflexivity|]. cbn. replace (b =? 0) with false by lia. rewrite IH. reflexivity. Qed.
Lemma slice_nonzero off n : in_bounds off n (zlen new) = true -> (forall i, 0 <= i < n -> nthb new (off + i) <> 0) ->
  Forall (fun b => b <> 0) (slice off n new).
Proof.
  intros I H. apply Forall_forall. intros b B. apply In_znth in B as (i & B). pose proof (znth_range _ _ _ B) as R.
  rewrite zlen_slice in R by auto. apply nthb_znth in B. rewrite nthb_slice in B by auto. rewrite <- B. apply H; lia.
Qed.

Lemma push_base_arr t count bit off l : 1 < count -> t <> T_CHAR ->
  push_base t count bit off l = (tb <-- fill (Z.to_nat count) 0 (fun n => elem_read t bit off n l) [] ;; Done (LTab tb)).
Proof.
  intros C N. unfold push_base, elem_read, esize. replace (1 <? count) with true by lia.
  destruct (t =? T_BOOL); [reflexivity|]. replace (t =? T_CHAR) with false by lia. reflexivity.
Qed.
Lemma push_base_one t count bit off l : count <= 1 -> push_base t count bit off l = elem_read t bit off 0 l.
Proof.
  intros C. unfold push_base, elem_read. replace (1 <? count) with false by lia. cbn [Z.add]. rewrite Z.mul_0_r, Z.add_0_r. reflexivity.
Qed.

Lemma pop_base_step E t count bit off v w : push_base t count bit off new = Done v -> ok_base t count off -> ready w -> top w = v ->
  v <> LNil /\ exists w', pop_base E t count bit off w = Done (0, w') /\ step w w' (fun c => push_base t count bit off c = Done v).
Proof.
  intros RD OK W T. unfold pop_base, ok_base in *. destruct (1 <? count) eqn:C.
  - destruct (t =? T_CHAR) eqn:TC; cbn [andb] in OK.
    + assert (t = T_CHAR) as -> by lia. unfold push_base in RD |- *. change (T_CHAR =? T_BOOL) with false in *. cbn iota in *.
      change (T_CHAR =? T_CHAR) with true in *. rewrite C in *. cbn iota in *. unfold push_string in RD.
      destruct (in_bounds off count (zlen new)) eqn:I; [|discriminate RD]. injection RD as <-.
      rewrite before_nul_all in * by (apply slice_nonzero; auto). split; [discriminate|]. rewrite T.
      pose proof (zlen_slice _ _ _ I) as L.
      replace (firstn (Z.to_nat count) (slice off count new)) with (slice off count new) by (rewrite firstn_all2; auto; unfold zlen in L; lia).
      destruct (put_bytes_step off count w W I) as (w' & P & S). unfold put_bytes in P.
      destruct W as [W1 W2 W3]. rewrite L, W1, W2, I in P |- *. cbn [andb] in P |- *. injection P as <-.
      replace (length (slice off count new)) with (Z.to_nat count) in S by (unfold zlen in L; lia).
      eexists. split; [reflexivity|]. eapply step_weak; [exact S|]. intros c [LC BC] X. unfold push_string. rewrite LC, I, X.
      rewrite before_nul_all by (apply slice_nonzero; auto). reflexivity.
    + rewrite push_base_arr in RD by lia. destruct (fill _ _ _ _) as [tb|] eqn:F; [|discriminate RD]. injection RD as <-.
      split; [discriminate|]. rewrite T.
      destruct (pop_loop_step E t bit off tb (Z.to_nat count) 0 w) as (w' & P & S); auto.
      { intros i I. split; [exact (fill_get _ _ _ _ _ F i I)|]. apply OK. lia. }
      exists w'. rewrite P. split; [reflexivity|]. eapply step_weak; [exact S|]. intros c _ X. rewrite push_base_arr by lia.
      rewrite (fill_ext _ (fun n => elem_read t bit off n new)); [rewrite F; reflexivity|].
      intros i I. rewrite X by lia. symmetry. exact (fill_get _ _ _ _ _ F i I).
  - rewrite push_base_one in RD by lia. assert (OK0 : elem_ok t off 0). { rewrite andb_false_r in OK. apply OK. lia. }
    destruct (write_one E t bit off 0 v w RD OK0 W T) as (NN & w' & P & S). split; [exact NN|]. exists w'. split.
    + destruct (t =? T_BOOL); cbn [Z.add] in P; rewrite P; reflexivity.
    + eapply step_weak; [exact S|]. intros c _ X. rewrite push_base_one by lia. exact X.
Qed.

(** ** Compound types *)
Fixpoint ok_ty (ty : lty) (count off : Z) : Prop :=
  match ty with
  | LB t => ok_base t count off
  | LC ms => forall n, 0 <= n < Z.max 1 count -> ok_ms ms 0 0 (off + n * tsize ty)
  end
with ok_ms (ms : lms) (byte bit off : Z) : Prop :=
  match ms with
  | MNil => True
  | MCons _ ty count r =>
      ok_ty ty count (off + byte) /\
      let '(byte', bit') := next_pos ty count byte bit r in ok_ms r byte' bit' off
  end.

Lemma read_ms_keep l : forall ms byte bit off acc tb x, read_ms l ms byte bit off acc = Done tb -> ~ In x (names ms) ->
  rawget (KS x) tb = rawget (KS x) acc.
Proof.
  induction ms as [|nm ty count r IH]; intros byte bit off acc tb x R N; cbn [read_ms] in R; [congruence|].
  destruct (read_ty l ty count bit (off + byte)) as [v|]; [|discriminate]. cbn [rbind] in R.
  destruct (next_pos _ _ _ _ _) as [b1 b2]. rewrite (IH _ _ _ _ _ x R) by (intros X; apply N; right; exact X).
  rewrite rawget_cons. cbn [key_eqb]. replace (name_eqb x nm) with false; [reflexivity|]. symmetry. apply name_eqb_neq.
  intros ->. apply N. left. reflexivity.
Qed.

Lemma cdt_loop_step (f : Z -> lw -> run (Z * lw)) (g : Z -> list Z -> run (list (key * lval))) tb m :
  (forall n x w, 0 <= n < m -> g n new = Done x -> rawget (KI (n + 1)) tb = LTab x -> ready w -> top w = LTab x ->
     exists w', f n w = Done (0, w') /\ step w w' (fun c => g n c = Done x)) ->
  forall k n w, 0 <= n -> n + Z.of_nat k <= m -> (forall i, n <= i < n + Z.of_nat k -> exists x, g i new = Done x /\ rawget (KI (i + 1)) tb = LTab x) ->
  ready w -> top w = LTab tb ->
  exists w', cdt_loop k n f w = Done (0, w') /\
    step w w' (fun c => forall i, n <= i < n + Z.of_nat k -> g i c = g i new).
Proof.
  intros F. induction k as [|k IH]; intros n w N0 NM H W T.
  - exists w. split; [reflexivity|]. eapply step_weak; [apply step_refl, W|]. intros c _ _ i I. lia.
  - destruct (H n) as (x & G & X); [lia|]. cbn [cdt_loop]. unfold get_key. rewrite T. cbn [is_table negb rbind].
    rewrite X. cbn [top push w_stk hd is_lnil is_table negb].
    destruct (F n x (push (LTab x) w) ltac:(lia) G X) as (w1 & P & S); [apply ready_push, W|reflexivity|].
    change {| w_stk := LTab x :: w_stk w; w_data := w_data w; w_mask := w_mask w |} with (push (LTab x) w).
    rewrite P. cbn [rbind Z.eqb]. apply step_under in S.
    destruct (IH (n + 1) (pop w1)) as (w2 & P2 & S2); [lia|lia|..].
    + intros i I. apply H. lia.
    + eapply step_ready, S.
    + unfold top. rewrite (st_stk _ _ _ S). exact T.
    + exists w2. split; [exact P2|]. eapply step_weak; [exact (step_trans _ _ _ _ _ S S2)|].
      intros c _ [C1 C2] i I. destruct (Z.eq_dec i n) as [-> |N]; [congruence|]. apply C2. lia.
Qed.

Lemma write_read E :
  (forall ty nm count bit off v w tb, uniq ty -> read_ty new ty count bit off = Done v -> ok_ty ty count off ->
     ready w -> top w = LTab tb -> rawget (KS nm) tb = v ->
     exists w', write_cb E ty nm count bit off w = Done (0, w') /\ step w w' (fun c => read_ty c ty count bit off = Done v)) /\
  (forall ms byte bit off acc w tb, NoDup (names ms) -> uniq_ms ms -> read_ms new ms byte bit off acc = Done tb -> ok_ms ms byte bit off ->
     ready w -> top w = LTab tb ->
     exists w', write_ms E ms byte bit off 0 w = Done (0, w') /\ step w w' (fun c => read_ms c ms byte bit off acc = Done tb)).
Proof.
  apply lty_lms_ind.
  - intros t nm count bit off v w tb _ RD OK W T G. cbn [read_ty ok_ty write_cb] in *.
    unfold get_key. rewrite T. cbn [rbind]. rewrite G.
    destruct (pop_base_step E t count bit off v (push v w) RD OK) as (NN & w' & P & S); [apply ready_push, W|reflexivity|].
    assert (is_lnil (top (push v w)) = false) as -> by (cbn; destruct v; [congruence|reflexivity..]).
    rewrite P. cbn [rbind]. exists (pop w'). split; [reflexivity|]. apply (step_under v), S.
  - intros ms IH nm count bit off v w tb [ND U] RD OK W T G. cbn [read_ty ok_ty write_cb] in *.
    unfold get_key. rewrite T. cbn [rbind]. rewrite G. destruct (1 <? count) eqn:C.
    + destruct (fill _ _ _ _) as [ar|] eqn:F; [|discriminate RD]. injection RD as RD.
      destruct (cdt_loop_step (fun n w => write_ms E ms 0 0 (off + n * tsize (LC ms)) 0 w)
         (fun n l => read_ms l ms 0 0 (off + n * tsize (LC ms)) []) ar count) with (k := Z.to_nat count) (n := 0) (w := push v w) as (w1 & P & S).
      { intros n x w0 NR R X W0 T0.
        apply IH; auto. apply OK. lia. }
      { lia. } { lia. }
      { intros i I. pose proof (fill_get _ _ _ _ _ F i I) as X. cbn beta in X.
        destruct (read_ms new ms 0 0 (off + i * tsize (LC ms)) []) as [x|]; [|discriminate X]. injection X as X. eauto. }
      { apply ready_push, W. }
      { exact (eq_sym RD). }
      rewrite P. cbn [rbind Z.eqb]. exists (pop w1). split; [reflexivity|]. apply step_under in S. eapply step_weak; [exact S|].
      intros c _ X. cbn beta in X. rewrite (fill_ext _ (fun n => x <-- read_ms new ms 0 0 (off + n * tsize (LC ms)) [] ;; Done (LTab x))).
      * rewrite F. cbn [rbind]. congruence.
      * intros i I. rewrite X by lia. reflexivity.
    + destruct (read_ms new ms 0 0 off []) as [x|] eqn:R; [|discriminate RD]. injection RD as RD.
      rewrite <- RD. cbn [top push w_stk hd is_lnil is_table negb].
      change {| w_stk := LTab x :: w_stk w; w_data := w_data w; w_mask := w_mask w |} with (push (LTab x) w).
      destruct (IH 0 0 off [] (push (LTab x) w) x ND U R) as (w1 & P & S).
      { specialize (OK 0). rewrite Z.add_0_r in OK. apply OK. lia. }
      { apply ready_push, W. } { reflexivity. }
      rewrite P. cbn [rbind Z.eqb]. exists (pop w1). split; [reflexivity|]. apply step_under in S. eapply step_weak; [exact S|].
      intros c _ X. cbn beta in X. rewrite X. reflexivity.
  - intros byte bit off acc w tb _ _ RD _ W T. cbn [read_ms write_ms] in *. exists w. split; [reflexivity|].
    eapply step_weak; [apply step_refl, W|]. auto.
  - intros nm ty IHt count r IHr byte bit off acc w tb ND [U1 U2] RD [O1 O2] W T. cbn [read_ms write_ms] in *.
    inversion ND as [|? ? NI ND']; subst.
    destruct (read_ty new ty count bit (off + byte)) as [v|] eqn:RT; [|discriminate RD]. cbn [rbind] in RD.
    destruct (next_pos ty count byte bit r) as [b1 b2].
    destruct (IHt nm count bit (off + byte) v w tb U1 RT O1 W T) as (w1 & P1 & S1).
    { rewrite (read_ms_keep _ _ _ _ _ _ _ nm RD NI). cbn [rawget key_eqb]. rewrite name_eqb_refl. reflexivity. }
    rewrite P1. cbn [rbind Z.eqb].
    destruct (IHr b1 b2 off ((KS nm, v) :: acc) w1 tb ND' U2 RD O2) as (w2 & P2 & S2).
    + eapply step_ready, S1.
    + unfold top. rewrite (st_stk _ _ _ S1). exact T.
    + exists w2. split; [exact P2|]. eapply step_weak; [exact (step_trans _ _ _ _ _ S1 S2)|].
      intros c _ [C1 C2]. rewrite C1. exact C2.
Qed.
End Step.

(** ** Every tag can be read: the offsets stay within the size *)
Fixpoint known (ty : lty) : Prop :=
  match ty with LB t => In t base_types /\ t <> T_REAL | LC ms => known_ms ms end
with known_ms (ms : lms) : Prop :=
  match ms with MNil => True | MCons _ ty count r => known ty /\ 1 <= count /\ known_ms r end.

Lemma esize_pos t : In t base_types -> t <> T_BOOL -> 0 < esize t /\ typesize_bits t = 8 * esize t /\ tsize (LB t) = esize t.
Proof.
  intros I N. cbn in I.
  repeat (destruct I as [<- |I]; [first [exfalso; apply N; reflexivity|vm_compute; auto]|]). destruct I.
Qed.
Lemma elem_total t o l : In t base_types -> t <> T_BOOL -> t <> T_REAL -> in_bounds o (esize t) (zlen l) = true ->
  exists v, read_to_stack t o l = Done v.
Proof.
  intros I N R B. cbn in I.
  repeat (destruct I as [<- |I]; [first [exfalso; apply N; reflexivity|exfalso; apply R; reflexivity|
    unfold read_to_stack, rd; 
    match type of B with in_bounds _ (esize ?t) _ = _ => let r := eval vm_compute in (esize t) in change (esize t) with r in B end;
    cbn [Z.eqb Pos.eqb orb T_BYTE T_SINT T_CHAR T_WORD T_UINT T_INT T_DWORD T_UDINT T_DINT T_REAL T_LWORD T_ULINT T_TIME T_LINT T_LREAL];
    rewrite B; cbn [rbind]; eauto]|]). destruct I.
Qed.
Lemma fill_total f : forall k n acc, (forall i, n <= i < n + Z.of_nat k -> exists v, f i = Done v) -> exists tb, fill k n f acc = Done tb.
Proof.
  induction k as [|k IH]; intros n acc H; [cbn; eauto|]. destruct (H n) as (v & V); [lia|]. cbn. rewrite V. cbn.
  apply IH. intros i I. apply H. lia.
Qed.

(** bits that a value of type [ty] and count [count] takes *)
Definition width (ty : lty) (count : Z) : Z := if is_bool ty then count else tsize ty * count * 8.
Definition head_bool (ms : lms) : bool := match ms with MNil => true | MCons _ ty _ _ => is_bool ty end.
Lemma tsize_pos :
  (forall ty, known ty -> 0 < tsize ty) /\ (forall ms, known_ms ms -> forall p, 0 <= p -> p <= mbits ms p).
Proof.
  apply lty_lms_ind.
  - intros t [K _]. destruct (Z.eq_dec t T_BOOL) as [-> |N]; [cbn; lia|]. pose proof (esize_pos t K N). lia.
  - intros ms IH K. cbn [tsize]. specialize (IH K 0 ltac:(lia)). cbv zeta. destruct (_ =? 0) eqn:E; lia.
  - intros _ p P. cbn. lia.
  - intros nm ty IHt count r IHr [K1 [K2 K3]] p P. cbn [mbits]. destruct (is_bool ty) eqn:B.
    + specialize (IHr K3 (p + count) ltac:(lia)). lia.
    + assert (p <= up8 p) by (unfold up8; lia). specialize (IHt K1).
      destruct ty as [t|ms].
      * cbn [known] in K1. destruct K1 as [K1 _]. pose proof (esize_pos t K1) as X. cbn [is_bool] in B. specialize (X ltac:(lia)).
        assert (0 <= typesize_bits t * count) by nia. specialize (IHr K3 (up8 p + typesize_bits t * count) ltac:(lia)). lia.
      * assert (0 <= tsize (LC ms) * count * 8) by nia. specialize (IHr K3 (up8 p + tsize (LC ms) * count * 8) ltac:(lia)). lia.
Qed.
Definition based (ty : lty) : Prop := match ty with LB t => In t base_types | LC _ => True end.
Lemma known_based ty : known ty -> based ty.
Proof. destruct ty; [intros [K _]; exact K|exact (fun _ => I)]. Qed.
Lemma mbits_cons nm ty count r p : based ty ->
  mbits (MCons nm ty count r) p = mbits r ((if is_bool ty then p else up8 p) + width ty count).
Proof.
  intros K. cbn [mbits]. unfold width. destruct (is_bool ty) eqn:B; [reflexivity|]. destruct ty as [t|ms]; [|reflexivity].
  cbn [based is_bool] in *. destruct (esize_pos t K) as (_ & X & Y); [lia|]. rewrite X, Y. f_equal. lia.
Qed.
Lemma next_pos_ok ty count byte bit r b1 b2 : 0 < tsize ty -> 1 <= count -> 0 <= byte -> 0 <= bit < 8 -> (is_bool ty = false -> bit = 0) ->
  next_pos ty count byte bit r = (b1, b2) ->
  0 <= b1 /\ 0 <= b2 < 8 /\ (head_bool r = false -> b2 = 0) /\
  (r <> MNil -> 8 * b1 + b2 = (if head_bool r then 8 * byte + bit + width ty count else up8 (8 * byte + bit + width ty count))).
Proof.
  intros K C B1 B2 B3 N. unfold next_pos in N. destruct r as [|nm nty nc r].
  - injection N as <- <-. split; [lia|]. split; [lia|]. split; [discriminate|]. congruence.
  - cbn [head_bool]. unfold width. destruct (is_bool ty) eqn:BT.
    + cbv zeta in N. destruct (7 <? bit + count mod 8) eqn:O.
      * destruct (is_bool nty) eqn:NB; cbn [negb andb] in N.
        -- injection N as <- <-. split; [lia|]. split; [lia|]. split; [discriminate|]. intros _. lia.
        -- destruct ((bit + count mod 8) mod 8 =? 0) eqn:Z; cbn [negb] in N; injection N as <- <-; (split; [lia|]); (split; [lia|]); (split; [lia|]);
           intros _; unfold up8; lia.
      * destruct (is_bool nty) eqn:NB; cbn [negb andb] in N.
        -- injection N as <- <-. split; [lia|]. split; [lia|]. split; [discriminate|]. intros _. lia.
        -- destruct (bit + count mod 8 =? 0) eqn:Z; cbn [negb] in N; injection N as <- <-; (split; [lia|]); (split; [lia|]); (split; [lia|]);
           intros _; unfold up8; lia.
    + injection N as <- <-. specialize (B3 eq_refl). subst bit.
      assert (0 <= tsize ty * count) by nia. set (m := tsize ty * count) in *.
      split; [lia|]. split; [lia|]. split; [lia|]. intros _. unfold up8. destruct (is_bool nty); lia.
Qed.

Lemma read_total l :
  (forall ty count bit off, known ty -> 1 <= count -> 0 <= off -> 0 <= bit < 8 -> (is_bool ty = false -> bit = 0) ->
     8 * off + bit + width ty count <= 8 * zlen l -> exists v, read_ty l ty count bit off = Done v) /\
  (forall ms byte bit off acc, known_ms ms -> 0 <= byte -> 0 <= bit < 8 -> (head_bool ms = false -> bit = 0) -> 0 <= off ->
     8 * off + mbits ms (8 * byte + bit) <= 8 * zlen l -> exists tb, read_ms l ms byte bit off acc = Done tb).
Proof.
  apply lty_lms_ind.
  - intros t count bit off [K R] C O B1 B2 L. cbn [read_ty]. unfold width in L. cbn [is_bool] in *. unfold push_base.
    destruct (t =? T_BOOL) eqn:TB.
    + assert (G : forall i, 0 <= i < count -> exists v, read_bit off (i + bit) l = Done v).
      { intros i I. unfold read_bit. replace (in_bounds (off + (i + bit) / 8) 1 (zlen l)) with true; [eauto|].
        symmetry. apply in_bounds_iff. lia. }
      destruct (1 <? count) eqn:C1.
      * destruct (fill_total (fun n => read_bit off (n + bit) l) (Z.to_nat count) 0 []) as (tb & F); [intros i I; apply G; lia|].
        rewrite F. cbn. eauto.
      * apply (G 0). lia.
    + specialize (B2 eq_refl). subst bit. assert (N : t <> T_BOOL) by lia. destruct (esize_pos t K N) as (E1 & E2 & E3). rewrite E3 in L.
      assert (G : forall i, 0 <= i < count -> in_bounds (off + esize t * i) (esize t) (zlen l) = true).
      { intros i I. apply in_bounds_iff. nia. }
      destruct (1 <? count) eqn:C1.
      * destruct (t =? T_CHAR) eqn:TC.
        -- unfold push_string. replace (in_bounds off count (zlen l)) with true; [eauto|]. symmetry. apply in_bounds_iff.
           assert (t = T_CHAR) as -> by lia. change (esize T_CHAR) with 1 in *. lia.
        -- destruct (fill_total (fun n => read_to_stack t (off + typesize_bits t / 8 * n) l) (Z.to_nat count) 0 []) as (tb & F).
           { intros i I. apply elem_total; auto. apply G. lia. }
           rewrite F. cbn. eauto.
      * apply elem_total; auto. specialize (G 0 ltac:(lia)). rewrite Z.mul_0_r, Z.add_0_r in G. exact G.
  - intros ms IH count bit off K C O B1 B2 L. cbn [read_ty]. unfold width in L. cbn [is_bool] in L. specialize (B2 eq_refl). subst bit.
    pose proof (proj1 tsize_pos (LC ms) K) as TP.
    assert (G : forall i acc, 0 <= i < count -> exists tb, read_ms l ms 0 0 (off + i * tsize (LC ms)) acc = Done tb).
    { intros i acc I. apply IH; auto; try lia; try nia.
      pose proof (proj2 tsize_pos ms K 0 ltac:(lia)) as MP.
      assert (X : mbits ms (8 * 0 + 0) <= 8 * tsize (LC ms)).
      { cbn [tsize]. change (8 * 0 + 0) with 0. cbv zeta. destruct (mbits ms 0 =? 0) eqn:E; lia. }
      nia. }
    destruct (1 <? count) eqn:C1.
    + destruct (fill_total (fun n => x <-- read_ms l ms 0 0 (off + n * tsize (LC ms)) [] ;; Done (LTab x)) (Z.to_nat count) 0 []) as (tb & F).
      { intros i I. destruct (G i []) as (tb & R); [lia|]. rewrite R. cbn. eauto. }
      rewrite F. cbn. eauto.
    + destruct (G 0 []) as (tb & R); [lia|]. rewrite Z.mul_0_l, Z.add_0_r in R. rewrite R. cbn. eauto.
  - intros. cbn. eauto.
  - intros nm ty IHt count r IHr byte bit off acc (K1 & K2 & K3) B0 B1 B2 O L. cbn [read_ms head_bool] in *.
    rewrite mbits_cons in L by (apply known_based; auto). destruct (next_pos ty count byte bit r) as [b1 b2] eqn:N.
    destruct (next_pos_ok _ _ _ _ _ _ _ (proj1 tsize_pos ty K1) K2 B0 B1 B2 N) as (P1 & P2 & P3 & P4).
    assert (P : (if is_bool ty then 8 * byte + bit else up8 (8 * byte + bit)) = 8 * byte + bit).
    { destruct (is_bool ty); [reflexivity|]. specialize (B2 eq_refl). unfold up8. lia. }
    rewrite P in L.
    assert (W : 0 <= width ty count). { pose proof (proj1 tsize_pos ty K1). unfold width. destruct (is_bool ty); nia. }
    pose proof (proj2 tsize_pos r K3 (8 * byte + bit + width ty count) ltac:(lia)) as M.
    destruct (IHt count bit (off + byte) K1 K2) as (v & V); auto; try lia.
    rewrite V. cbn [rbind]. destruct r as [|nm2 ty2 c2 r2]; [cbn; eauto|].
    apply IHr; auto. rewrite P4 by discriminate. cbn [head_bool] in *. destruct (is_bool ty2) eqn:NB; [exact L|].
    rewrite mbits_cons in L |- * by (apply known_based, K3). rewrite NB in *.
    replace (up8 (up8 (8 * byte + bit + width ty count))) with (up8 (8 * byte + bit + width ty count)) by (unfold up8; lia). exact L.
Qed.

(** ** What a write of any value leaves alone *)
Record frm (lo hi : Z) (w w' : lw) : Prop := {
  f_data : zlen (w_data w') = zlen (w_data w);
  f_mask : zlen (w_mask w') = zlen (w_mask w);
  f_bits : forall k, 0 <= k -> ~ (lo <= k < hi) ->
     bit_of (w_mask w') k = bit_of (w_mask w) k /\ bit_of (w_data w') k = bit_of (w_data w) k }.
Lemma frm_refl lo hi w w' : w_data w' = w_data w -> w_mask w' = w_mask w -> frm lo hi w w'.
Proof. intros D M. constructor; rewrite ?D, ?M; auto. Qed.
Lemma frm_weak lo hi lo' hi' w w' : frm lo hi w w' -> lo' <= lo -> hi <= hi' -> frm lo' hi' w w'.
Proof. intros [A B C] L H. constructor; auto. intros k K N. apply C; [exact K|lia]. Qed.
Lemma frm_trans lo hi w w1 w2 : frm lo hi w w1 -> frm lo hi w1 w2 -> frm lo hi w w2.
Proof.
  intros [A B C] [A' B' C']. constructor; try congruence. intros k K N. destruct (C k K N), (C' k K N). split; congruence.
Qed.
Lemma frm_push lo hi v w w' : frm lo hi (push v w) w' -> frm lo hi w (pop w').
Proof. intros [A B C]. constructor; auto. Qed.
Lemma frm_pushed lo hi v w w' : frm lo hi (push v w) w' -> frm lo hi w w'.
Proof. intros [A B C]. constructor; auto. Qed.

Lemma bit_splice off new l k : in_bounds off (zlen new) (zlen l) = true -> 0 <= k -> ~ (8 * off <= k < 8 * (off + zlen new)) ->
  bit_of (splice off new l) k = bit_of l k.
Proof.
  intros B K N. unfold bit_of. rewrite nthb_splice by (auto; lia).
  replace ((off <=? k / 8) && (k / 8 <? off + zlen new)) with false by lia. reflexivity.
Qed.
Lemma put_bytes_frm off new w w' : put_bytes off new w = Done w' ->
  frm (8 * off) (8 * (off + zlen new)) w w' /\ w_stk w' = w_stk w.
Proof.
  unfold put_bytes. destruct (_ && _) eqn:B; [|discriminate]. intros [= <-]. apply andb_true_iff in B as [B1 B2]. split; [|reflexivity].
  assert (L : zlen (repeat 255 (length new)) = zlen new) by (rewrite zlen_repeat; reflexivity).
  constructor; cbn [w_data w_mask].
  - apply zlen_splice; auto.
  - apply zlen_splice. rewrite L. exact B2.
  - intros k K N. split; apply bit_splice; rewrite ?L; auto.
Qed.
Lemma put_bit_frm off bit b w w' : put_bit off bit b w = Done w' ->
  frm (8 * off + bit) (8 * off + bit + 1) w w' /\ w_stk w' = w_stk w.
Proof.
  unfold put_bit. cbv zeta. destruct (_ && _) eqn:B; [|discriminate]. intros [= <-]. apply andb_true_iff in B as [B1 B2]. split; [|reflexivity].
  apply in_bounds_iff in B1, B2.
  constructor; cbn [w_data w_mask]; try apply zlen_updb.
  intros k K N. unfold bit_of. rewrite !nthb_updb by lia. destruct (k / 8 =? off + bit / 8) eqn:E; [|auto].
  assert (X : k / 8 = off + bit / 8) by lia. rewrite X. split.
  - apply Z.setbit_neq; lia.
  - destruct b; [apply Z.setbit_neq; lia|apply Z.clearbit_neq; lia].
Qed.

Lemma write_from_stack_frm E t idx off count w w' : In t base_types -> t <> T_BOOL -> 0 <= idx < count ->
  write_from_stack E t idx off w = Done w' -> frm (8 * off) (8 * (off + esize t * count)) w w' /\ w_stk w' = w_stk w.
Proof.
  intros I N C. unfold write_from_stack. cbv zeta.
  assert (G : forall r k new, (x <-- r ;; put_bytes k (le_bytes new x) w) = Done w' -> off <= k -> k + Z.of_nat new <= off + esize t * count ->
    frm (8 * off) (8 * (off + esize t * count)) w w' /\ w_stk w' = w_stk w).
  { intros [x|] k new P A B; [|discriminate P]. cbn [rbind] in P. apply put_bytes_frm in P as [P S]. split; [|exact S].
    eapply frm_weak; [exact P|lia|]. rewrite zlen_le_bytes. lia. }
  cbn in I.
  repeat (destruct I as [<- |I]; [first [exfalso; apply N; reflexivity|
    match goal with G : context [esize ?t] |- _ => let r := eval vm_compute in (esize t) in change (esize t) with r in * end;
    cbn [Z.eqb Pos.eqb orb T_BYTE T_SINT T_CHAR T_WORD T_UINT T_INT T_DWORD T_UDINT T_DINT T_REAL T_LWORD T_ULINT T_TIME T_LINT T_LREAL];
    first [intros P; apply (G _ _ _ P); lia | intros P; apply (G (Done _) _ _ P); lia]]|]). destruct I.
Qed.

(** No arrays of BOOL: a string written to one spills over (C79_bool_refuted) *)
Fixpoint plain (ty : lty) (count : Z) : Prop :=
  match ty with LB t => In t base_types /\ (t = T_BOOL -> count = 1) | LC ms => plain_ms ms end
with plain_ms (ms : lms) : Prop :=
  match ms with MNil => True | MCons _ ty count r => plain ty count /\ 1 <= count /\ plain_ms r end.

Lemma pop_loop_frm E t bit off count : In t base_types -> t <> T_BOOL -> forall k n w w', 0 <= n -> n + Z.of_nat k <= count ->
  pop_loop E k n t bit off w = Done w' -> frm (8 * off) (8 * (off + esize t * count)) w w' /\ w_stk w' = w_stk w.
Proof.
  intros I N. induction k as [|k IH]; intros n w w' N0 NC P; cbn [pop_loop] in P.
  - injection P as <-. split; [apply frm_refl; reflexivity|reflexivity].
  - unfold get_key in P. destruct (top w) as [| | | | |tb] eqn:T; try discriminate P. cbn [rbind] in P.
    set (v := rawget (KI (n + 1)) tb) in *. replace (t =? T_BOOL) with false in P by lia.
    destruct (is_lnil (top (push v w))).
    + cbn [rbind] in P. apply IH in P as [F S]; [|lia|lia]. split; [|exact S]. destruct F as [F1 F2 F3]. constructor; auto.
    + destruct (write_from_stack E t n off (push v w)) as [w1|] eqn:W; [|discriminate P]. cbn [rbind] in P.
      apply (write_from_stack_frm E t n off count) in W as [F1 S1]; auto; try lia.
      apply IH in P as [F S]; [|lia|lia]. split.
      * apply frm_trans with (pop w1); [apply (frm_push _ _ v), F1|exact F].
      * rewrite S. cbn. rewrite S1. reflexivity.
Qed.
Lemma pop_base_frm E t count bit off w e w' : plain (LB t) count -> 1 <= count -> (t <> T_BOOL -> bit = 0) ->
  pop_base E t count bit off w = Done (e, w') ->
  frm (8 * off + bit) (8 * off + bit + width (LB t) count) w w' /\ (e = 0 -> w_stk w' = w_stk w).
Proof.
  intros [I B] C BB. unfold pop_base, width. cbn [is_bool]. destruct (1 <? count) eqn:C1.
  - assert (N : t <> T_BOOL) by (intros X; specialize (B X); lia). replace (t =? T_BOOL) with false by lia.
    destruct (esize_pos t I N) as (E1 & E2 & E3). rewrite E3. rewrite (BB N).
    assert (RG : forall w1, frm (8 * off) (8 * (off + esize t * count)) w w1 -> frm (8 * off + 0) (8 * off + 0 + esize t * count * 8) w w1).
    { intros w1 F. eapply frm_weak; [exact F|lia|lia]. }
    destruct (top w) as [| | | |s|tb]; try (intros [= <- <-]; split; [apply frm_refl; reflexivity|discriminate]).
    + destruct (_ && _) eqn:IB; [|discriminate]. intros [= <- <-]. split; [|reflexivity]. apply RG.
      apply andb_true_iff in IB as [B1 B2].
      assert (L : zlen (repeat 255 (Z.to_nat count)) = count) by (rewrite zlen_repeat; lia).
      assert (LN : zlen (firstn (Z.to_nat count) s) <= count) by (rewrite zlen_firstn; lia).
      assert (M : off + count <= off + esize t * count) by nia.
      constructor; cbn [w_data w_mask].
      * apply zlen_splice; auto.
      * apply zlen_splice. rewrite L. exact B2.
      * intros k K O. split; apply bit_splice; rewrite ?L; auto; lia.
    + destruct (pop_loop E _ 0 t 0 off w) as [w1|] eqn:P; [|discriminate]. intros [= <- <-].
      apply (pop_loop_frm E t 0 off count) in P as [F S]; auto; lia.
  - assert (count = 1) as -> by lia. destruct (t =? T_BOOL) eqn:TB.
    + destruct (put_bit _ _ _ _) as [w1|] eqn:P; [|discriminate]. intros [= <- <-]. apply put_bit_frm in P as [F S]. auto.
    + destruct (esize_pos t I) as (E1 & E2 & E3); [lia|]. rewrite E3, BB by lia.
      destruct (write_from_stack _ _ _ _ _) as [w1|] eqn:P; [|discriminate]. intros [= <- <-].
      apply (write_from_stack_frm E t 0 off 1) in P as [F S]; auto; try lia. split; [|auto]. eapply frm_weak; [exact F|lia|lia].
Qed.

Lemma plain_tsize :
  (forall ty count, plain ty count -> 0 < tsize ty) /\ (forall ms, plain_ms ms -> forall p, 0 <= p -> p <= mbits ms p).
Proof.
  apply lty_lms_ind.
  - intros t count [K _]. destruct (Z.eq_dec t T_BOOL) as [-> |N]; [cbn; lia|]. pose proof (esize_pos t K N). lia.
  - intros ms IH count K. cbn [tsize]. specialize (IH K 0 ltac:(lia)). cbv zeta. destruct (_ =? 0) eqn:E; lia.
  - intros _ p P. cbn. lia.
  - intros nm ty IHt count r IHr [K1 [K2 K3]] p P. cbn [mbits]. destruct (is_bool ty) eqn:B.
    + specialize (IHr K3 (p + count) ltac:(lia)). lia.
    + assert (p <= up8 p) by (unfold up8; lia). specialize (IHt count K1).
      destruct ty as [t|ms].
      * cbn [plain] in K1. destruct K1 as [K1 _]. pose proof (esize_pos t K1) as X. cbn [is_bool] in B. specialize (X ltac:(lia)).
        assert (0 <= typesize_bits t * count) by nia. specialize (IHr K3 (up8 p + typesize_bits t * count) ltac:(lia)). lia.
      * assert (0 <= tsize (LC ms) * count * 8) by nia. specialize (IHr K3 (up8 p + tsize (LC ms) * count * 8) ltac:(lia)). lia.
Qed.
Lemma plain_based ty count : plain ty count -> based ty.
Proof. destruct ty; [intros [K _]; exact K|exact (fun _ => I)]. Qed.

Lemma cdt_loop_frm (f : Z -> lw -> run (Z * lw)) off ts m : 0 < ts ->
  (forall n w e w', 0 <= n < m -> f n w = Done (e, w') -> frm (8 * (off + n * ts)) (8 * (off + n * ts) + 8 * ts) w w' /\ (e = 0 -> w_stk w' = w_stk w)) ->
  forall k n w e w', 0 <= n -> n + Z.of_nat k <= m -> cdt_loop k n f w = Done (e, w') ->
  frm (8 * off) (8 * (off + ts * m)) w w' /\ (e = 0 -> w_stk w' = w_stk w).
Proof.
  intros TS F. induction k as [|k IH]; intros n w e w' N0 NM P; cbn [cdt_loop] in P.
  - injection P as <- <-. split; [apply frm_refl; reflexivity|reflexivity].
  - destruct (negb (is_table (top w))).
    { injection P as <- <-. split; [apply frm_refl; reflexivity|discriminate]. }
    unfold get_key in P. destruct (top w) as [| | | | |tb]; try discriminate P. cbn [rbind] in P.
    set (v := rawget (KI (n + 1)) tb) in *. destruct (is_lnil (top (push v w))).
    { apply IH in P as [A B]; [|lia|lia]. split; [|exact B]. destruct A as [A1 A2 A3]. constructor; auto. }
    destruct (negb (is_table (top (push v w)))).
    { injection P as <- <-. split; [apply frm_refl; reflexivity|discriminate]. }
    destruct (f n (push v w)) as [[e1 w1]|] eqn:FN; [|discriminate P]. cbn [rbind] in P.
    apply F in FN as [A B]; [|lia]. apply frm_push in A.
    apply frm_weak with (lo' := 8 * off) (hi' := 8 * (off + ts * m)) in A; [|nia|nia].
    destruct (e1 =? 0) eqn:E0.
    + apply IH in P as [A2 B2]; [|lia|lia]. split; [exact (frm_trans _ _ _ _ _ A A2)|].
      intros X. rewrite (B2 X). cbn. rewrite B by lia. reflexivity.
    + injection P as <- <-. split; [exact A|]. intros ->. discriminate.
Qed.

Lemma write_frm E :
  (forall ty nm count bit off w e w', plain ty count -> 1 <= count -> (is_bool ty = false -> bit = 0) ->
     write_cb E ty nm count bit off w = Done (e, w') ->
     frm (8 * off + bit) (8 * off + bit + width ty count) w w' /\ (e = 0 -> w_stk w' = w_stk w)) /\
  (forall ms byte bit off err w e w', plain_ms ms -> 0 <= byte -> 0 <= bit < 8 -> (head_bool ms = false -> bit = 0) ->
     write_ms E ms byte bit off err w = Done (e, w') ->
     frm (8 * off + (8 * byte + bit)) (8 * off + mbits ms (8 * byte + bit)) w w' /\ (e = 0 -> err = 0 /\ w_stk w' = w_stk w)).
Proof.
  apply lty_lms_ind.
  - intros t nm count bit off w e w' PL C B W. cbn [write_cb is_bool] in *. unfold get_key in W.
    destruct (top w) as [| | | | |tb]; try discriminate W. cbn [rbind] in W. set (v := rawget (KS nm) tb) in *.
    destruct (is_lnil (top (push v w))).
    { cbn [rbind] in W. injection W as <- <-. split; [apply frm_refl; reflexivity|reflexivity]. }
    destruct (pop_base E t count bit off (push v w)) as [[e1 w1]|] eqn:P; [|discriminate W]. injection W as <- <-.
    apply pop_base_frm in P as [F S]; auto; [|intros N; apply B; lia]. split; [apply (frm_push _ _ v), F|].
    intros X. cbn. rewrite (S X). reflexivity.
  - intros ms IH nm count bit off w e w' PL C B W. cbn [write_cb is_bool] in *. rewrite (B eq_refl), Z.add_0_r. unfold width. cbn [is_bool].
    unfold get_key in W. destruct (top w) as [| | | | |tb]; try discriminate W. cbn [rbind] in W. set (v := rawget (KS nm) tb) in *.
    pose proof (proj1 plain_tsize (LC ms) count PL) as TP. cbn [plain] in PL.
    assert (TM : mbits ms (8 * 0 + 0) <= 8 * tsize (LC ms)).
    { pose proof (proj2 plain_tsize ms PL 0 ltac:(lia)). cbn [tsize]. change (8 * 0 + 0) with 0. cbv zeta. destruct (mbits ms 0 =? 0) eqn:E0; lia. }
    destruct (1 <? count) eqn:C1.
    + destruct (cdt_loop _ _ _ _) as [[e1 w1]|] eqn:L; [|discriminate W]. cbn [rbind] in W.
      apply (cdt_loop_frm _ off (tsize (LC ms)) count) in L as [F S]; auto; [| |lia|lia].
      * destruct (e1 =? 0) eqn:E0; injection W as <- <-.
        -- split; [|intros _; cbn; rewrite S by lia; reflexivity]. apply (frm_push _ _ v). eapply frm_weak; [exact F|lia|lia].
        -- split; [|lia]. apply (frm_pushed _ _ v). eapply frm_weak; [exact F|lia|lia].
      * intros n w0 e0 w0' N P. apply IH in P as [F S]; auto; try lia. split; [|intros X; apply S, X].
        eapply frm_weak; [exact F|lia|lia].
    + assert (count = 1) as -> by lia. destruct (is_lnil (top (push v w))).
      { injection W as <- <-. split; [apply frm_refl; reflexivity|reflexivity]. }
      destruct (negb (is_table (top (push v w)))).
      { injection W as <- <-. split; [apply frm_refl; reflexivity|discriminate]. }
      destruct (write_ms E ms 0 0 off 0 (push v w)) as [[e1 w1]|] eqn:L; [|discriminate W]. cbn [rbind] in W.
      apply IH in L as [F S]; auto; try lia. apply frm_weak with (lo' := 8 * off) (hi' := 8 * off + tsize (LC ms) * 1 * 8) in F; [|lia|lia].
      destruct (e1 =? 0) eqn:E0; injection W as <- <-.
      * split; [apply (frm_push _ _ v), F|]. intros _. cbn. rewrite (proj2 (S ltac:(lia))). reflexivity.
      * split; [apply (frm_pushed _ _ v), F|lia].
  - intros byte bit off err w e w' _ _ _ _ W. cbn in W. injection W as <- <-. split; [apply frm_refl; reflexivity|auto].
  - intros nm ty IHt count r IHr byte bit off err w e w' (K1 & K2 & K3) B0 B1 B2 W. cbn [write_ms head_bool] in *.
    destruct (write_cb E ty nm count bit (off + byte) w) as [[e1 w1]|] eqn:W1; [|discriminate W]. cbn [rbind] in W.
    destruct (next_pos ty count byte bit r) as [b1 b2] eqn:N.
    pose proof (proj1 plain_tsize ty count K1) as TP.
    destruct (next_pos_ok _ _ _ _ _ _ _ TP K2 B0 B1 B2 N) as (P1 & P2 & P3 & P4).
    rewrite mbits_cons by (eapply plain_based, K1).
    assert (P : (if is_bool ty then 8 * byte + bit else up8 (8 * byte + bit)) = 8 * byte + bit).
    { destruct (is_bool ty); [reflexivity|]. specialize (B2 eq_refl). unfold up8. lia. }
    rewrite P.
    assert (WW : 0 <= width ty count). { unfold width. destruct (is_bool ty); nia. }
    pose proof (proj2 plain_tsize r K3 (8 * byte + bit + width ty count) ltac:(lia)) as M.
    apply IHt in W1 as [F1 S1]; auto.
    destruct r as [|nm2 ty2 c2 r2].
    + cbn [mbits write_ms] in *. injection W as <- <-. split; [eapply frm_weak; [exact F1|lia|lia]|].
      intros X. destruct (e1 =? 0) eqn:E0; [split; [exact X|apply S1; lia]|lia].
    + apply IHr in W as [F2 S2]; auto. specialize (P4 ltac:(discriminate)). cbn [head_bool] in *.
      assert (MB : mbits (MCons nm2 ty2 c2 r2) (8 * b1 + b2) = mbits (MCons nm2 ty2 c2 r2) (8 * byte + bit + width ty count)).
      { rewrite P4. destruct (is_bool ty2) eqn:NB; [reflexivity|]. rewrite !mbits_cons by (eapply plain_based, K3). rewrite NB.
        replace (up8 (up8 (8 * byte + bit + width ty count))) with (up8 (8 * byte + bit + width ty count)) by (unfold up8; lia). reflexivity. }
      rewrite MB in F2. split.
      * apply frm_trans with w1; [eapply frm_weak; [exact F1|lia|lia]|]. eapply frm_weak; [exact F2| |lia].
        rewrite P4. unfold up8. destruct (is_bool ty2); lia.
      * intros X. destruct (S2 X) as [Y Z]. destruct (e1 =? 0) eqn:E0; [split; [exact Y|]|lia]. rewrite Z. apply S1. lia.
Qed.
