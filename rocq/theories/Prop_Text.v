(** * Text to value conversion: C54 *)
From Verif Require Import Base Const Types Lib Events Spec TypesProofs Text.
From Verif Require Import State Events Atomic Server SearchProofs Shape Inv Reach Spec Prop_Data.

(** the number a text stands for, of any size: white space, a sign, and a number in C notation *)
Definition number (s : name) : Z :=
  match skip_space s with
  | 45 :: r => - strtol_mag r
  | 43 :: r => strtol_mag r
  | r => strtol_mag r
  end.
(** the integer types: smallest and largest value, size *)
Inductive int_type : Z -> Z -> Z -> Z -> Prop :=
| it_byte : int_type T_BYTE 0 255 1
| it_sint : int_type T_SINT (-128) 127 1
| it_char : int_type T_CHAR (-128) 127 1
| it_word : int_type T_WORD 0 65535 2
| it_uint : int_type T_UINT 0 65535 2
| it_int : int_type T_INT (-32768) 32767 2
| it_dword : int_type T_DWORD 0 4294967295 4
| it_udint : int_type T_UDINT 0 4294967295 4
| it_dint : int_type T_DINT (-2147483648) 2147483647 4
| it_lword : int_type T_LWORD 0 18446744073709551615 8
| it_ulint : int_type T_ULINT 0 18446744073709551615 8
| it_lint : int_type T_LINT (-9223372036854775808) 9223372036854775807 8.
(** the nearest value in range, and the error to report *)
Definition nearest (lo hi n v err : Z) : Prop :=
  (lo <= n <= hi /\ v = n /\ err = 0) \/ (n < lo /\ v = lo /\ err = E_UNDERFLOW) \/ (hi < n /\ v = hi /\ err = E_OVERFLOW).
(** the texts for which the conversion to an unsigned or 64 bit type is right *)
Definition plain (t : Z) (s : name) : Prop :=
  (t = T_WORD \/ t = T_UINT -> -9223372036854775808 <= number s <= 9223372036854775807) /\
  (t = T_LWORD \/ t = T_ULINT -> (nthb s 0 = 45 /\ number s < 0) \/ ~ In 45 s) /\
  (t = T_LINT -> -9223372036854775808 <= number s \/ nthb s 0 = 45).

Lemma digits_nonneg b s : 0 <= b -> forall acc, 0 <= acc -> 0 <= digits b acc s.
Proof.
  intros Hb. induction s as [|c s IH]; intros acc H; cbn [digits]; [exact H|].
  destruct (digit_val c) as [d|] eqn:D; [|exact H]. destruct (d <? b) eqn:Q; [|exact H]. apply IH.
  assert (0 <= d); [|nia]. unfold digit_val in D. destruct (isdigit c) eqn:Q1; [injection D as <-; unfold isdigit in Q1; lia|].
  destruct ((97 <=? c) && (c <=? 122)) eqn:Q2; [injection D as <-; lia|]. destruct ((65 <=? c) && (c <=? 90)) eqn:Q3; [injection D as <-; lia | discriminate].
Qed.
Lemma mag_nonneg s : 0 <= strtol_mag s.
Proof.
  unfold strtol_mag. repeat match goal with |- 0 <= match ?x with _ => _ end => is_var x; destruct x end; try (apply digits_nonneg; lia).
  destruct (_ && _); apply digits_nonneg; lia.
Qed.
Lemma skip_space_in c s : In c (skip_space s) -> In c s.
Proof. induction s as [|a s IH]; [intros []|]. cbn [skip_space]. destruct (isspace a); [intros H; right; apply IH; exact H | auto]. Qed.
Definition sgn (neg : bool) (m : Z) : Z := if neg then - m else m.
(** all conversions look at a sign and a magnitude *)
Lemma signed s : exists neg m, 0 <= m /\ (neg = true -> In 45 s) /\ number s = sgn neg m /\ strtoul0 s = strtoul_neg neg m /\ strtol0 s = sat64 (sgn neg m) /\
  strtol_range s = negb ((-9223372036854775808 <=? sgn neg m) && (sgn neg m <=? 9223372036854775807)).
Proof.
  unfold number, strtoul0, strtol0, strtol_range. destruct (skip_space s) as [|c r] eqn:E; [exists false, 0; cbn; intuition (lia || discriminate)|].
  destruct (Z.eq_dec c 45) as [->|N1].
  { exists true, (strtol_mag r). split; [apply mag_nonneg|]. split; [intros _; apply skip_space_in; rewrite E; left; reflexivity | auto]. }
  destruct (Z.eq_dec c 43) as [->|N2].
  { exists false, (strtol_mag r). split; [apply mag_nonneg|]. split; [discriminate | auto]. }
  exists false, (strtol_mag (c :: r)). split; [apply mag_nonneg|]. split; [discriminate|]. clear E.
  destruct c as [|c|c]; try (cbv zeta; auto; fail).
  repeat match goal with |- context [match ?x with _ => _ end] => is_var x; destruct x; try congruence; try (cbv zeta; auto; fail) end.
Qed.
Lemma strtol0_number s : strtol0 s = sat64 (number s).
Proof. destruct (signed s) as (neg & m & _ & _ & -> & _ & -> & _). reflexivity. Qed.
Lemma range_number s : strtol_range s = negb ((-9223372036854775808 <=? number s) && (number s <=? 9223372036854775807)).
Proof. destruct (signed s) as (neg & m & _ & _ & -> & _ & _ & ->). reflexivity. Qed.
Lemma strtoul_small s : -9223372036854775808 <= number s <= 9223372036854775807 -> s64 (fst (strtoul0 s)) = number s.
Proof.
  destruct (signed s) as (neg & m & Hm & _ & -> & -> & _). intros B. unfold strtoul_neg, sgn in *. replace (18446744073709551615 <? m) with false by (destruct neg; lia).
  cbn [fst]. unfold s64, u64. cbv zeta. destruct neg; destruct (_ <? _) eqn:Q; lia.
Qed.
Lemma strtoul_plus s : ~ In 45 s -> 0 <= number s /\ strtoul0 s = if 18446744073709551615 <? number s then (18446744073709551615, true) else (number s, false).
Proof.
  intros N. destruct (signed s) as (neg & m & Hm & I & -> & -> & _). destruct neg; [exfalso; apply N, I; reflexivity|]. cbn [sgn]. split; [exact Hm|].
  unfold strtoul_neg. destruct (18446744073709551615 <? m) eqn:Q; [reflexivity|]. unfold u64. f_equal. lia.
Qed.
Lemma minus_first s : nthb s 0 = 45 -> number s <= 0.
Proof.
  intros H. destruct s as [|c s]; [discriminate|]. change (nthb (c :: s) 0) with c in H. subst c. unfold number. cbn [skip_space]. change (isspace 45) with false. cbv iota.
  assert (M := mag_nonneg s). lia.
Qed.
Lemma limit_nearest lo hi n x : (lo <= n <= hi -> x = n) -> (n < lo -> x < lo) -> (hi < n -> hi < x) -> lo <= hi -> nearest lo hi n (fst (limit lo hi x)) (snd (limit lo hi x)).
Proof.
  intros A B C D. unfold nearest, limit. destruct (Z_lt_le_dec n lo).
  - replace (x <? lo) with true by (specialize (B ltac:(lia)); lia). right. left. auto.
  - destruct (Z_lt_le_dec hi n).
    + specialize (C ltac:(lia)). replace (x <? lo) with false by lia. replace (hi <? x) with true by lia. right. right. auto.
    + specialize (A ltac:(lia)). replace (x <? lo) with false by lia. replace (hi <? x) with false by lia. left. auto.
Qed.
Definition ones (w : Z) : list Z := le_bytes (Z.to_nat w) (-1).
Lemma store_done buff mask w index (x : Z * Z) : in_bounds (index * w) w (zlen buff) = true ->
  (forall m, mask = Some m -> in_bounds (index * w) w (zlen m) = true) ->
  (b <-- put_elem buff w index (fst x) ;; m <-- on_mask mask (fun m => put_elem m w index (-1)) ;; Done (b, m, snd x)) =
  Done (splice (index * w) (le_bytes (Z.to_nat w) (fst x)) buff, option_map (splice (index * w) (ones w)) mask, snd x).
Proof.
  intros B M. unfold put_elem. rewrite B. cbn [rbind]. destruct mask as [m|]; cbn [on_mask option_map rbind]; [|reflexivity].
  rewrite (M m eq_refl). reflexivity.
Qed.

(** Storing a text as an integer: the element gets the nearest value in range, the return value says which bound was
    passed, no other byte changes, and the mask gets ones (except for a negative text for a 64 bit unsigned type). *)
Theorem C54_clamp_partial : forall T t lo hi w txt s buff mask index,
  int_type t lo hi w -> cstr txt = Some s -> (t = T_CHAR -> exists c, znth txt 1 = Some c /\ c <> 0) -> plain t s ->
  in_bounds (index * w) w (zlen buff) = true -> (forall m, mask = Some m -> in_bounds (index * w) w (zlen m) = true) ->
  exists v err mask', nearest lo hi (number s) v err /\
    string_to_val T txt t buff mask index = Done (splice (index * w) (le_bytes (Z.to_nat w) v) buff, mask', err) /\
    (mask' = option_map (splice (index * w) (ones w)) mask \/ ((t = T_LWORD \/ t = T_ULINT) /\ err = E_UNDERFLOW /\ mask' = mask)).
Proof.
  intros T t lo hi w txt s buff mask index I C CH (P1 & P2 & P3) B M. unfold string_to_val. rewrite C. cbv zeta.
  assert (L : forall lo hi, -9223372036854775808 < lo -> hi < 9223372036854775807 -> lo < hi -> nearest lo hi (number s) (fst (limit lo hi (strtol0 s))) (snd (limit lo hi (strtol0 s)))).
  { intros. rewrite strtol0_number. unfold sat64. apply limit_nearest; lia. }
  assert (U : (t = T_WORD \/ t = T_UINT) -> nearest 0 65535 (number s) (fst (limit 0 65535 (s64 (fst (strtoul0 s))))) (snd (limit 0 65535 (s64 (fst (strtoul0 s)))))).
  { intros H. rewrite strtoul_small by auto. apply limit_nearest; lia. }
  destruct I; cbn [Z.eqb Pos.eqb orb T_BOOL T_BYTE T_SINT T_CHAR T_WORD T_INT T_UINT T_DWORD T_DINT T_UDINT T_LWORD T_LINT T_ULINT];
  try (eexists; eexists; eexists; split; [apply L; lia|]; split; [apply store_done; assumption | left; reflexivity]).
  - destruct (CH eq_refl) as (c & E & N). rewrite E. destruct c as [|c|c]; [congruence| |];
    (eexists; eexists; eexists; split; [apply L; lia|]; split; [apply store_done; assumption | left; reflexivity]).
  - eexists. eexists. eexists. split; [apply U; auto|]. split; [apply store_done; assumption | left; reflexivity].
  - eexists. eexists. eexists. split; [apply U; auto|]. split; [apply store_done; assumption | left; reflexivity].
  - destruct (P2 ltac:(auto)) as [[F N]|N].
    + replace (nthb s 0 =? 45) with true by lia. exists 0, E_UNDERFLOW, mask. split; [right; left; lia|]. split; [|right; auto]. unfold put_elem. rewrite B. reflexivity.
    + replace (nthb s 0 =? 45) with false by (symmetry; apply Z.eqb_neq; intros F; apply N; destruct s as [|c r]; [discriminate|]; change (nthb (c :: r) 0) with c in F; left; exact F).
      destruct (strtoul_plus s N) as [G E]. rewrite E. destruct (18446744073709551615 <? number s) eqn:Q; cbn [fst snd].
      * exists 18446744073709551615, E_OVERFLOW. eexists. split; [right; right; lia|]. split; [apply (store_done buff mask 8 index (18446744073709551615, E_OVERFLOW)); assumption | left; reflexivity].
      * exists (number s), 0. eexists. split; [left; lia|]. split; [apply (store_done buff mask 8 index (number s, 0)); assumption | left; reflexivity].
  - destruct (P2 ltac:(auto)) as [[F N]|N].
    + replace (nthb s 0 =? 45) with true by lia. exists 0, E_UNDERFLOW, mask. split; [right; left; lia|]. split; [|right; auto]. unfold put_elem. rewrite B. reflexivity.
    + replace (nthb s 0 =? 45) with false by (symmetry; apply Z.eqb_neq; intros F; apply N; destruct s as [|c r]; [discriminate|]; change (nthb (c :: r) 0) with c in F; left; exact F).
      destruct (strtoul_plus s N) as [G E]. rewrite E. destruct (18446744073709551615 <? number s) eqn:Q; cbn [fst snd].
      * exists 18446744073709551615, E_OVERFLOW. eexists. split; [right; right; lia|]. split; [apply (store_done buff mask 8 index (18446744073709551615, E_OVERFLOW)); assumption | left; reflexivity].
      * exists (number s), 0. eexists. split; [left; lia|]. split; [apply (store_done buff mask 8 index (number s, 0)); assumption | left; reflexivity].
  - eexists. eexists. eexists. split; [|split; [apply store_done; assumption | left; reflexivity]]. cbn [fst snd].
    rewrite range_number, strtol0_number. unfold sat64, nearest. destruct (Z_lt_le_dec (number s) (-9223372036854775808)).
    + right. left. destruct (P3 eq_refl) as [|F]; [lia|]. rewrite F. split; [lia|]. split; [lia|].
      replace (-9223372036854775808 <=? number s) with false by lia. reflexivity.
    + destruct (Z_lt_le_dec 9223372036854775807 (number s)).
      * right. right. split; [lia|]. split; [lia|]. replace (number s <=? 9223372036854775807) with false by lia. rewrite andb_false_r. cbn [negb].
        replace (nthb s 0 =? 45) with false; [reflexivity|]. symmetry. apply Z.eqb_neq. intros F. assert (X := minus_first s F). lia.
      * left. split; [lia|]. split; [lia|]. replace ((-9223372036854775808 <=? number s) && (number s <=? 9223372036854775807)) with true by lia. reflexivity.
Qed.

(** One character for a CHAR is stored as that character. *)
Theorem C54_char : forall T c rest buff index, 0 < c < 256 -> in_bounds index 1 (zlen buff) = true ->
  string_to_val T (c :: 0 :: rest) T_CHAR buff None index = Done (splice index [c] buff, None, 0).
Proof.
  intros T c rest buff index H B. unfold string_to_val. cbn [cstr]. replace (c =? 0) with false by lia. cbn [option_map Z.eqb Pos.eqb T_BOOL T_BYTE T_CHAR].
  assert (E1 : znth (c :: 0 :: rest) 1 = Some 0) by (change 1 with (0 + 1); rewrite znth_S, znth_0 by lia; reflexivity). rewrite E1. change (nthb (c :: 0 :: rest) 0) with c. unfold put_elem. rewrite Z.mul_1_r, B. cbn [rbind fst on_mask snd].
  change (Z.to_nat 1) with 1%nat. cbn [le_bytes]. unfold u8. rewrite Z.mod_small by lia. reflexivity.
Qed.

Lemma nthb_out l j : zlen l <= j -> nthb l j = 0.
Proof. intros H. unfold nthb. apply nth_overflow. unfold zlen in H. lia. Qed.
Lemma nthb_put l i x j : 0 <= i < zlen l -> 0 <= j -> nthb (zset l i x) j = if j =? i then x else nthb l j.
Proof.
  intros H J. destruct (Z_lt_le_dec j (zlen l)) as [L|L].
  - destruct (j =? i) eqn:Q; [assert (j = i) by lia; subst; apply nthb_znth, znth_zset_eq; lia|].
    apply nthb_znth. rewrite znth_zset_ne by lia. apply znth_nthb. lia.
  - replace (j =? i) with false by lia. rewrite !nthb_out; [reflexivity|lia|rewrite zset_zlen; lia].
Qed.
(** A text for a BOOL sets the addressed bit unless the number is 0, and changes no other bit. *)
Theorem C54_bool : forall T txt s buff index, cstr txt = Some s -> 0 <= index < 8 * zlen buff ->
  exists buff', string_to_val T txt T_BOOL buff None index = Done (buff', None, 0) /\ zlen buff' = zlen buff /\
    forall k, 0 <= k -> bit buff' k = if k =? index then negb (number s =? 0) else bit buff k.
Proof.
  intros T txt s buff index C B. unfold string_to_val. rewrite C. cbv zeta. cbn [Z.eqb Pos.eqb T_BOOL]. unfold put_bit. replace (index <? 0) with false by lia.
  destruct (znth_some buff (index / 8) ltac:(lia)) as [b E]. rewrite E. cbn [rbind on_mask]. eexists. split; [reflexivity|]. split; [apply zset_zlen|].
  intros k Hk. unfold bit. assert (R : 0 <= index / 8 < zlen buff) by lia.
  assert (Nb : nthb buff (index / 8) = b) by (apply nthb_znth; exact E).
  assert (S0 : (strtol0 s =? 0) = (number s =? 0)) by (rewrite strtol0_number; unfold sat64; lia). rewrite S0.
  destruct (Z.eq_dec (k / 8) (index / 8)) as [Q|Q].
  - rewrite Q, nthb_put by lia. rewrite Z.eqb_refl. destruct (number s =? 0); cbn [negb].
    + rewrite Z.ldiff_spec, Z.pow2_bits_eqb by lia. destruct (k =? index) eqn:W; [replace (index mod 8 =? k mod 8) with true by lia; cbn; apply andb_false_r|].
      replace (index mod 8 =? k mod 8) with false by lia. rewrite andb_true_r, <- Nb. reflexivity.
    + rewrite Z.lor_spec, Z.pow2_bits_eqb by lia. destruct (k =? index) eqn:W; [replace (index mod 8 =? k mod 8) with true by lia; apply orb_true_r|].
      replace (index mod 8 =? k mod 8) with false by lia. rewrite orb_false_r, <- Nb. reflexivity.
  - rewrite nthb_put by lia. replace (k / 8 =? index / 8) with false by lia. replace (k =? index) with false by (symmetry; apply Z.eqb_neq; intros ->; congruence). reflexivity.
Qed.

(** ** there and back *)
Lemma dec_rev_len f : forall n, (length (dec_rev f n) <= f)%nat.
Proof. induction f as [|f IH]; intros n; cbn [dec_rev]; [cbn; lia|]. destruct (n <? 10); cbn [length]; [lia | specialize (IH (n / 10)); lia]. Qed.
Lemma cstr_dec l : (forall c, In c l -> c <> 0) -> cstr (l ++ [0]) = Some l.
Proof.
  induction l as [|c l IH]; intros H; [reflexivity|]. cbn [app cstr]. assert (c <> 0) by (apply H; left; reflexivity).
  replace (c =? 0) with false by lia. rewrite IH by (intros x Hx; apply H; right; exact Hx). reflexivity.
Qed.
Lemma number_dec v : 0 <= v < 2 ^ 64 -> number (dec_str v) = v.
Proof.
  intros H. destruct (dec_str_spec v H) as (A & B & C & D). unfold number.
  destruct (dec_str v) as [|c r] eqn:E; [congruence|]. assert (M : strtol_mag (c :: r) = v) by (rewrite <- E; apply strtol_mag_dec; exact H).
  cbn [forallb] in A. apply andb_true_iff in A as [A _].
  cbn [skip_space]. replace (isspace c) with false by (unfold isdigit, isspace in *; lia). destruct c as [|c|c]; try exact M.
  repeat match goal with |- match ?x with _ => _ end = _ => is_var x; destruct x; try exact M end; exfalso; unfold isdigit in A; lia.
Qed.
Lemma print_number v : - 2 ^ 63 <= v < 2 ^ 64 ->
  number (print_dec v) = v /\ (forall c, In c (print_dec v) -> c = 45 \/ isdigit c = true) /\ (0 <= v -> ~ In 45 (print_dec v)) /\ zlen (print_dec v) <= 20.
Proof.
  intros H. unfold print_dec. assert (DG : forall x, 0 <= x < 2 ^ 64 -> forall c, In c (dec_str x) -> isdigit c = true).
  { intros x Hx c Hc. destruct (dec_str_spec x Hx) as (A & _). rewrite forallb_forall in A. auto. }
  assert (LN : forall x, zlen (dec_str x) <= 20). { intros x. unfold zlen, dec_str. rewrite rev_length. assert (Q := dec_rev_len 20 x). lia. }
  destruct (v <? 0) eqn:Q.
  - split; [|split; [|split; [lia|]]].
    + unfold number. cbn [skip_space]. change (isspace 45) with false. cbv iota. rewrite strtol_mag_dec by lia. lia.
    + intros c [<-|Hc]; [auto|]. right. apply (DG (- v)); [lia | exact Hc].
    + rewrite zlen_cons. assert (zlen (dec_str (- v)) <= 19); [|lia]. unfold zlen, dec_str. rewrite rev_length.
      assert (X : forall f n, 0 <= n < 10 ^ Z.of_nat f -> (0 < f)%nat -> (length (dec_rev 20 n) <= f)%nat -> True) by auto. clear X.
      assert (X : forall k f n, 0 <= n < 10 ^ Z.of_nat f -> (0 < f)%nat -> (length (dec_rev k n) <= f)%nat).
      { induction k as [|k IH]; intros f n Hn Hf; cbn [dec_rev]; [cbn; lia|]. destruct (n <? 10) eqn:Qn; cbn [length]; [lia|]. destruct f as [|[|f]]; [lia| |].
        - change (10 ^ Z.of_nat 1) with 10 in Hn. lia.
        - rewrite Nat2Z.inj_succ, Z.pow_succ_r in Hn by lia. assert (0 <= n / 10 < 10 ^ Z.of_nat (S f)) by (split; [lia | apply Z.div_lt_upper_bound; lia]).
          specialize (IH (S f) (n / 10) H0 ltac:(lia)). lia. }
      assert (Y := X 20%nat 19%nat (- v) ltac:(change (10 ^ Z.of_nat 19) with 10000000000000000000; lia) ltac:(lia)). lia.
  - split; [apply number_dec; lia|]. split; [intros c Hc; right; apply (DG v); [lia | exact Hc]|]. split; [|apply LN].
    intros _ I. assert (G := DG v ltac:(lia) 45 I). discriminate.
Qed.
Lemma snprint_fits size l : zlen l < size -> snprint size l = l ++ [0].
Proof. intros H. unfold snprint. assert (Z0 := zlen_nonneg l). replace (size <? 1) with false by lia. rewrite firstn_all2 by (unfold zlen in H; lia). reflexivity. Qed.
Lemma le_bytes_same n a b : a mod 256 ^ Z.of_nat n = b mod 256 ^ Z.of_nat n -> le_bytes n a = le_bytes n b.
Proof. intros H. apply le_val_inj; try apply le_bytes_ok; [rewrite !le_bytes_length; reflexivity|]. rewrite !le_val_le_bytes. exact H. Qed.

(** the value that [w] bytes stand for in an unsigned or signed type *)
Definition value (lo w : Z) (l : list Z) : Z := if lo <? 0 then (if le_val l <? 2 ^ (8 * w - 1) then le_val l else le_val l - 2 ^ (8 * w)) else le_val l.
Lemma value_ok t lo hi w l : int_type t lo hi w -> bytes_ok l -> zlen l = w -> lo <= value lo w l <= hi /\ le_bytes (Z.to_nat w) (value lo w l) = l.
Proof.
  intros I B L. assert (R := le_val_range l B). assert (E := le_bytes_le_val l B). rewrite L in R.
  assert (W : length l = Z.to_nat w) by (unfold zlen in L; lia). rewrite W in E.
  split; [destruct I; unfold value; match type of R with _ <= _ < ?x => let y := eval compute in x in change x with y in R end; cbn; try destruct (_ <? _) eqn:Q; lia|].
  rewrite <- E at 2. apply le_bytes_same. rewrite Z2Nat.id by (destruct I; lia). unfold value. destruct (lo <? 0); [|reflexivity].
  destruct (_ <? _); [reflexivity|]. replace (2 ^ (8 * w)) with (1 * 256 ^ w) by (destruct I; reflexivity).
  rewrite <- Z.add_opp_r, <- Z.mul_opp_l. apply Z_mod_plus_full.
Qed.
Lemma wrap_value t lo hi w l : int_type t lo hi w -> lo < 0 -> bytes_ok l -> zlen l = w -> wrap_s w (le_val l) = value lo w l.
Proof.
  intros I N B L. assert (R := le_val_range l B). rewrite L in R. unfold value. replace (lo <? 0) with true by lia.
  destruct I; try lia; match type of R with _ <= _ < ?x => let y := eval compute in x in change x with y in R end;
  unfold wrap_s; cbn [Z.eqb Pos.eqb]; unfold s8, s16, s32, s64; cbv zeta; rewrite Z.mod_small by lia; reflexivity.
Qed.

(** A value turned into text and back is the same value, wherever it is stored, for every integer type and every buffer of
    more than 20 bytes for the text. *)
Theorem C54_roundtrip : forall T t lo hi w val i size buff j,
  int_type t lo hi w -> bytes_ok val -> in_bounds (i * w) w (zlen val) = true -> in_bounds (j * w) w (zlen buff) = true -> 20 < size ->
  exists txt, val_to_string T size t val i = Done txt /\
    string_to_val T txt t buff None j = Done (splice (j * w) (slice (i * w) w val) buff, None, 0).
Proof.
  intros T t lo hi w val i size buff j I BV B1 B2 Hs. set (x := slice (i * w) w val) in *.
  assert (W0 : 0 < w) by (destruct I; lia).
  assert (Lx : zlen x = w). { unfold x. apply zlen_slice; exact B1. }
  assert (Bx : bytes_ok x) by (apply bytes_ok_slice; exact BV).
  assert (El : elem val w i = Done x) by (unfold elem, rd; rewrite B1; reflexivity).
  destruct (value_ok t lo hi w x I Bx Lx) as [V1 V2].
  clearbody x. destruct (Z.eq_dec t T_CHAR) as [->|NC].
  { assert (W1 : w = 1) by (inversion I; reflexivity). clear V1 V2 I. rewrite W1 in *. clear W0 W1. exists (x ++ [0]). assert (exists c, x = [c]) as (c & Ec).
    { destruct x as [|c [|d r]]; [discriminate Lx | eauto|]. rewrite !zlen_cons in Lx. assert (Q := zlen_nonneg r). lia. }
    split; [unfold val_to_string; cbn [Z.eqb Pos.eqb orb T_BOOL T_BYTE T_SINT T_CHAR]; rewrite El; cbn [rbind]; rewrite snprint_fits by lia; reflexivity|].
    unfold string_to_val. rewrite Ec. cbn [app]. assert (exists s, cstr [c; 0] = Some s) as (s & Es) by (cbn [cstr]; destruct (c =? 0); eexists; reflexivity).
    rewrite Es. cbn [Z.eqb Pos.eqb T_BOOL T_BYTE T_CHAR].
    assert (E1 : znth [c; 0] 1 = Some 0) by reflexivity. rewrite E1. change (nthb [c; 0] 0) with c.
    unfold put_elem. rewrite B2. cbn [rbind fst snd on_mask]. rewrite Ec in Bx. change (Z.to_nat 1) with 1%nat. cbn [le_bytes].
    assert (0 <= c < 256) by (apply Forall_inv in Bx; exact Bx). rewrite (Z.mod_small c 256) by lia. reflexivity. }
  assert (V3 : - 2 ^ 63 <= value lo w x < 2 ^ 64) by (destruct I; lia).
  destruct (print_number (value lo w x) V3) as (P1 & P2 & P3 & P4).
  set (v := value lo w x) in *. exists (print_dec v ++ [0]).
  assert (CS : cstr (print_dec v ++ [0]) = Some (print_dec v)).
  { apply cstr_dec. intros c Hc. destruct (P2 c Hc) as [->|D]; [lia|]. unfold isdigit in D. lia. }
  split.
  - assert (U : lo = 0 -> snprint size (print_dec (le_val x)) = print_dec v ++ [0]).
    { intros ->. unfold v, value. cbn [Z.ltb Z.compare]. apply snprint_fits. unfold v, value in P4. cbn [Z.ltb Z.compare] in P4. lia. }
    assert (G : lo < 0 -> snprint size (print_dec (wrap_s w (le_val x))) = print_dec v ++ [0]).
    { intros N. rewrite (wrap_value t lo hi w x I N Bx Lx). fold v. apply snprint_fits. lia. }
    unfold val_to_string. destruct I; try congruence;
    cbn [Z.eqb Pos.eqb orb T_BOOL T_BYTE T_SINT T_CHAR T_WORD T_INT T_UINT T_DWORD T_DINT T_UDINT T_LWORD T_LINT T_ULINT];
    cbv zeta; rewrite El; cbn [rbind]; f_equal; first [apply U; reflexivity | apply G; lia].
  - destruct (C54_clamp_partial T t lo hi w (print_dec v ++ [0]) (print_dec v) buff None j I CS) as (v' & err & m' & N & E & M).
    + congruence.
    + unfold plain. rewrite P1. split; [intros [->| ->]; inversion I; subst; lia|]. split; [intros K; right; apply P3; destruct K as [->| ->]; inversion I; subst; lia | intros ->; left; lia].
    + exact B2.
    + discriminate.
    + rewrite P1 in N. destruct N as [(_ & -> & ->)|[(N & _)|(N & _)]]; [|lia|lia]. rewrite E, V2. f_equal. f_equal. f_equal. destruct M as [-> | (_ & _ & ->)]; reflexivity.
Qed.
(** The same for one bit. *)
Theorem C54_roundtrip_bool : forall T val i size buff j, 0 <= i < 8 * zlen val -> 0 <= j < 8 * zlen buff -> 1 < size ->
  exists txt buff', val_to_string T size T_BOOL val i = Done txt /\ string_to_val T txt T_BOOL buff None j = Done (buff', None, 0) /\
    zlen buff' = zlen buff /\ forall k, 0 <= k -> bit buff' k = if k =? j then bit val i else bit buff k.
Proof.
  intros T val i size buff j Hi Hj Hs. destruct (znth_some val (i / 8) ltac:(lia)) as [b E]. assert (Nb := nthb_znth _ _ _ E).
  set (d := if Z.testbit b (i mod 8) then [49] else [48]). assert (Ld : zlen d = 1) by (unfold d; destruct (Z.testbit _ _); reflexivity).
  assert (Cd : cstr (d ++ [0]) = Some d) by (unfold d; destruct (Z.testbit _ _); reflexivity).
  destruct (C54_bool T (d ++ [0]) d buff j Cd Hj) as (buff' & E1 & L & K). exists (d ++ [0]), buff'. split; [|split; [exact E1|split; [exact L|]]].
  - unfold val_to_string. cbn [Z.eqb Pos.eqb T_BOOL]. replace (i <? 0) with false by lia. rewrite E. fold d. rewrite snprint_fits by lia. reflexivity.
  - intros k Hk. rewrite K by exact Hk. destruct (k =? j); [|reflexivity]. unfold bit. rewrite Nb. unfold d. destruct (Z.testbit b (i mod 8)); reflexivity.
Qed.

(** ** where the claim fails *)
Definition te0 : tenv := mk_te (fun _ _ => []) (fun _ _ => (0, 0)).
(** strtoul assigned to a long: a number of 2^63 or more is taken for a negative one *)
Theorem C54_uint_refuted : number (str "18446744073709551615") = 18446744073709551615 /\
  string_to_val te0 (str "18446744073709551615" ++ [0]) T_UINT [7; 7] None 0 = Done ([0; 0], None, E_UNDERFLOW).
Proof. split; reflexivity. Qed.
(** ... and a negative number of that size becomes a small positive one *)
Theorem C54_uint_minus_refuted : number (str "-18446744073709551615") = -18446744073709551615 /\
  string_to_val te0 (str "-18446744073709551615" ++ [0]) T_UINT [7; 7] None 0 = Done ([1; 0], None, 0).
Proof. split; reflexivity. Qed.
(** a blank before the sign hides it *)
Theorem C54_ulint_refuted : number (str " -5") = -5 /\
  string_to_val te0 (str " -5" ++ [0]) T_ULINT (zeros 8) None 0 = Done ([251; 255; 255; 255; 255; 255; 255; 255], None, 0).
Proof. split; reflexivity. Qed.
(** zero is in range *)
Theorem C54_zero_refuted : number (str "-0") = 0 /\ exists m, string_to_val te0 (str "-0" ++ [0]) T_ULINT (zeros 8) None 0 = Done (zeros 8, m, E_UNDERFLOW).
Proof. split; [reflexivity|]. eexists. reflexivity. Qed.
(** the value is the lower bound, the error says overflow *)
Theorem C54_lint_refuted : number (str " -9223372036854775809") = -9223372036854775809 /\
  string_to_val te0 (str " -9223372036854775809" ++ [0]) T_LINT (zeros 8) None 0 = Done ([0; 0; 0; 0; 0; 0; 0; 128], None, E_OVERFLOW).
Proof. split; reflexivity. Qed.

(** ** the hypotheses are met *)
Example C54_ex : plain T_UINT (str "70000") /\ string_to_val te0 (str "70000" ++ [0]) T_UINT [1; 2; 3; 4; 5; 6] (Some (zeros 6)) 1 = Done ([1; 2; 255; 255; 5; 6], Some [0; 0; 255; 255; 0; 0], E_OVERFLOW) /\
  plain T_LINT (str "-0x10") /\ string_to_val te0 (str "-0x10" ++ [0]) T_LINT (zeros 8) None 0 = Done ([240; 255; 255; 255; 255; 255; 255; 255], None, 0) /\
  plain T_ULINT (str "-5") /\ val_to_string te0 21 T_INT [1; 2; 0; 128] 1 = Done (str "-32768" ++ [0]).
Proof.
  assert (A : number (str "70000") = 70000) by reflexivity. assert (B : number (str "-0x10") = -16) by reflexivity. assert (C : number (str "-5") = -5) by reflexivity.
  unfold plain. rewrite A, B, C. unfold T_WORD, T_UINT, T_LWORD, T_ULINT, T_LINT.
  split; [split; [lia|]; split; lia|]. split; [reflexivity|]. split; [split; [lia|]; split; [|left; lia]; intros [H|H]; discriminate H|]. split; [reflexivity|].
  split; [|reflexivity]. split; [lia|]. split; [left; split; [reflexivity | lia] | lia].
Qed.
