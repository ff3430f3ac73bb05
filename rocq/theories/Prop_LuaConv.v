(** * C78, C79: tags as Lua values.  The conditions [uniq], [known], [plain],
    [ok_ty] are defined in LuaConvProofs. *)
From Verif Require Import Base Const Types Lib LuaConv LuaConvProofs.

(** What the server stores when [data] is written under [mask] over [old] (C06) *)
Definition masked (old data mask c : list Z) : Prop :=
  forall k, 0 <= k -> bit_of c k = if bit_of mask k then bit_of data k else bit_of old k.

(** ** C78: values survive *)
(** Every tag whose type has no REAL can be read: no member lies outside the
    data.  [width]: the bits of the tag *)
Theorem C78_read_total : forall ty count l, known ty -> 1 <= count -> width ty count <= 8 * zlen l ->
  exists v, dax_to_lua l ty count = Done v.
Proof. intros ty count l K C L. apply (proj1 (read_total l)); auto; lia. Qed.

Lemma lua_to_dax_step E ty count new v w : bytes_ok new -> uniq ty -> ok_ty new ty count 0 ->
  dax_to_lua new ty count = Done v -> ready new w -> top w = v ->
  exists w', lua_to_dax E ty count w = Done (0, w') /\ step new w w' (fun c => dax_to_lua c ty count = Done v).
Proof.
  intros B U OK RD W T. unfold dax_to_lua, lua_to_dax in *. destruct ty as [t|ms].
  - destruct (pop_base_step new B E t count 0 0 v w RD OK W T) as (_ & w' & P & S). eauto.
  - destruct U as [ND U]. cbn [read_ty ok_ty] in *. destruct (1 <? count) eqn:C.
    + destruct (fill _ _ _ _) as [ar|] eqn:F; [|discriminate RD]. injection RD as RD. subst v.
      destruct (cdt_loop_step new (fun n w => write_ms E ms 0 0 (n * tsize (LC ms)) 0 w)
         (fun n l => read_ms l ms 0 0 (0 + n * tsize (LC ms)) []) ar count) with (k := Z.to_nat count) (n := 0) (w := w) as (w1 & P & S).
      { intros n x w0 NR R X W0 T0. apply (proj2 (write_read new B E)); auto. apply OK. lia. }
      { lia. } { lia. }
      { intros i I. pose proof (fill_get _ _ _ _ _ F i I) as X. cbn beta in X.
        destruct (read_ms new ms 0 0 (0 + i * tsize (LC ms)) []) as [x|]; [|discriminate X]. injection X as X. eauto. }
      { exact W. } { congruence. }
      exists w1. split; [exact P|]. eapply step_weak; [exact S|].
      intros c _ X. cbn beta in X. rewrite (fill_ext _ (fun n => x <-- read_ms new ms 0 0 (0 + n * tsize (LC ms)) [] ;; Done (LTab x))).
      * rewrite F. cbn [rbind]. congruence.
      * intros i I. rewrite X by lia. reflexivity.
    + destruct (read_ms new ms 0 0 0 []) as [x|] eqn:R; [|discriminate RD]. injection RD as RD. subst v.
      rewrite T. cbn [is_lnil is_table negb].
      destruct (proj2 (write_read new B E) ms 0 0 0 [] w x ND U R) as (w1 & P & S); auto.
      { apply (OK 0). lia. }
      exists w1. split; [exact P|]. eapply step_weak; [exact S|]. intros c _ X. cbn beta in X. rewrite X. cbn [rbind]. congruence.
Qed.

(** A value read from a tag with contents [new], written to any tag of the type,
    gives a tag that reads as the same value *)
Theorem C78_store_partial : forall E ty count new v data st,
  bytes_ok new -> uniq ty -> ok_ty new ty count 0 -> dax_to_lua new ty count = Done v -> zlen data = zlen new ->
  exists w, lua_to_dax E ty count {| w_stk := v :: st; w_data := data; w_mask := zeros (zlen new) |} = Done (0, w) /\
    w_stk w = v :: st /\
    forall old c, zlen c = zlen new -> bytes_ok c -> masked old (w_data w) (w_mask w) c -> dax_to_lua c ty count = Done v.
Proof.
  intros E ty count new v data st B U OK RD L.
  destruct (lua_to_dax_step E ty count new v {| w_stk := v :: st; w_data := data; w_mask := zeros (zlen new) |} B U OK RD) as (w & P & S).
  - constructor; cbn; auto.
    + apply zlen_zeros, zlen_nonneg.
    + intros k K M. exfalso. unfold bit_of, nthb, zeros in M. rewrite nth_repeat, Z.testbit_0_l in M. discriminate.
  - reflexivity.
  - exists w. split; [exact P|]. split; [exact (st_stk _ _ _ _ S)|]. intros old c LC BC M. apply (st_read _ _ _ _ S).
    + split; auto.
    + intros k K MK. rewrite (M k K), MK. apply (st_agree _ _ _ _ S); auto.
Qed.
(** Written back to the tag it was read from, it changes nothing *)
Theorem C78_unchanged_partial : forall E ty count new v data st,
  bytes_ok new -> uniq ty -> ok_ty new ty count 0 -> dax_to_lua new ty count = Done v -> zlen data = zlen new ->
  exists w, lua_to_dax E ty count {| w_stk := v :: st; w_data := data; w_mask := zeros (zlen new) |} = Done (0, w) /\
    forall c, zlen c = zlen new -> bytes_ok c -> masked new (w_data w) (w_mask w) c -> c = new.
Proof.
  intros E ty count new v data st B U OK RD L.
  destruct (lua_to_dax_step E ty count new v {| w_stk := v :: st; w_data := data; w_mask := zeros (zlen new) |} B U OK RD) as (w & P & S).
  - constructor; cbn; auto.
    + apply zlen_zeros, zlen_nonneg.
    + intros k K M. exfalso. unfold bit_of, nthb, zeros in M. rewrite nth_repeat, Z.testbit_0_l in M. discriminate.
  - reflexivity.
  - exists w. split; [exact P|]. intros c LC BC M. apply znth_ext. intros i I.
    destruct (Z.lt_ge_cases i (zlen new)) as [H|H].
    + rewrite !znth_nthb by lia. f_equal. apply byte_of_bits; [apply nthb_byte; auto|apply nthb_byte; auto|].
      intros j J. rewrite <- !bit_of_byte by lia. rewrite M by lia. destruct (bit_of (w_mask w) (8 * i + j)) eqn:MK; [|reflexivity].
      apply (st_agree _ _ _ _ S); [lia|exact MK].
    + rewrite (proj2 (znth_none c i)), (proj2 (znth_none new i)); auto; right; lia.
Qed.

Lemma rd_le n z : 0 <= z < 256 ^ Z.of_nat n -> rd (Z.of_nat n) 0 (le_bytes n z) = Done z.
Proof.
  intros Z. unfold rd. rewrite zlen_le_bytes. replace (in_bounds 0 (Z.of_nat n) (Z.of_nat n)) with true by (symmetry; apply in_bounds_iff; lia).
  pose proof (slice_full (le_bytes n z)) as X. rewrite zlen_le_bytes in X. rewrite X, le_val_le_bytes, Z.mod_small by lia. reflexivity.
Qed.
(** What does not survive.  REAL: every number between -1 and 1 becomes 0 *)
Lemma trunc_small b : 0 <= b mod 2 ^ 31 < 127 * 2 ^ 23 -> fp_trunc 23 8 b = Some 0.
Proof.
  intros H. unfold fp_trunc. set (e := (b / 2 ^ 23) mod 2 ^ 8). assert (E : 0 <= e < 127) by (unfold e; lia).
  cbv zeta. change (2 ^ 8 - 1) with 255. change (2 ^ (8 - 1) - 1) with 127.
  destruct (e =? 255) eqn:E1; [lia|]. destruct (e =? 0) eqn:E2; [reflexivity|].
  destruct (0 <=? e - 127 - 23) eqn:E3; [lia|].
  assert (X : b mod 2 ^ 23 + 2 ^ 23 < 2 ^ (- (e - 127 - 23))).
  { apply Z.lt_le_trans with (2 ^ 24); [lia|]. apply Z.pow_le_mono_r; lia. }
  rewrite Z.div_small by lia. destruct (Z.testbit _ _); reflexivity.
Qed.
Theorem C78_real_refuted : forall E b data st, 0 <= b < 2 ^ 32 -> b mod 2 ^ 31 < 127 * 2 ^ 23 -> zlen data = 4 ->
  dax_to_lua (le_bytes 4 b) (LB T_REAL) 1 = Done (LNum (FZ 0)) /\
  lua_to_dax E (LB T_REAL) 1 {| w_stk := LNum (FZ 0) :: st; w_data := data; w_mask := [0; 0; 0; 0] |} =
    Done (0, {| w_stk := LNum (FZ 0) :: st; w_data := [0; 0; 0; 0]; w_mask := [255; 255; 255; 255] |}).
Proof.
  intros E b data st B H L. split.
  - assert (R : rd 4 0 (le_bytes 4 b) = Done b) by (apply (rd_le 4); exact B).
    unfold dax_to_lua, read_ty, push_base, read_to_stack.
    cbn [Z.eqb Pos.eqb orb Z.ltb Z.compare Pos.compare Pos.compare_cont T_BOOL T_BYTE T_SINT T_CHAR T_WORD T_UINT T_INT T_DWORD T_UDINT T_DINT T_REAL].
    rewrite R. cbn [rbind]. rewrite trunc_small by lia. reflexivity.
  - destruct data as [|a [|b1 [|c [|d [|x data]]]]]; try (cbn in L; lia); try reflexivity.
Qed.
Lemma round_neg p z : 0 < p -> z < 0 -> round_sig p z < 0.
Proof.
  intros P Z. unfold round_sig. cbv zeta. set (a := Z.abs z). destruct (Z.log2 a - (p - 1) <=? 0) eqn:K; [exact Z|].
  set (k := Z.log2 a - (p - 1)) in *. assert (A : 0 < a) by (unfold a; lia).
  pose proof (Z.log2_spec a A) as [L1 L2].
  assert (Q : 1 <= a / 2 ^ k). { apply Z.div_le_lower_bound; [apply Z.pow_pos_nonneg; lia|]. rewrite Z.mul_1_r.
    apply Z.le_trans with (2 ^ Z.log2 a); [apply Z.pow_le_mono_r; unfold k; lia|exact L1]. }
  assert (PK : 0 < 2 ^ k) by (apply Z.pow_pos_nonneg; lia).
  replace (Z.sgn z) with (-1) by (symmetry; apply Z.sgn_neg; exact Z).
  destruct (_ || _); nia.
Qed.
(** ULINT and LWORD: the upper half of the range reads as negative numbers,
    writing one back is undefined *)
Theorem C78_ulint_refuted : forall E t x data mask st, t = T_ULINT \/ t = T_LWORD -> 2 ^ 63 <= x < 2 ^ 64 ->
  exists v, dax_to_lua (le_bytes 8 x) (LB t) 1 = Done v /\
    lua_to_dax E (LB t) 1 {| w_stk := v :: st; w_data := data; w_mask := mask |} = Undef UOverflow.
Proof.
  intros E t x data mask st T X.
  assert (R : rd 8 0 (le_bytes 8 x) = Done x) by (apply (rd_le 8); lia).
  exists (LNum (FZ (round_sig 53 (s64 x)))).
  assert (N : round_sig 53 (s64 x) < 0).
  { apply round_neg; [lia|]. unfold s64. cbv zeta. destruct (_ <? _) eqn:L; lia. }
  destruct T as [-> | ->]; (split;
  [unfold dax_to_lua, read_ty, push_base, read_to_stack;
   cbn [Z.eqb Pos.eqb orb Z.ltb Z.compare Pos.compare Pos.compare_cont T_BOOL T_BYTE T_SINT T_CHAR T_WORD T_UINT T_INT T_DWORD T_UDINT T_DINT T_REAL T_LWORD T_ULINT];
   rewrite R; reflexivity|
   unfold lua_to_dax, pop_base, write_from_stack;
   cbn [Z.eqb Pos.eqb orb Z.ltb Z.compare Pos.compare Pos.compare_cont T_BOOL T_BYTE T_SINT T_CHAR T_WORD T_UINT T_INT T_DWORD T_UDINT T_DINT T_REAL T_LWORD T_ULINT T_TIME top w_stk hd tonum];
   unfold dbl_to; replace ((0 <=? round_sig 53 (s64 x)) && (round_sig 53 (s64 x) <=? 18446744073709551615)) with false by lia; reflexivity]).
Qed.
(** TIME: a time after 1970-02-19 (2^32 ms) cannot be written; earlier ones are
    written as 4 bytes, at a distance of 4 in an array *)
Theorem C78_time_refuted : forall E x data mask st, 2 ^ 32 <= x <= 2 ^ 53 ->
  dax_to_lua (le_bytes 8 x) (LB T_TIME) 1 = Done (LInt x) /\
  lua_to_dax E (LB T_TIME) 1 {| w_stk := LInt x :: st; w_data := data; w_mask := mask |} = Undef UOverflow.
Proof.
  intros E x data mask st X. split.
  - assert (R : rd 8 0 (le_bytes 8 x) = Done x) by (apply (rd_le 8); lia).
    unfold dax_to_lua, read_ty, push_base, read_to_stack.
    cbn [Z.eqb Pos.eqb orb Z.ltb Z.compare Pos.compare Pos.compare_cont T_BOOL T_BYTE T_SINT T_CHAR T_WORD T_UINT T_INT T_DWORD T_UDINT T_DINT T_REAL T_LWORD T_ULINT T_TIME].
    rewrite R. cbn [rbind]. rewrite (proj2 (s64_facts x)) by lia. reflexivity.
  - unfold lua_to_dax, pop_base, write_from_stack.
    cbn [Z.eqb Pos.eqb orb Z.ltb Z.compare Pos.compare Pos.compare_cont T_BOOL T_BYTE T_SINT T_CHAR T_WORD T_UINT T_INT T_DWORD T_UDINT T_DINT T_REAL T_LWORD T_ULINT T_TIME top w_stk hd tonum].
    unfold dbl_of_int. rewrite round_small by lia. unfold dbl_to. replace ((0 <=? x) && (x <=? 4294967295)) with false by lia. reflexivity.
Qed.
(** LINT: 2^53 + 1 becomes 2^53 *)
Theorem C78_lint_refuted : forall E st, let x := 2 ^ 53 + 1 in
  dax_to_lua (le_bytes 8 x) (LB T_LINT) 1 = Done (LInt x) /\
  lua_to_dax E (LB T_LINT) 1 {| w_stk := LInt x :: st; w_data := zeros 8; w_mask := zeros 8 |} =
    Done (0, {| w_stk := LInt x :: st; w_data := le_bytes 8 (2 ^ 53); w_mask := repeat 255 8 |}).
Proof. intros E st. split; vm_compute; reflexivity. Qed.
(** CHAR arrays: a string shorter than the tag writes the whole tag, the rest
    with whatever the block held *)
Theorem C78_string_refuted : forall E count s data mask st, zlen s < count -> 1 < count -> zlen data = count -> zlen mask = count ->
  lua_to_dax E (LB T_CHAR) count {| w_stk := LStr s :: st; w_data := data; w_mask := mask |} =
    Done (0, {| w_stk := LStr s :: st; w_data := s ++ skipn (length s) data; w_mask := repeat 255 (Z.to_nat count) |}).
Proof.
  intros E count s data mask st S C D M. unfold lua_to_dax, pop_base. replace (1 <? count) with true by lia.
  cbn [top w_stk hd w_data w_mask]. rewrite firstn_all2 by (unfold zlen in S; lia). rewrite D, M.
  pose proof (zlen_nonneg s).
  replace (in_bounds 0 (zlen s) count) with true by (symmetry; apply in_bounds_iff; lia).
  replace (in_bounds 0 count count) with true by (symmetry; apply in_bounds_iff; lia). cbn [andb].
  unfold splice. cbn [Z.to_nat firstn app Nat.add]. rewrite repeat_length. rewrite (@skipn_all2 _ (Z.to_nat count) mask) by (unfold zlen in M; lia).
  rewrite app_nil_r. reflexivity.
Qed.

(** A type with an array of BOOL, of INT, nested compound types and strings *)
Definition ex_inner : lty := LC (MCons (str "on") (LB T_BOOL) 3 (MCons (str "t") (LB T_UDINT) 1 (MCons (str "s") (LB T_CHAR) 2 MNil))).
Definition ex_type : lty := LC (MCons (str "b") (LB T_BOOL) 10 (MCons (str "i") (LB T_INT) 3 (MCons (str "c") ex_inner 2 (MCons (str "f") (LB T_LREAL) 1 MNil)))).
Definition ex_data : list Z := [5; 2; 255; 255; 1; 0; 0; 128; 5; 1; 2; 3; 4; 65; 66; 6; 9; 8; 7; 255; 67; 68; 1; 2; 3; 4; 5; 6; 7; 8].
Example C78_ex : bytes_ok ex_data /\ uniq ex_type /\ known ex_type /\ width ex_type 1 = 8 * zlen ex_data /\ ok_ty ex_data ex_type 1 0 /\
  exists v, dax_to_lua ex_data ex_type 1 = Done v /\ rawget (KI 3) (match v with LTab t => match rawget (KS (str "i")) t with LTab t => t | _ => [] end | _ => [] end) = LInt (-32768).
Proof.
  split; [|split; [|split; [|split; [|split]]]].
  - unfold bytes_ok, ex_data. repeat constructor; lia.
  - cbn. repeat split; repeat constructor; cbn; intuition discriminate.
  - cbn. intuition (try lia; try discriminate).
  - reflexivity.
  - cbn [ex_type ex_inner ok_ty ok_ms]. intros n N. assert (n = 0) as -> by lia. cbn [next_pos is_bool].
    split; [left; reflexivity|]. split.
    { intros i I. right. vm_compute. exact Logic.I. }
    split; [|split; [|exact Logic.I]].
    + intros i I. assert (i = 0 \/ i = 1) as [-> | -> ] by lia; (split; [left; reflexivity|]); (split; [intros j J; right; vm_compute; exact Logic.I|]); (split; [|exact Logic.I]);
      intros j J; assert (j = 0 \/ j = 1) as [-> | -> ] by lia; vm_compute; discriminate.
    + intros i I. right. vm_compute. exact Logic.I.
  - eexists. split; [vm_compute; reflexivity|]. vm_compute. reflexivity.
Qed.

(** ** C79: a write touches what the value names, and nothing else *)
Fixpoint lapp (a b : lms) : lms := match a with MNil => b | MCons nm ty c r => MCons nm ty c (lapp r b) end.
(** the first bit of a member of type [ty] after the members [ms] *)
Definition start (ms : lms) (ty : lty) : Z := if is_bool ty then mbits ms 0 else up8 (mbits ms 0).

Lemma lapp_plain a b : plain_ms (lapp a b) -> plain_ms a /\ plain_ms b.
Proof. induction a as [|nm ty c r IH]; cbn; [auto|]. intros (A & B & C). destruct (IH C). auto. Qed.

Lemma absent_ms E nm ty count ms2 tb off : rawget (KS nm) tb = LNil -> (is_bool ty = false -> (match ty with LC _ => count = 1 | _ => True end)) ->
  forall ms1 byte bit err w w', plain_ms (lapp ms1 (MCons nm ty count ms2)) -> 0 <= off -> 0 <= byte -> 0 <= bit < 8 ->
  (head_bool (lapp ms1 (MCons nm ty count ms2)) = false -> bit = 0) -> top w = LTab tb ->
  write_ms E (lapp ms1 (MCons nm ty count ms2)) byte bit off err w = Done (0, w') ->
  forall k, let p := mbits ms1 (8 * byte + bit) in let s := if is_bool ty then p else up8 p in
    8 * off + s <= k < 8 * off + s + width ty count ->
    bit_of (w_mask w') k = bit_of (w_mask w) k /\ bit_of (w_data w') k = bit_of (w_data w) k.
Proof.
  intros G CC. induction ms1 as [|nm1 ty1 c1 r IH]; intros byte bit err w w' PL O B0 B1 B2 T W k p s K; cbn [lapp] in *.
  - cbn [mbits] in p. destruct PL as (K1 & K2 & K3). cbn [head_bool] in B2.
    assert (S : s = 8 * byte + bit). { unfold s, p. destruct (is_bool ty) eqn:B; [reflexivity|]. specialize (B2 eq_refl). unfold up8. lia. }
    rewrite S in K. cbn [write_ms] in W.
    assert (X : write_cb E ty nm count bit (off + byte) w = Done (0, pop (push LNil w))).
    { destruct ty as [t|ms]; cbn [write_cb]; unfold get_key; rewrite T; cbn [rbind]; rewrite G; [reflexivity|].
      cbn [is_bool] in CC. rewrite (CC eq_refl). reflexivity. }
    rewrite X in W. cbn [rbind Z.eqb] in W. destruct (next_pos ty count byte bit ms2) as [b1 b2] eqn:N.
    pose proof (proj1 plain_tsize ty count K1) as TP.
    destruct (next_pos_ok _ _ _ _ _ _ _ TP K2 B0 B1 B2 N) as (P1 & P2 & P3 & P4).
    destruct ms2 as [|nm2 ty2 c2 r2].
    { cbn in W. injection W as _ <-. split; reflexivity. }
    apply (proj2 (write_frm E)) in W as [F _]; auto. specialize (P4 ltac:(discriminate)).
    destruct (f_bits _ _ _ _ F k) as [F1 F2]; [lia| |split; assumption]. rewrite P4. unfold up8. destruct (head_bool _); lia.
  - pose proof (lapp_plain (MCons nm1 ty1 c1 r) (MCons nm ty count ms2) PL) as [PLa _]. destruct PLa as (_ & _ & PLr).
    destruct PL as (K1 & K2 & K3). cbn [head_bool] in B2. cbn [write_ms] in W.
    destruct (write_cb E ty1 nm1 c1 bit (off + byte) w) as [[e1 w1]|] eqn:W1; [|discriminate W]. cbn [rbind] in W.
    destruct (next_pos ty1 c1 byte bit _) as [b1 b2] eqn:N.
    pose proof (proj1 plain_tsize ty1 c1 K1) as TP.
    destruct (next_pos_ok _ _ _ _ _ _ _ TP K2 B0 B1 B2 N) as (P1 & P2 & P3 & P4).
    apply (proj1 (write_frm E)) in W1 as [F1 S1]; auto.
    assert (NE : lapp r (MCons nm ty count ms2) <> MNil) by (destruct r; discriminate). specialize (P4 NE).
    assert (E1 : e1 = 0).
    { pose proof W as W'. apply (proj2 (write_frm E)) in W' as [_ S2]; auto. destruct (S2 eq_refl) as [S2a _]. destruct (e1 =? 0) eqn:E0; lia. }
    assert (P : (if is_bool ty1 then 8 * byte + bit else up8 (8 * byte + bit)) = 8 * byte + bit).
    { destruct (is_bool ty1); [reflexivity|]. specialize (B2 eq_refl). unfold up8. lia. }
    assert (WW : 0 <= width ty1 c1). { unfold width. destruct (is_bool ty1); nia. }
    set (q := 8 * byte + bit + width ty1 c1) in *.
    assert (PE : p = mbits r q). { unfold p. rewrite mbits_cons by (eapply plain_based, K1). rewrite P. reflexivity. }
    assert (MB : (if is_bool ty then mbits r (8 * b1 + b2) else up8 (mbits r (8 * b1 + b2))) = s).
    { unfold s. rewrite PE, P4. destruct r as [|nm2 ty2 c2 r2]; cbn [lapp head_bool].
      - cbn [mbits]. destruct (is_bool ty); [reflexivity|]. unfold up8. lia.
      - destruct (is_bool ty2) eqn:NB; [reflexivity|]. rewrite !mbits_cons by (eapply plain_based, PLr). rewrite NB.
        replace (up8 (up8 q)) with (up8 q) by (unfold up8; lia). reflexivity. }
    assert (T1 : top w1 = LTab tb). { unfold top. rewrite (S1 E1). exact T. }
    specialize (IH b1 b2 (if e1 =? 0 then err else e1) w1 w' K3 O P1 P2 P3 T1 W k). cbv zeta in IH. rewrite MB in IH.
    destruct (IH K) as [I1 I2]. destruct (f_bits _ _ _ _ F1 k) as [G1 G2].
    + unfold s in K. assert (0 <= up8 p /\ 0 <= p). { pose proof (proj2 plain_tsize r PLr q ltac:(lia)). unfold up8. lia. }
      destruct (is_bool ty); lia.
    + pose proof (proj2 plain_tsize r PLr q ltac:(lia)) as M. rewrite <- PE in M. unfold s in K. unfold up8 in K.
      replace (8 * (off + byte) + bit + width ty1 c1) with (8 * off + q) by (unfold q; lia). destruct (is_bool ty); lia.
    + split; congruence.
Qed.

(** A member that the table does not name keeps its bits (the mask is not set
    there), when the write succeeds *)
Theorem C79_absent_partial : forall E ms1 nm ty count ms2 tb st data mask w,
  plain_ms (lapp ms1 (MCons nm ty count ms2)) -> (forall ms, ty = LC ms -> count = 1) ->
  rawget (KS nm) tb = LNil ->
  lua_to_dax E (LC (lapp ms1 (MCons nm ty count ms2))) 1 {| w_stk := LTab tb :: st; w_data := data; w_mask := mask |} = Done (0, w) ->
  forall k, start ms1 ty <= k < start ms1 ty + width ty count -> bit_of (w_mask w) k = bit_of mask k.
Proof.
  intros E ms1 nm ty count ms2 tb st data mask w PL CC G W k K.
  cbn [lua_to_dax Z.ltb Z.compare Pos.compare Pos.compare_cont] in W. cbn [top w_stk hd is_lnil is_table negb] in W.
  apply (absent_ms E nm ty count ms2 tb 0) with (k := k) in W; auto; try lia.
  - apply W.
  - intros _. destruct ty as [t|ms]; [exact Logic.I|]. apply (CC ms eq_refl).
Qed.

(** An array of a compound type cannot be left out *)
Theorem C79_absent_refuted : forall E nm ms count tb st data mask, 1 < count -> rawget (KS nm) tb = LNil ->
  exists w, lua_to_dax E (LC (MCons nm (LC ms) count MNil)) 1 {| w_stk := LTab tb :: st; w_data := data; w_mask := mask |} = Done (-1, w).
Proof.
  intros E nm ms count tb st data mask C G. cbn [lua_to_dax Z.ltb Z.compare Pos.compare Pos.compare_cont]. cbn [top w_stk hd is_lnil is_table negb].
  cbn [write_ms write_cb]. unfold get_key. cbn [top w_stk hd rbind]. rewrite G. replace (1 <? count) with true by lia.
  replace (Z.to_nat count) with (S (Z.to_nat (count - 1))) by lia. cbn. eauto.
Qed.

(** A wrong value for a whole tag is refused, and nothing is written *)
Theorem C79_refused_partial : forall E ty count v st data mask, is_table v = false -> v <> LNil ->
  (forall s, v <> LStr s) -> (forall t, ty = LB t -> 1 < count) ->
  exists w, lua_to_dax E ty count {| w_stk := v :: st; w_data := data; w_mask := mask |} = Done (-1, w) /\ w_data w = data /\ w_mask w = mask.
Proof.
  intros E ty count v st data mask T N S B. unfold lua_to_dax. destruct ty as [t|ms].
  - unfold pop_base. specialize (B t eq_refl). replace (1 <? count) with true by lia. cbn [top w_stk hd].
    destruct v; try discriminate T; try congruence; try (exfalso; eapply S; reflexivity); (eexists; split; [reflexivity|]; split; reflexivity).
  - destruct (1 <? count) eqn:C.
    + replace (Z.to_nat count) with (Datatypes.S (Z.to_nat (count - 1))) by lia. cbn [cdt_loop]. cbn [top w_stk hd]. rewrite T. cbn [negb].
      eexists. split; [reflexivity|]. split; reflexivity.
    + cbn [top w_stk hd]. rewrite T. destruct v; try congruence; (eexists; split; [reflexivity|]; split; reflexivity).
Qed.
(** But a wrong value for a member leaves the Lua stack wrong, and the next
    member is looked up in something that is not a table *)
Theorem C79_array_refuted : forall E nm t count nm2 ty2 c2 r tb st data mask, 1 < count ->
  (match rawget (KS nm) tb with LBool _ | LInt _ | LNum _ => True | _ => False end) ->
  lua_to_dax E (LC (MCons nm (LB t) count (MCons nm2 ty2 c2 r))) 1 {| w_stk := LTab tb :: st; w_data := data; w_mask := mask |} = Undef UOob.
Proof.
  intros E nm t count nm2 ty2 c2 r tb st data mask C G. cbn [lua_to_dax Z.ltb Z.compare Pos.compare Pos.compare_cont]. cbn [top w_stk hd is_lnil is_table negb].
  cbn [write_ms]. cbn [write_cb]. unfold get_key at 1. cbn [top w_stk hd rbind].
  destruct (next_pos _ _ _ _ _) as [b1 b2]. unfold pop_base. replace (1 <? count) with true by lia.
  destruct (rawget (KS nm) tb); try contradiction; cbn [top push w_stk hd is_lnil rbind pop tl Z.eqb];
  (destruct ty2; cbn [write_cb]; unfold get_key; cbn [top w_stk hd rbind]; reflexivity).
Qed.
Theorem C79_nested_refuted : forall E nm ms nm2 ty2 c2 r tb st data mask,
  is_table (rawget (KS nm) tb) = false -> rawget (KS nm) tb <> LNil ->
  lua_to_dax E (LC (MCons nm (LC ms) 1 (MCons nm2 ty2 c2 r))) 1 {| w_stk := LTab tb :: st; w_data := data; w_mask := mask |} = Undef UOob.
Proof.
  intros E nm ms nm2 ty2 c2 r tb st data mask T N. cbn [lua_to_dax Z.ltb Z.compare Pos.compare Pos.compare_cont]. cbn [top w_stk hd is_lnil is_table negb].
  cbn [write_ms]. cbn [write_cb Z.ltb Z.compare Pos.compare Pos.compare_cont]. unfold get_key at 1. cbn [top w_stk hd rbind push].
  destruct (next_pos _ _ _ _ _) as [b1 b2].
  destruct (rawget (KS nm) tb); try congruence; try discriminate T; cbn [top push w_stk hd is_lnil is_table negb rbind Z.eqb];
  (destruct ty2; cbn [write_cb]; unfold get_key; cbn [top w_stk hd rbind]; reflexivity).
Qed.
(** A string written to an array of BOOL is copied to one byte per bit *)
Theorem C79_bool_refuted : forall E count s st data mask, 2 <= count -> zlen mask = (count - 1) / 8 + 1 ->
  lua_to_dax E (LB T_BOOL) count {| w_stk := LStr s :: st; w_data := data; w_mask := mask |} = Undef UOob.
Proof.
  intros E count s st data mask C M. unfold lua_to_dax, pop_base. replace (1 <? count) with true by lia. cbn [top w_stk hd w_data w_mask].
  replace (in_bounds 0 count (zlen mask)) with false.
  - rewrite andb_false_r. reflexivity.
  - symmetry. apply not_true_iff_false. rewrite in_bounds_iff. lia.
Qed.
(** A number outside the range of the type is undefined *)
Theorem C79_range_refuted : forall E z st data mask, z < 0 \/ 65535 < z -> Z.abs z <= 2 ^ 53 ->
  lua_to_dax E (LB T_UINT) 1 {| w_stk := LInt z :: st; w_data := data; w_mask := mask |} = Undef UOverflow.
Proof.
  intros E z st data mask Z R. unfold lua_to_dax, pop_base, write_from_stack.
  cbn [Z.eqb Pos.eqb orb Z.ltb Z.compare Pos.compare Pos.compare_cont T_BOOL T_BYTE T_SINT T_CHAR T_WORD T_UINT top w_stk hd tonum].
  unfold dbl_of_int. rewrite round_small by lia. unfold dbl_to. replace ((0 <=? z) && (z <=? 65535)) with false by lia. reflexivity.
Qed.

(** A type of three members, the second left out *)
Example C79_ex : let ms1 := MCons (str "a") (LB T_BOOL) 1 MNil in let ms2 := MCons (str "c") (LB T_DINT) 2 MNil in
  let tb := [(KS (str "c"), LTab [(KI 2, LInt 7)]); (KS (str "a"), LBool true)] in
  plain_ms (lapp ms1 (MCons (str "b") (LB T_INT) 1 ms2)) /\ rawget (KS (str "b")) tb = LNil /\ start ms1 (LB T_INT) = 8 /\ width (LB T_INT) 1 = 16 /\
  forall E, lua_to_dax E (LC (lapp ms1 (MCons (str "b") (LB T_INT) 1 ms2))) 1
    {| w_stk := [LTab tb]; w_data := repeat 9 11; w_mask := zeros 11 |} =
    Done (0, {| w_stk := [LTab tb]; w_data := [9; 9; 9; 9; 9; 9; 9; 7; 0; 0; 0]; w_mask := [1; 0; 0; 0; 0; 0; 0; 255; 255; 255; 255] |}).
Proof.
  cbv zeta. split; [cbn; intuition (try lia; discriminate)|]. split; [reflexivity|]. split; [reflexivity|]. split; [reflexivity|].
  intros E. vm_compute. reflexivity.
Qed.
