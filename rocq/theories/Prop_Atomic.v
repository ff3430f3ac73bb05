(** * Prop_Atomic: atomic operations (C36) *)
From Verif Require Import Base Const Types State Events Atomic Server Lib SearchProofs Shape Inv Reach Spec Frame Effects Out DataFrame WRel ModInv IdInv Demo
  Prop_Tags Prop_Data EvSpec EvLoops Prop_Maps Prop_Queue.

(** ** the request *)
Lemma switch_err E st opr h d b e : atomic_switch E st opr h d b = Done (inr e) -> e < 0.
Proof.
  assert (B : forall o, atomic_bin E st o h d b = Done (inr e) -> e < 0).
  { intros o H. unfold atomic_bin in H. destruct (_ || _); [injection H as <-; reflexivity|]. destruct (_ && _).
    - destruct (8 <? _); [discriminate|]. destruct (_ <=? 0); [discriminate|]. destruct (opnd_bytes _ _ _ _ _); [|discriminate]. cbn [rbind] in H.
      cbv zeta in H. destruct (byte_loop _ _ _ _ _); [|discriminate]. cbn [rbind] in H. destruct (bop_neg o); [|discriminate].
      destruct (byte_loop _ _ _ _ _); [|discriminate]. cbn [rbind] in H. destruct (znth _ _); [|discriminate]. destruct (znth _ _); discriminate.
    - destruct (byte_loop _ _ _ _ _); discriminate. }
  assert (C : forall sub, atomic_incdec E st sub h d b = Done (inr e) -> e < 0).
  { intros sub H. unfold atomic_incdec in H. destruct (negb _); [injection H as <-; reflexivity|]. destruct (vkind_of _) as [k|]; [|injection H as <-; reflexivity].
    destruct (rd _ _ _); [|discriminate]. cbn [rbind] in H. destruct (opnd_bytes _ _ _ _ _); [|discriminate]. cbn [rbind] in H.
    cbv zeta in H. destruct k as [w|w|w]; try discriminate. repeat match type of H with context [match ?x with _ => _ end] => destruct x end; discriminate. }
  unfold atomic_switch. repeat match goal with |- (if ?c then _ else _) = _ -> _ => destruct c end; intros H; eauto; try (injection H as <-; reflexivity).
  unfold atomic_not in H. destruct (_ || _); [injection H as <-; reflexivity|]. destruct (_ =? _); [destruct (not_bits _ _ _ _) | destruct (byte_loop _ _ _ _ _)]; discriminate.
Qed.
Lemma atomic_ok E s fd h opr d s' b : stored s (h_index h) b -> maps_avoid s (h_index h) (h_index h) ->
  step E s (OpAtomic fd h opr d) = Done s' -> answered s s' (OResp fd MSG_ATOMIC_OP []) ->
  exists b', atomic_switch E (s_step s) opr h d b = Done (inl b') /\ stored s' (h_index h) b'.
Proof.
  intros (t & T1 & T2 & T3) M H A. apply step_inv in H as (s1 & u & H & ->). cbn [handle_op] in H. unfold h_atomic in H. inv1 H. inv1 H.
  assert (K : forall e s2, reply_err fd MSG_ATOMIC_OP e s2 = Done (s1, u) -> s2 = s -> False).
  { intros e s2 Q ->. unfold reply_err, emit, modify in Q. injection Q as <- _. 
    assert (X : answered s (set_step (set_out s (s_out s ++ [OErr fd MSG_ATOMIC_OP e])) (s_step (set_out s (s_out s ++ [OErr fd MSG_ATOMIC_OP e])) + 1)) (OErr fd MSG_ATOMIC_OP e)) by (exists []; split; [reflexivity | constructor]).
    assert (Z := answered_fun _ _ _ _ A X). discriminate. }
  apply bind_done in H as (s2 & r & H1 & H). destruct (_ && _).
  { apply ret_done in H1 as [-> ->]. cbn [Z.ltb E_READONLY Z.compare] in H. exfalso. eapply K; [exact H | reflexivity]. }
  assert (W := atomic_op_maps _ _ _ _ _ _ _ (h_index h) H1). assert (Sh := atomic_op_shape _ _ _ _ _ _ _ H1).
  assert (M1 : maps_avoid s2 (h_index h) (h_index h)) by (eapply maps_avoid_fk; [exact W | apply Sh | exact M]).
  unfold atomic_op in H1. inv1 H1. destruct (is_custom _). { apply ret_done in H1 as [-> ->]. exfalso. eapply K; [exact H | reflexivity]. }
  rewrite T1 in H1. destruct (_ <? _). { apply ret_done in H1 as [-> ->]. exfalso. eapply K; [exact H | reflexivity]. }
  destruct (_ || _). { apply ret_done in H1 as [-> ->]. exfalso. eapply K; [exact H | reflexivity]. }
  rewrite T3 in H1. apply bind_done in H1 as (s3 & x & H0 & H1). unfold lift in H0. destruct (atomic_switch _ _ _ _ _ _) as [y|] eqn:Sw; [|discriminate]. injection H0 as <- <-.
  destruct y as [b'|e].
  2:{ apply ret_done in H1 as [-> ->]. apply switch_err in Sw. replace (e <? 0) with true in H by lia. exfalso. eapply K; [exact H | reflexivity]. }
  apply bind_done in H1 as (s4 & u4 & H0 & H1). apply ret_done in H1 as [<- ->]. cbn [Z.ltb Z.compare] in H.
  apply bind_done in H as (s5 & u5 & H3 & H). rewrite zlen_nil_resp in H. injection H as <- _. destruct u5.
  exists b'. split; [reflexivity|]. apply stored_step. assert (X : stored s2 (h_index h) b').
  { destruct (commit_spec _ _ _ _ _ _ _ _ _ H0) as (evs & o & x & _ & -> & _).
    eexists. split; [cbn; apply znth_zset_eq; eapply znth_range; eassumption|]. split; [exact T2 | reflexivity]. }
  exact (map_check_stored _ _ _ _ (h_index h) _ _ _ M1 H3 X).
Qed.

(** ** loops over bytes and bits *)
Lemma byte_loop_spec f n : forall k base b b', byte_loop f n k base b = Done b' -> zlen b' = zlen b /\
  (forall j, base + k <= j < base + k + Z.of_nat n -> exists x y, znth b j = Some x /\ f (j - base) x = Done y /\ znth b' j = Some y) /\
  (forall j, ~ (base + k <= j < base + k + Z.of_nat n) -> znth b' j = znth b j).
Proof.
  induction n as [|n IH]; intros k base b b' H; cbn [byte_loop] in H.
  - injection H as <-. split; [reflexivity|]. split; [intros; lia | reflexivity].
  - destruct (znth b (base + k)) as [x|] eqn:B; [|discriminate]. destruct (f k x) as [y|] eqn:F; [|discriminate]. cbn [rbind] in H.
    assert (R := znth_range _ _ _ B). apply IH in H as (L & H1 & H2). rewrite zset_zlen in L. split; [exact L|]. split.
    + intros j Hj. destruct (Z.eq_dec j (base + k)) as [->|N].
      * exists x, y. split; [exact B|]. split; [replace (base + k - base) with k by lia; exact F|]. rewrite H2 by lia. apply znth_zset_eq. exact R.
      * destruct (H1 j ltac:(lia)) as (x' & y' & A1 & A2 & A3). rewrite znth_zset_ne in A1 by congruence. eauto.
    + intros j Hj. rewrite H2 by lia. apply znth_zset_ne. lia.
Qed.
Lemma zseq_znth a n k : 0 <= k < n -> znth (zseq a n) k = Some (a + k).
Proof.
  intros H. unfold zseq. rewrite znth_map. assert (E : znth (seq 0 (Z.to_nat n)) k = Some (Z.to_nat k)); [|rewrite E; cbn; f_equal; lia].
  unfold znth. replace ((0 <=? k) && (k <? zlen (seq 0 (Z.to_nat n)))) with true by (unfold zlen; rewrite seq_length; lia). rewrite nth_error_nth' with (d := 0%nat) by (rewrite seq_length; lia). rewrite seq_nth by lia. reflexivity.
Qed.
Lemma opnd_all E st d : forall n i, 0 <= i -> i + Z.of_nat n = zlen d -> opnd_bytes E st d i n = Done (skipn (Z.to_nat i) d).
Proof.
  induction n as [|n IH]; intros i H1 H2; cbn [opnd_bytes].
  - rewrite skipn_all2 by (unfold zlen in H2; lia). reflexivity.
  - unfold opnd_at. replace ((0 <=? i) && (i <? zlen d)) with true by lia. cbn [rbind]. rewrite IH by lia. cbn [rbind]. f_equal.
    replace (Z.to_nat (i + 1)) with (S (Z.to_nat i)) by lia. unfold nthb. unfold zlen in H2. set (m := Z.to_nat i). assert (m < length d)%nat by lia. clearbody m. clear -H.
    revert m H; induction d as [|x d IHd]; intros m H; cbn in *; [lia|]. destruct m; [reflexivity|]. cbn [skipn nth]. apply IHd. lia.
Qed.
Lemma opnd_whole E st d n : Z.of_nat n = zlen d -> opnd_bytes E st d 0 n = Done d.
Proof. intros H. rewrite opnd_all by lia. reflexivity. Qed.
Lemma byte_bits x j : 0 <= x < 256 -> 8 <= j -> Z.testbit x j = false.
Proof.
  intros H Hj. rewrite <- (Z.mod_small x 256) by exact H. change 256 with (2 ^ 8). apply Z.mod_pow2_bits_high. lia.
Qed.
Lemma bit_out l k : 8 * zlen l <= k -> bit l k = false.
Proof. intros H. unfold bit, nthb. rewrite nth_overflow by (unfold zlen in H; lia). apply Z.bits_0. Qed.
(** bit [8 n + j] of the shifted operand is bit [8 n + j - sh] of the operand *)
Lemma left_shift_bit src size sh n j : bytes_ok src -> zlen src = size -> 0 <= sh < 8 -> 0 <= n < size -> 0 <= j < 8 ->
  Z.testbit (nthb (left_shift src size sh) n) j = (sh <=? 8 * n + j) && bit src (8 * n + j - sh).
Proof.
  intros Bs Ls Hs Hn Hj. unfold left_shift. rewrite (nthb_znth _ _ _ (eq_trans (znth_map _ _ _) (f_equal (option_map _) (zseq_znth 0 size n Hn)))).
  rewrite Z.add_0_l. assert (By : forall i, 0 <= i < size -> 0 <= nthb src i < 256).
  { intros i Hi. assert (Q := znth_nthb src i ltac:(lia)). eapply bytes_ok_znth; eassumption. }
  assert (Lo : Z.testbit (u8 (nthb src n * 2 ^ sh)) j = (sh <=? j) && Z.testbit (nthb src n) (j - sh)).
  { unfold u8. change 256 with (2 ^ 8). rewrite Z.mod_pow2_bits_low by lia. destruct (Z.leb_spec sh j); [rewrite Z.mul_pow2_bits by lia; reflexivity | rewrite Z.mul_pow2_bits_low by lia; reflexivity]. }
  destruct (Z.eqb_spec n 0) as [->|N].
  - rewrite Lo. replace (8 * 0 + j) with j by lia. destruct (Z.leb_spec sh j); [|reflexivity]. unfold bit. cbn [andb]. rewrite Z.div_small, Z.mod_small by lia. reflexivity.
  - rewrite Z.lor_spec, Lo. replace (sh <=? 8 * n + j) with true by lia. cbn [andb]. rewrite Z.div_pow2_bits by lia. unfold bit.
    destruct (Z.leb_spec sh j).
    + rewrite byte_bits by (try apply By; lia). cbn [orb andb]. replace (8 * n + j - sh) with (n * 8 + (j - sh)) by lia. rewrite Z.div_add_l, Z.div_small by lia.
      rewrite (Z.add_comm (n * 8)), Z.mod_add, Z.mod_small by lia. rewrite Z.add_0_r. reflexivity.
    + cbn [andb]. rewrite orb_false_r. replace (8 * n + j - sh) with ((n - 1) * 8 + (8 + j - sh)) by lia. rewrite Z.div_add_l, Z.div_small by lia.
      rewrite (Z.add_comm ((n - 1) * 8)), Z.mod_add, Z.mod_small by lia. rewrite Z.add_0_r. f_equal. lia.
Qed.
Lemma zlen_left_shift src size sh : 0 <= size -> zlen (left_shift src size sh) = size.
Proof. intros H. unfold left_shift. rewrite zlen_map, zlen_zseq. lia. Qed.
Lemma hmask_bit bt c j : 0 <= bt -> 0 <= j < 8 -> Z.testbit (hmask bt c) j = ((bt + c) mod 8 <=? j).
Proof.
  intros Hb Hj. unfold hmask, u8. rewrite Z.add_mod_idemp_r by lia. assert (R := Z.mod_pos_bound (bt + c) 8 ltac:(lia)). set (m := (bt + c) mod 8) in *.
  change 256 with (2 ^ 8). rewrite Z.mod_pow2_bits_low by lia. destruct (Z.leb_spec m j).
  - rewrite Z.mul_pow2_bits by lia. change 255 with (Z.ones 8). rewrite Z.ones_spec_low by lia. reflexivity.
  - rewrite Z.mul_pow2_bits_low by lia. reflexivity.
Qed.
Lemma lmask_bit bt j : 0 <= bt < 8 -> 0 <= j < 8 -> Z.testbit (lmask bt) j = (j <? bt).
Proof.
  intros Hb Hj. unfold lmask. rewrite Z.div_pow2_bits by lia. change 255 with (Z.ones 8). destruct (Z.ltb_spec j bt); [rewrite Z.ones_spec_low by lia | rewrite Z.ones_spec_high by lia]; reflexivity.
Qed.
Lemma nthb_updb l i x j : 0 <= i < zlen l -> 0 <= j < zlen l -> nthb (updb l i x) j = if j =? i then x else nthb l j.
Proof.
  intros H1 H2. transitivity (nthb (zset l i x) j); [|apply nthb_zset; assumption]. unfold updb, zset. replace ((0 <=? i) && (i <? zlen l)) with true by lia. reflexivity.
Qed.
Lemma byte_loop_bits f n k0 base b b' (g : Z -> bool -> bool) : byte_loop f n k0 base b = Done b' -> 0 <= base + k0 ->
  (forall i x y j, k0 <= i < k0 + Z.of_nat n -> 0 <= j < 8 -> znth b (base + i) = Some x -> f i x = Done y -> Z.testbit y j = g (8 * i + j) (Z.testbit x j)) ->
  forall k, 0 <= k -> bit b' k = if (8 * (base + k0) <=? k) && (k <? 8 * (base + k0 + Z.of_nat n)) then g (k - 8 * base) (bit b k) else bit b k.
Proof.
  intros H Hb G k Hk. apply byte_loop_spec in H as (L & H1 & H2). destruct ((8 * (base + k0) <=? k) && _) eqn:B.
  - destruct (H1 (k / 8) ltac:(lia)) as (x & y & A1 & A2 & A3). unfold bit at 1. rewrite (nthb_znth _ _ _ A3).
    rewrite (G (k / 8 - base) x y (k mod 8)); [|lia|lia| |exact A2].
    + f_equal; [lia|]. unfold bit. rewrite (nthb_znth _ _ _ A1). reflexivity.
    + replace (base + (k / 8 - base)) with (k / 8) by lia. exact A1.
  - destruct (Z_lt_le_dec k (8 * zlen b)).
    + unfold bit. destruct (znth_some b (k / 8)) as [x Hx]; [lia|]. rewrite (nthb_znth _ _ _ Hx). rewrite <- H2 in Hx by lia. rewrite (nthb_znth _ _ _ Hx). reflexivity.
    + rewrite !bit_out by lia. reflexivity.
Qed.
Lemma byte_lt v : 0 <= v -> (forall j, 8 <= j -> Z.testbit v j = false) -> v < 256.
Proof.
  intros Hv H. assert (E : v mod 2 ^ 8 = v).
  { apply Z.bits_inj'. intros j Hj. destruct (Z_lt_le_dec j 8); [apply Z.mod_pow2_bits_low; lia|]. rewrite Z.mod_pow2_bits_high, H by lia. reflexivity. }
  assert (B := Z.mod_pos_bound v (2 ^ 8) ltac:(lia)). change (2 ^ 8) with 256 in *. lia.
Qed.
Definition bop_bool (o : bop) : bool -> bool -> bool := match o with BOr | BNor => orb | BAnd | BNand => andb | BXor | BXnor => xorb end.
Lemma bop_base_bit o x y j : Z.testbit (bop_base o x y) j = bop_bool o (Z.testbit x j) (Z.testbit y j).
Proof. destruct o; cbn [bop_base bop_bool]; first [apply Z.lor_spec | apply Z.land_spec | apply Z.lxor_spec]. Qed.
Lemma bop_byte o x y : 0 <= x < 256 -> 0 <= y < 256 -> 0 <= bop_base o x y < 256.
Proof.
  intros Hx Hy. assert (P : 0 <= bop_base o x y) by (destruct o; cbn [bop_base]; first [apply Z.lor_nonneg; lia | apply Z.land_nonneg; lia | apply Z.lxor_nonneg; lia]).
  split; [exact P|]. apply byte_lt; [exact P|]. intros j Hj. rewrite bop_base_bit, !byte_bits by assumption. destruct o; reflexivity.
Qed.
Lemma bit_xor l i y v k : znth l i = Some y -> 0 <= k -> 
  bit (zset l i (Z.lxor y v)) k = xorb (bit l k) ((k / 8 =? i) && Z.testbit v (k mod 8)).
Proof.
  intros H Hk. assert (R := znth_range _ _ _ H). destruct (Z_lt_le_dec k (8 * zlen l)).
  2:{ rewrite !bit_out by (rewrite ?zset_zlen; lia). replace (k / 8 =? i) with false by lia. reflexivity. }
  unfold bit. rewrite nthb_zset by lia.
  destruct (Z.eqb_spec (k / 8) i) as [->|N]; cbn [andb]; [|rewrite xorb_false_r; reflexivity].
  rewrite Z.lxor_spec. rewrite (nthb_znth _ _ _ H). reflexivity.
Qed.

(** ** C36: the logical operations *)
(** the Boolean function that the number of a two-operand logical operation stands for *)
Definition logic (opr : Z) : option (bool -> bool -> bool) :=
  if opr =? 4 then Some orb else if opr =? 5 then Some andb else if opr =? 6 then Some (fun x y => negb (orb x y))
  else if opr =? 7 then Some (fun x y => negb (andb x y)) else if opr =? 8 then Some xorb else if opr =? 9 then Some (fun x y => negb (xorb x y)) else None.
Definition negated (opr : Z) : bool := (opr =? 6) || (opr =? 7) || (opr =? 9).
Lemma logic_bop opr f : logic opr = Some f -> exists o, (forall E st h d b, atomic_switch E st opr h d b = atomic_bin E st o h d b) /\
  bop_neg o = negated opr /\ forall x y, f x y = xorb (bop_bool o x y) (bop_neg o).
Proof.
  unfold logic, atomic_switch. intros H.
  repeat match type of H with context [if ?a =? ?b then _ else _] => destruct (Z.eqb_spec a b) as [->|?] end; try discriminate; injection H as <-; cbn [Z.eqb Pos.eqb].
  1: exists BOr. 2: exists BAnd. 3: exists BNor. 4: exists BNand. 5: exists BXor. 6: exists BXnor.
  all: split; [reflexivity|]; split; [reflexivity|]; intros [] []; reflexivity.
Qed.
(** whole bytes: types other than BOOL, and BOOLs that start at bit 0 and fill whole bytes *)
Definition whole_bytes (h : handle) : Prop := h_type h <> T_BOOL \/ (h_count h mod 8 = 0 /\ h_bit h = 0).
Lemma bin_bytes E st o h d b b' : whole_bytes h -> h_byte h = 0 -> zlen d = h_size h -> bytes_ok b -> bytes_ok d ->
  atomic_bin E st o h d b = Done (inl b') -> zlen b' = zlen b /\
  forall k, 0 <= k -> bit b' k = if k <? 8 * h_size h then xorb (bop_bool o (bit b k) (bit d k)) (bop_neg o) else bit b k.
Proof.
  intros W B0 L Ob Od H. unfold atomic_bin in H. destruct (_ || _); [discriminate|].
  replace ((h_type h =? T_BOOL) && negb ((h_count h mod 8 =? 0) && (h_bit h =? 0))) with false in H by (destruct W as [W|W]; lia).
  destruct (byte_loop _ _ _ _ _) as [b1|] eqn:Lo; [|discriminate]. cbn [rbind] in H. injection H as <-.
  assert (P := zlen_nonneg d). split; [apply byte_loop_spec in Lo; apply Lo|]. intros k Hk. rewrite B0 in Lo.
  rewrite (byte_loop_bits _ _ _ _ _ _ (fun p x => xorb (bop_bool o x (bit d p)) (bop_neg o)) Lo); [|lia| |exact Hk].
  - rewrite Z2Nat.id by lia. rewrite !Z.add_0_l, Z.mul_0_r, Z.sub_0_r. replace (0 <=? k) with true by lia. reflexivity.
  - intros i x y j Hi Hj Hx Hf. rewrite !Z.add_0_l in *. unfold opnd_at in Hf. replace ((0 <=? i) && (i <? zlen d)) with true in Hf by lia. cbn [rbind] in Hf.
    assert (Yb : 0 <= nthb d i < 256) by (eapply bytes_ok_znth; [exact Od | apply (znth_nthb d i); lia]).
    assert (Xb : 0 <= x < 256) by exact (proj1 (bytes_ok_znth b) Ob _ _ Hx).
    assert (Eb : bit d (8 * i + j) = Z.testbit (nthb d i) j).
    { unfold bit. replace (8 * i + j) with (j + i * 8) by lia. rewrite Z.div_add, Z.mod_add, Z.div_small, Z.mod_small by lia. reflexivity. }
    rewrite Eb. destruct (bop_neg o); injection Hf as <-; [rewrite bnot_bit by (try apply bop_byte; assumption); rewrite xorb_true_r | rewrite xorb_false_r]; rewrite bop_base_bit; reflexivity.
Qed.
(** BOOLs in general *)
Lemma temp_bit o d size bt c p : bytes_ok d -> zlen d = size -> 0 <= bt < 8 -> 0 < c -> size = (bt + c + 7) / 8 -> (bt + c) mod 8 <> 0 -> 0 <= p < 8 * size ->
  let temp0 := left_shift d size bt in
  let temp := if bop_and o then first_last temp0 size (fun x => Z.lor x (hmask bt c)) (fun x => Z.lor x (lmask bt))
              else first_last temp0 size (fun x => Z.ldiff x (hmask bt c)) (fun x => Z.ldiff x (lmask bt)) in
  Z.testbit (nthb temp (p / 8)) (p mod 8) = if (bt <=? p) && (p <? bt + c) then bit d (p - bt) else bop_and o.
Proof.
  intros Od L Hb Hc Hs Hm Hp temp0 temp. assert (L0 : zlen temp0 = size) by (apply zlen_left_shift; lia).
  assert (S0 : Z.testbit (nthb temp0 (p / 8)) (p mod 8) = (bt <=? p) && bit d (p - bt)).
  { unfold temp0. rewrite left_shift_bit by (try assumption; lia). replace (8 * (p / 8) + p mod 8) with p by lia. reflexivity. }
  assert (Hi : Z.testbit (hmask bt c) (p mod 8) = ((bt + c) mod 8 <=? p mod 8)) by (apply hmask_bit; lia).
  assert (Lo : Z.testbit (lmask bt) (p mod 8) = (p mod 8 <? bt)) by (apply lmask_bit; lia).
  assert (FL : forall fl ff, nthb (first_last temp0 size fl ff) (p / 8) =
    if p / 8 =? 0 then ff (if size - 1 =? 0 then fl (nthb temp0 0) else nthb temp0 0) else if p / 8 =? size - 1 then fl (nthb temp0 (p / 8)) else nthb temp0 (p / 8)).
  { intros fl ff. unfold first_last. assert (L1 : forall x, zlen (updb temp0 (size - 1) x) = size).
    { intros x. unfold updb, zlen. rewrite upd_length. exact L0. }
    rewrite nthb_updb by (rewrite ?L1; lia). rewrite !nthb_updb by lia. destruct (Z.eqb_spec (p / 8) 0) as [E0|N].
    - rewrite (Z.eqb_sym (size - 1) 0). destruct (Z.eqb_spec 0 (size - 1)) as [Es|]; [rewrite <- Es|]; reflexivity.
    - destruct (Z.eqb_spec (p / 8) (size - 1)) as [Es|]; [rewrite <- Es|]; reflexivity. }
  assert (Q : forall b1 b2 b3 : bool, p / 8 = 0 -> nthb temp0 0 = nthb temp0 (p / 8)) by (intros _ _ _ ->; reflexivity).
  unfold temp. destruct (bop_and o); rewrite FL; destruct (Z.eqb_spec (p / 8) 0) as [E0|N0].
  1,3: rewrite (Q true true true E0); destruct (Z.eqb_spec (size - 1) 0) as [E1|N1]; rewrite ?Z.ldiff_spec, ?Z.lor_spec, ?Hi, ?Lo, S0.
  5,6: destruct (Z.eqb_spec (p / 8) (size - 1)) as [E1|N1]; rewrite ?Z.ldiff_spec, ?Z.lor_spec, ?Hi, S0.
  all: clear Hi Lo FL Q S0 L0 temp temp0 Od; destruct (bit d (p - bt)); rewrite ?andb_true_r, ?andb_false_r, ?orb_false_r, ?orb_false_l, ?andb_false_l; destruct ((bt <=? p) && (p <? bt + c)) eqn:C; lia.
Qed.
(** [k] is a bit that a BOOL handle addresses *)
Definition addressed (h : handle) (k : Z) : bool := (8 * h_byte h + h_bit h <=? k) && (k <? 8 * h_byte h + h_bit h + h_count h).
Lemma bin_bool E st o h d b b' : h_type h = T_BOOL -> 0 <= h_byte h -> 0 <= h_bit h < 8 -> 0 < h_count h -> h_size h = (h_bit h + h_count h + 7) / 8 ->
  (h_bit h + h_count h) mod 8 <> 0 -> (bop_neg o = true -> h_byte h = 0 /\ 2 <= h_size h) ->
  zlen d = h_size h -> bytes_ok b -> bytes_ok d -> atomic_bin E st o h d b = Done (inl b') -> zlen b' = zlen b /\
  forall k, 0 <= k -> bit b' k = if addressed h k then xorb (bop_bool o (bit b k) (bit d (k - (8 * h_byte h + h_bit h)))) (bop_neg o) else bit b k.
Proof.
  intros Ty By Bi Co Sz Mo Ng Ld Ob Od H. unfold atomic_bin in H. rewrite Ty in H. cbn [orb] in H. change (T_BOOL =? T_REAL) with false in H. change (T_BOOL =? T_LREAL) with false in H.
  cbn [orb] in H. rewrite Z.eqb_refl in H. replace (negb ((h_count h mod 8 =? 0) && (h_bit h =? 0))) with true in H by lia. cbn [andb] in H.
  replace (8 <? h_bit h) with false in H by lia. replace (h_size h <=? 0) with false in H by lia. rewrite opnd_whole in H by lia. cbn [rbind] in H. cbv zeta in H.
  set (temp := if bop_and o then _ else _) in H. destruct (byte_loop _ _ _ _ _) as [b1|] eqn:L1; [|discriminate]. cbn [rbind] in H.
  assert (B1 : zlen b1 = zlen b /\ forall k, 0 <= k -> bit b1 k = if addressed h k then bop_bool o (bit b k) (bit d (k - (8 * h_byte h + h_bit h))) else bit b k).
  { split; [apply byte_loop_spec in L1; apply L1|]. intros k Hk.
    rewrite (byte_loop_bits _ _ _ _ _ _ (fun p x => bop_bool o x (if (h_bit h <=? p) && (p <? h_bit h + h_count h) then bit d (p - h_bit h) else bop_and o)) L1); [|lia| |exact Hk].
    - unfold addressed. replace ((h_bit h <=? k - 8 * h_byte h) && (k - 8 * h_byte h <? h_bit h + h_count h)) with ((8 * h_byte h + h_bit h <=? k) && (k <? 8 * h_byte h + h_bit h + h_count h)) by lia.
      destruct ((8 * h_byte h + h_bit h <=? k) && (k <? 8 * h_byte h + h_bit h + h_count h)) eqn:A.
      + replace (_ && _) with true by lia. f_equal. f_equal. lia.
      + match goal with |- (if ?c then _ else _) = _ => destruct c end; [|reflexivity]. destruct o; cbn; first [apply orb_false_r | apply andb_true_r | apply xorb_false_r].
    - intros i x y j Hi Hj Hx Hf. injection Hf as <-. rewrite bop_base_bit. f_equal.
      assert (T := temp_bit o d (h_size h) (h_bit h) (h_count h) (8 * i + j) Od Ld Bi Co Sz Mo ltac:(lia)). cbv zeta in T. fold temp in T.
      replace ((8 * i + j) / 8) with i in T by lia. replace ((8 * i + j) mod 8) with j in T by lia. exact T. }
  destruct B1 as [Lb1 B1]. destruct (bop_neg o) eqn:N.
  2:{ injection H as <-. split; [exact Lb1|]. intros k Hk. rewrite B1 by exact Hk. rewrite xorb_false_r. reflexivity. }
  destruct (Ng eq_refl) as [B0 S2]. destruct (byte_loop _ (Z.to_nat _) 1 _ b1) as [b2|] eqn:L2; [|discriminate]. cbn [rbind] in H.
  destruct (znth b2 _) as [x|] eqn:X; [|discriminate]. destruct (znth _ 0) as [y|] eqn:Y; [|discriminate]. injection H as <-.
  assert (Ob1 : bytes_ok b1).
  { apply bytes_ok_znth. intros j v Hv. apply byte_loop_spec in L1 as (_ & P1 & P2).
    destruct (Z_lt_le_dec j (h_byte h)) as [Q|Q]; [rewrite P2 in Hv by lia; eapply (proj1 (bytes_ok_znth b)); eassumption|].
    destruct (Z_lt_le_dec j (h_byte h + h_size h)) as [Q'|Q']; [|rewrite P2 in Hv by lia; eapply (proj1 (bytes_ok_znth b)); eassumption].
    destruct (P1 j ltac:(lia)) as (x1 & y1 & A1 & A2 & A3). injection A2 as <-. assert (v = bop_base o x1 (nthb temp (j - h_byte h))) by congruence. subst v. apply bop_byte.
    - eapply (proj1 (bytes_ok_znth b)); eassumption.
    - assert (Z0 : forall n, 0 <= n < h_size h -> 0 <= nthb (left_shift d (h_size h) (h_bit h)) n < 256).
      { intros n Hn. unfold left_shift. rewrite (nthb_znth _ _ _ (eq_trans (znth_map _ _ _) (f_equal (option_map _) (zseq_znth 0 (h_size h) n Hn)))).
        rewrite Z.add_0_l. destruct (n =? 0) eqn:N0; [apply u8_byte|]. apply lor_byte; [|apply u8_byte].
        assert (0 <= nthb d (n - 1) < 256) by (eapply (proj1 (bytes_ok_znth d)); [exact Od | apply znth_nthb; lia]).
        split; [apply Z.div_pos; lia|]. apply Z.div_lt_upper_bound; [lia|]. assert (1 <= 2 ^ (8 - h_bit h)) by (change 1 with (2 ^ 0); apply Z.pow_le_mono_r; lia). nia. }
      assert (Hh : 0 <= hmask (h_bit h) (h_count h) < 256) by apply u8_byte.
      assert (Hl : 0 <= lmask (h_bit h) < 256).
      { unfold lmask. split; [apply Z.div_pos; lia|]. apply Z.div_lt_upper_bound; [lia|]. assert (1 <= 2 ^ (8 - h_bit h)) by (change 1 with (2 ^ 0); apply Z.pow_le_mono_r; lia). nia. }
      assert (Dd : forall u v, 0 <= u < 256 -> 0 <= Z.ldiff u v < 256).
      { intros u v Hu. assert (0 <= Z.ldiff u v) by (apply Z.ldiff_nonneg; lia). split; [assumption|]. apply byte_lt; [assumption|]. intros n Hn. rewrite Z.ldiff_spec, byte_bits by assumption. reflexivity. }
      assert (FL : forall fl ff, (forall u, 0 <= u < 256 -> 0 <= fl u < 256) -> (forall u, 0 <= u < 256 -> 0 <= ff u < 256) ->
        0 <= nthb (first_last (left_shift d (h_size h) (h_bit h)) (h_size h) fl ff) (j - h_byte h) < 256).
      { intros fl ff F1 F2. unfold first_last. assert (L3 : zlen (left_shift d (h_size h) (h_bit h)) = h_size h) by (apply zlen_left_shift; lia).
        assert (L4 : forall z, zlen (updb (left_shift d (h_size h) (h_bit h)) (h_size h - 1) z) = h_size h) by (intros z; unfold updb, zlen; rewrite upd_length; exact L3).
        rewrite nthb_updb by (rewrite ?L4; lia). rewrite !nthb_updb by lia. repeat match goal with |- context [if ?c then _ else _] => destruct c end; auto using Z0; try (apply F2); try (apply F1); apply Z0; lia. }
      unfold temp. destruct (bop_and o); apply FL; intros u Hu; first [apply Dd; exact Hu | apply lor_byte; assumption]. }
  assert (L2' := byte_loop_spec _ _ _ _ _ _ L2). split; [rewrite !zset_zlen; lia|]. intros k Hk.
  rewrite (bit_xor _ _ _ _ _ Y) by exact Hk. rewrite (bit_xor _ _ _ _ _ X) by exact Hk.
  rewrite (byte_loop_bits _ _ _ _ _ _ (fun _ x => negb x) L2); [|lia| |exact Hk].
  2:{ intros i u v j Hi Hj Hu Hf. injection Hf as <-. apply bnot_bit; [|exact Hj]. eapply (proj1 (bytes_ok_znth b1)); eassumption. }
  rewrite !bnot_bit by (try lia; first [apply u8_byte | unfold lmask; split; [apply Z.div_pos; lia | apply Z.div_lt_upper_bound; [lia|]; assert (1 <= 2 ^ (8 - h_bit h)) by (change 1 with (2 ^ 0); apply Z.pow_le_mono_r; lia); nia]]).
  rewrite hmask_bit, lmask_bit by lia. rewrite B1 by exact Hk. rewrite B0 in *. unfold addressed in *. rewrite B0.
  set (u := bop_bool o _ _). clearbody u. set (v := bit b k). clearbody v. clear L1 L2 L2' X Y B1 Ob1 temp Ob Od Lb1.
  destruct ((8 * 0 + h_bit h <=? k) && (k <? 8 * 0 + h_bit h + h_count h)) eqn:A.
  - replace (_ && (k <? 8 * (0 + 1 + Z.of_nat (Z.to_nat (h_size h - 2))))) with ((8 <=? k) && (k <? 8 * (h_size h - 1))) by lia.
    destruct ((8 <=? k) && (k <? 8 * (h_size h - 1))) eqn:M.
    + replace (k / 8 =? h_size h - 1) with false by lia. replace (k / 8 =? 0) with false by lia. destruct u; reflexivity.
    + destruct (Z_lt_le_dec k 8).
      * replace (k / 8 =? h_size h - 1) with false by lia. replace (k / 8 =? 0) with true by lia. replace (k mod 8 <? h_bit h) with false by lia. destruct u; reflexivity.
      * replace (k / 8 =? h_size h - 1) with true by lia. replace (k / 8 =? 0) with false by lia. replace ((h_bit h + h_count h) mod 8 <=? k mod 8) with false by lia. destruct u; reflexivity.
  - replace (_ && (k <? 8 * (0 + 1 + Z.of_nat (Z.to_nat (h_size h - 2))))) with false by lia.
    destruct (k / 8 =? h_size h - 1) eqn:M1, (k / 8 =? 0) eqn:M2; try lia; cbn [andb].
    + replace ((h_bit h + h_count h) mod 8 <=? k mod 8) with true by lia. destruct v; reflexivity.
    + replace (k mod 8 <? h_bit h) with true by lia. destruct v; reflexivity.
    + destruct v; reflexivity.
Qed.
(** A logical operation that is answered with success: on whole bytes at the start of the tag (FULL STATEMENT: at any offset -- false, see
    [C36_offset_refuted]) every addressed bit is the Boolean function of its old value and the operand's bit, and no other bit changed *)
Theorem C36_bytes_partial : forall E s fd h opr f d s' b, stored s (h_index h) b -> bytes_ok b -> maps_avoid s (h_index h) (h_index h) ->
  logic opr = Some f -> whole_bytes h -> h_byte h = 0 -> zlen d = h_size h -> bytes_ok d ->
  step E s (OpAtomic fd h opr d) = Done s' -> answered s s' (OResp fd MSG_ATOMIC_OP []) ->
  exists b', stored s' (h_index h) b' /\ zlen b' = zlen b /\
    forall k, 0 <= k -> bit b' k = if k <? 8 * h_size h then f (bit b k) (bit d k) else bit b k.
Proof.
  intros E s fd h opr f d s' b S Ob M Lf W B0 Ld Od H A. destruct (atomic_ok _ _ _ _ _ _ _ _ S M H A) as (b' & Sw & S').
  apply logic_bop in Lf as (o & Lo & _ & Lf). rewrite Lo in Sw. destruct (bin_bytes _ _ _ _ _ _ _ W B0 Ld Ob Od Sw) as [L K].
  exists b'. split; [exact S'|]. split; [exact L|]. intros k Hk. rewrite K by exact Hk. rewrite Lf. reflexivity.
Qed.
(** and on BOOLs at any place (FULL STATEMENT: without the two last conditions on the handle -- false, see [C36_edge_refuted] and
    [C36_negated_refuted]) *)
Theorem C36_bools_partial : forall E s fd h opr f d s' b, stored s (h_index h) b -> bytes_ok b -> maps_avoid s (h_index h) (h_index h) ->
  logic opr = Some f -> h_type h = T_BOOL -> 0 <= h_byte h -> 0 <= h_bit h < 8 -> 0 < h_count h -> h_size h = (h_bit h + h_count h + 7) / 8 ->
  (h_bit h + h_count h) mod 8 <> 0 -> (negated opr = true -> h_byte h = 0 /\ 2 <= h_size h) -> zlen d = h_size h -> bytes_ok d ->
  step E s (OpAtomic fd h opr d) = Done s' -> answered s s' (OResp fd MSG_ATOMIC_OP []) ->
  exists b', stored s' (h_index h) b' /\ zlen b' = zlen b /\
    forall k, 0 <= k -> bit b' k = if addressed h k then f (bit b k) (bit d (k - (8 * h_byte h + h_bit h))) else bit b k.
Proof.
  intros E s fd h opr f d s' b S Ob M Lf Ty By Bi Co Sz Mo Ng Ld Od H A. destruct (atomic_ok _ _ _ _ _ _ _ _ S M H A) as (b' & Sw & S').
  apply logic_bop in Lf as (o & Lo & No & Lf). rewrite Lo in Sw. rewrite <- No in Ng. destruct (bin_bool _ _ _ _ _ _ _ Ty By Bi Co Sz Mo Ng Ld Ob Od Sw) as [L K].
  exists b'. split; [exact S'|]. split; [exact L|]. intros k Hk. rewrite K by exact Hk. rewrite Lf. reflexivity.
Qed.
(** ** C36: NOT *)
Lemma not_bits_spec : forall n bt byte b b', not_bits n bt byte b = Done b' -> 0 <= bt < 8 -> 0 <= byte -> zlen b' = zlen b /\
  forall k, 0 <= k -> bit b' k = if (8 * byte + bt <=? k) && (k <? 8 * byte + bt + Z.of_nat n) then negb (bit b k) else bit b k.
Proof.
  induction n as [|n IH]; intros bt byte b b' H Hb Hy.
  - injection H as <-. split; [reflexivity|]. intros k Hk. replace (_ && _) with false by lia. reflexivity.
  - cbn [not_bits] in H. unfold bmask in H. replace (bt <? 31) with true in H by lia. cbn [rbind] in H. destruct (znth b byte) as [x|] eqn:X; [|discriminate].
    assert (F : forall k, 0 <= k -> bit (zset b byte (Z.lxor x (u8 (2 ^ bt)))) k = if k =? 8 * byte + bt then negb (bit b k) else bit b k).
    { intros k Hk. rewrite (bit_xor _ _ _ _ _ X) by exact Hk. rewrite u8_bit by lia. replace ((k / 8 =? byte) && (k mod 8 =? bt)) with (k =? 8 * byte + bt) by lia.
      destruct (k =? 8 * byte + bt); destruct (bit b k); reflexivity. }
    destruct (Z.eqb_spec (bt + 1) 8) as [E8|N8]; apply IH in H as [L H]; try lia; rewrite zset_zlen in L; (split; [exact L|]); intros k Hk; rewrite H, F by exact Hk.
    + destruct ((8 * byte + bt <=? k) && (k <? 8 * byte + bt + Z.of_nat (S n))) eqn:A, (k =? 8 * byte + bt) eqn:B.
      * replace (_ && _) with false by lia. reflexivity.
      * replace (_ && _) with true by lia. reflexivity.
      * lia.
      * replace (_ && _) with false by lia. reflexivity.
    + destruct ((8 * byte + bt <=? k) && (k <? 8 * byte + bt + Z.of_nat (S n))) eqn:A, (k =? 8 * byte + bt) eqn:B.
      * replace (_ && _) with false by lia. reflexivity.
      * replace (_ && _) with true by lia. reflexivity.
      * lia.
      * replace (_ && _) with false by lia. reflexivity.
Qed.
(** the bits a handle addresses: single bits of a BOOL, else the [size] bytes from [byte] *)
Definition addresses (h : handle) (k : Z) : bool :=
  if h_type h =? T_BOOL then addressed h k else (8 * h_byte h <=? k) && (k <? 8 * (h_byte h + h_size h)).
Theorem C36_not : forall E s fd h d s' b, stored s (h_index h) b -> bytes_ok b -> maps_avoid s (h_index h) (h_index h) ->
  0 <= h_byte h -> 0 <= h_bit h < 8 -> 0 <= h_count h -> 0 <= h_size h ->
  step E s (OpAtomic fd h 3 d) = Done s' -> answered s s' (OResp fd MSG_ATOMIC_OP []) ->
  exists b', stored s' (h_index h) b' /\ zlen b' = zlen b /\ forall k, 0 <= k -> bit b' k = if addresses h k then negb (bit b k) else bit b k.
Proof.
  intros E s fd h d s' b S Ob M Hy Hb Hc Hs H A. destruct (atomic_ok _ _ _ _ _ _ _ _ S M H A) as (b' & Sw & S').
  unfold atomic_switch in Sw. cbn [Z.eqb Pos.eqb] in Sw. unfold atomic_not in Sw. destruct (_ || _); [discriminate|]. exists b'. split; [exact S'|]. unfold addresses.
  destruct (h_type h =? T_BOOL).
  - destruct (not_bits _ _ _ _) as [x|] eqn:N; [|discriminate]. injection Sw as <-. apply not_bits_spec in N as [L N]; [|assumption|assumption]. split; [exact L|].
    intros k Hk. rewrite N by exact Hk. unfold addressed. rewrite Z2Nat.id by exact Hc. reflexivity.
  - destruct (byte_loop _ _ _ _ _) as [x|] eqn:N; [|discriminate]. injection Sw as <-. assert (L := byte_loop_spec _ _ _ _ _ _ N). split; [apply L|].
    intros k Hk. rewrite (byte_loop_bits _ _ _ _ _ _ (fun _ x => negb x) N); [|lia| |exact Hk].
    + rewrite Z2Nat.id by exact Hs. rewrite Z.add_0_r. reflexivity.
    + intros i u v j Hi Hj Hu Hf. injection Hf as <-. apply bnot_bit; [|exact Hj]. eapply (proj1 (bytes_ok_znth b)); eassumption.
Qed.
(** ** C36: increment and decrement *)
(** the width in bytes of the integer types (TIME is missing, see [C36_time_refuted]) *)
Definition int_width (ty : Z) : option Z :=
  if (ty =? T_BYTE) || (ty =? T_SINT) || (ty =? T_CHAR) then Some 1
  else if (ty =? T_WORD) || (ty =? T_INT) || (ty =? T_UINT) then Some 2
  else if (ty =? T_DWORD) || (ty =? T_DINT) || (ty =? T_UDINT) then Some 4
  else if (ty =? T_LWORD) || (ty =? T_LINT) || (ty =? T_ULINT) then Some 8 else None.
Lemma int_kind ty w : int_width ty = Some w -> (vkind_of ty = Some (KU w) \/ vkind_of ty = Some (KS w)) /\ (w = 1 \/ w = 2 \/ w = 4 \/ w = 8).
Proof.
  unfold int_width, vkind_of. intros H.
  destruct (ty =? T_BYTE) eqn:A1; [injection H as <-; auto|]. destruct ((ty =? T_SINT) || (ty =? T_CHAR)) eqn:A2; [replace (_ || _) with true in H by lia; injection H as <-; auto|].
  replace (false || _ || _) with false in H by lia.
  destruct ((ty =? T_UINT) || (ty =? T_WORD)) eqn:A3; [replace (_ || _) with true in H by lia; injection H as <-; auto|].
  destruct (ty =? T_INT) eqn:A4; [replace (_ || _) with true in H by lia; injection H as <-; auto 6|]. replace (_ || false || _) with false in H by lia.
  destruct ((ty =? T_DWORD) || (ty =? T_DINT) || (ty =? T_UDINT)) eqn:A5.
  - injection H as <-. destruct (ty =? T_DINT) eqn:A6; [|replace (_ || _) with true by lia; auto].
    replace ((ty =? T_UDINT) || (ty =? T_DWORD) || (ty =? T_TIME)) with false by (unfold T_DINT, T_UDINT, T_DWORD, T_TIME in *; lia). auto.
  - destruct ((ty =? T_LWORD) || (ty =? T_LINT) || (ty =? T_ULINT)) eqn:A7; [|discriminate]. injection H as <-.
    replace ((ty =? T_UDINT) || (ty =? T_DWORD) || (ty =? T_TIME)) with false by (unfold T_LWORD, T_LINT, T_ULINT, T_UDINT, T_DWORD, T_TIME in *; lia).
    replace (ty =? T_DINT) with false by lia.
    destruct (ty =? T_LINT) eqn:A8; [|replace (_ || _) with true by lia; auto 6]. replace (_ || _) with false by (unfold T_LWORD, T_LINT, T_ULINT in *; lia). auto 6.
Qed.
Lemma wrap_s_mod w x : w = 1 \/ w = 2 \/ w = 4 \/ w = 8 -> (wrap_s w x) mod 256 ^ w = x mod 256 ^ w.
Proof.
  unfold wrap_s, s8, s16, s32, s64, u8, u16, u32, u64. intros [->|[->|[->| ->]]]; cbn [Z.eqb Pos.eqb].
  1: change (256 ^ 1) with 256. 2: change (256 ^ 2) with 65536. 3: change (256 ^ 4) with 4294967296. 4: change (256 ^ 8) with 18446744073709551616. all: cbv zeta; match goal with |- context [if ?c then _ else _] => destruct c end; lia.
Qed.
Lemma kraw_mod k w l : (k = KU w \/ k = KS w) -> w = 1 \/ w = 2 \/ w = 4 \/ w = 8 -> kraw k l mod 256 ^ w = le_val l mod 256 ^ w.
Proof. intros [->| ->] H; cbn [kraw]; [reflexivity | apply wrap_s_mod; exact H]. Qed.
(** the addressed number becomes the sum (or difference) modulo the width of its type and every other byte stays *)
Theorem C36_count : forall E s fd h sub d s' b w, stored s (h_index h) b -> maps_avoid s (h_index h) (h_index h) ->
  int_width (h_type h) = Some w -> zlen d = w ->
  step E s (OpAtomic fd h (if sub : bool then 2 else 1) d) = Done s' -> answered s s' (OResp fd MSG_ATOMIC_OP []) ->
  exists b', stored s' (h_index h) b' /\ zlen b' = zlen b /\ in_bounds (h_byte h) w (zlen b) = true /\
    let old := le_val (slice (h_byte h) w b) in
    le_val (slice (h_byte h) w b') = (if sub then old - le_val d else old + le_val d) mod 256 ^ w /\
    forall k, ~ (h_byte h <= k < h_byte h + w) -> znth b' k = znth b k.
Proof.
  intros E s fd h sub d s' b w S M Iw Ld H A. destruct (atomic_ok _ _ _ _ _ _ _ _ S M H A) as (b' & Sw & S'). clear H A S M.
  assert (I : atomic_incdec E (s_step s) sub h d b = Done (inl b')).
  { unfold atomic_switch in Sw. destruct sub; cbn [Z.eqb Pos.eqb] in Sw; destruct (h_type h =? T_BOOL); try discriminate; exact Sw. }
  clear Sw. unfold atomic_incdec in I. destruct (negb _); [discriminate|]. apply int_kind in Iw as [Kw Ww].
  assert (K : exists k, vkind_of (h_type h) = Some k /\ (k = KU w \/ k = KS w)) by (destruct Kw as [Kw|Kw]; eauto). destruct K as (k & Ek & Kk). rewrite Ek in I. clear Kw Ek.
  assert (Wk : kwidth k = w) by (destruct Kk as [->| ->]; reflexivity). rewrite Wk in I. unfold rd in I. destruct (in_bounds _ _ _) eqn:B; [|discriminate]. cbn [rbind] in I.
  rewrite opnd_whole in I by lia. cbn [rbind] in I. cbv zeta in I. set (a := kraw k (slice (h_byte h) w b)) in I. set (c := kraw k d) in I. set (r := if sub then a - c else a + c) in I.
  assert (I' : b' = splice (h_byte h) (le_bytes (Z.to_nat w) r) b).
  { clear -I Kk Ww. destruct Kk as [->| ->]; [injection I as <-; reflexivity|].
    destruct Ww as [->|[->|[->| ->]]]; [| | destruct (fits32 r) | destruct (fits64 r)]; try discriminate; injection I as <-; reflexivity. }
  clear I. subst b'. assert (Lr : zlen (le_bytes (Z.to_nat w) r) = w) by (rewrite zlen_le_bytes; lia).
  exists (splice (h_byte h) (le_bytes (Z.to_nat w) r) b). split; [exact S'|]. split; [apply zlen_splice; rewrite Lr; exact B|]. split; [reflexivity|]. cbv zeta.
  split.
  - replace (slice (h_byte h) w (splice (h_byte h) (le_bytes (Z.to_nat w) r) b)) with (le_bytes (Z.to_nat w) r).
    2:{ symmetry. rewrite <- Lr at 1. apply slice_splice_same. rewrite Lr. exact B. }
    rewrite le_val_le_bytes. rewrite Z2Nat.id by lia. assert (P : 256 ^ w <> 0) by (destruct Ww as [->|[->|[->| ->]]]; discriminate).
    unfold r. destruct sub.
    + rewrite Zminus_mod. unfold a, c. rewrite !(kraw_mod k w) by assumption. rewrite <- Zminus_mod. reflexivity.
    + rewrite Zplus_mod. unfold a, c. rewrite !(kraw_mod k w) by assumption. rewrite <- Zplus_mod. reflexivity.
  - intros j Hj. destruct (Z_lt_le_dec j 0); [rewrite !(proj2 (znth_none _ _)) by lia; reflexivity|]. rewrite znth_splice by (try rewrite Lr; assumption). rewrite Lr. replace (_ && _) with false by lia. reflexivity.
Qed.
(** ** Refutations and examples *)
Definition at_ops := demo_ops ++ [OpTagAdd 5 (str "bits") T_BOOL 24 0; OpWrite 5 16 0 [85; 85; 85]; OpTagAdd 5 (str "when") T_TIME 1 0; OpWrite 5 17 0 [255; 255; 255; 255; 0; 0; 0; 0]].
Definition at_state : server := after_ops envS at_ops.
Lemma at_reachable : reachable envS at_state.
Proof. apply after_reachable. vm_compute. reflexivity. Qed.
Definition atomic_result (h : handle) (opr : Z) (d : list Z) : server := after_ops envS (at_ops ++ [OpAtomic 5 h opr d]).
Ltac stored_tac := eexists; (split; [vm_compute; reflexivity|]; split; vm_compute; reflexivity).
Ltac answer_tac := exists []; split; [vm_compute; reflexivity | constructor].
(** OR of the second DINT of foo with 16: the server does not use the operand but what lies behind it in its buffer *)
Theorem C36_offset_refuted : exists E s h d s', reachable E s /\ h = mk_h 13 4 0 1 4 T_DINT /\ d = [16; 0; 0; 0] /\ step E s (OpAtomic 5 h 4 d) = Done s' /\
  answered s s' (OResp 5 MSG_ATOMIC_OP []) /\ stored s 13 ([0; 0; 0; 0; 1; 2; 3; 4] ++ zeros 32) /\
  stored s' 13 ([0; 0; 0; 0; Z.lor 1 165; Z.lor 2 165; Z.lor 3 165; Z.lor 4 165] ++ zeros 32).
Proof.
  exists envS, at_state, (mk_h 13 4 0 1 4 T_DINT), [16; 0; 0; 0], (atomic_result (mk_h 13 4 0 1 4 T_DINT) 4 [16; 0; 0; 0]). split; [exact at_reachable|]. split; [reflexivity|]. split; [reflexivity|].
  split; [vm_compute; reflexivity|]. split; [answer_tac|]. split; stored_tac.
Qed.
(** OR of bits 4..7 with ones: nothing is set when the addressed bits end at a byte boundary *)
Theorem C36_edge_refuted : exists E s h s', reachable E s /\ h = mk_h 16 0 4 4 1 T_BOOL /\ step E s (OpAtomic 5 h 4 [15]) = Done s' /\
  answered s s' (OResp 5 MSG_ATOMIC_OP []) /\ stored s 16 [85; 85; 85; 0] /\ stored s' 16 [85; 85; 85; 0].
Proof.
  exists envS, at_state, (mk_h 16 0 4 4 1 T_BOOL), (atomic_result (mk_h 16 0 4 4 1 T_BOOL) 4 [15]). split; [exact at_reachable|]. split; [reflexivity|].
  split; [vm_compute; reflexivity|]. split; [answer_tac|]. split; stored_tac.
Qed.
(** NOR of bits 1..3 with zeros: the bits beside them are inverted and they themselves are not *)
Theorem C36_negated_refuted : exists E s h s', reachable E s /\ h = mk_h 16 0 1 3 1 T_BOOL /\ step E s (OpAtomic 5 h 6 [0]) = Done s' /\
  answered s s' (OResp 5 MSG_ATOMIC_OP []) /\ stored s 16 [85; 85; 85; 0] /\ stored s' 16 [164; 85; 85; 0].
Proof.
  exists envS, at_state, (mk_h 16 0 1 3 1 T_BOOL), (atomic_result (mk_h 16 0 1 3 1 T_BOOL) 6 [0]). split; [exact at_reachable|]. split; [reflexivity|].
  split; [vm_compute; reflexivity|]. split; [answer_tac|]. split; stored_tac.
Qed.
(** a TIME is incremented in its low half only *)
Theorem C36_time_refuted : exists E s h s', reachable E s /\ h = mk_h 17 0 0 1 8 T_TIME /\ step E s (OpAtomic 5 h 1 (le_bytes 8 1)) = Done s' /\
  answered s s' (OResp 5 MSG_ATOMIC_OP []) /\ stored s 17 (le_bytes 8 (2 ^ 32 - 1)) /\ stored s' 17 (le_bytes 8 0).
Proof.
  exists envS, at_state, (mk_h 17 0 0 1 8 T_TIME), (atomic_result (mk_h 17 0 0 1 8 T_TIME) 1 (le_bytes 8 1)). split; [exact at_reachable|]. split; [reflexivity|].
  split; [vm_compute; reflexivity|]. split; [answer_tac|]. split; stored_tac.
Qed.
(** a handle that ends behind the tag is not refused: the server writes behind the tag's memory *)
Theorem C36_bounds_refuted : exists E s h b, reachable E s /\ stored s (h_index h) b /\ zlen b <= h_byte h /\ step E s (OpAtomic 5 h 3 []) = Undef UOob.
Proof.
  exists envS, at_state, (mk_h 15 8 0 1 2 T_INT), [0; 0; 0; 0; 0; 0; 0; 0]. split; [exact at_reachable|]. split; [stored_tac|]. split; [discriminate|]. vm_compute. reflexivity.
Qed.
Lemma avoid_none s i : option_map t_maps (znth (s_db s) i) = Some (Some []) -> maps_avoid s i i.
Proof. intros H t l Ht Hl. rewrite Ht in H. cbn in H. assert (l = []) by congruence. subst. constructor. Qed.
(** cases that meet the hypotheses: OR of two DINTs, XNOR of ten BOOLs, NOT of ten BOOLs, decrement of an INT through zero *)
Example C36_ex : let h1 := mk_h 13 0 0 2 8 T_DINT in let h2 := mk_h 16 0 3 10 2 T_BOOL in let h3 := mk_h 15 2 0 1 2 T_INT in
  maps_avoid at_state 13 13 /\ maps_avoid at_state 16 16 /\ maps_avoid at_state 15 15 /\
  stored at_state 13 ([0; 0; 0; 0; 1; 2; 3; 4] ++ zeros 32) /\ stored at_state 16 [85; 85; 85; 0] /\ whole_bytes h1 /\
  step envS at_state (OpAtomic 5 h1 4 [1; 2; 3; 4; 5; 6; 7; 8]) = Done (atomic_result h1 4 [1; 2; 3; 4; 5; 6; 7; 8]) /\
  stored (atomic_result h1 4 [1; 2; 3; 4; 5; 6; 7; 8]) 13 ([1; 2; 3; 4; 5; 6; 7; 12] ++ zeros 32) /\
  step envS at_state (OpAtomic 5 h2 9 [0; 0]) = Done (atomic_result h2 9 [0; 0]) /\ stored (atomic_result h2 9 [0; 0]) 16 [173; 74; 85; 0] /\
  step envS at_state (OpAtomic 5 h2 3 [0; 0]) = Done (atomic_result h2 3 [0; 0]) /\ stored (atomic_result h2 3 [0; 0]) 16 [173; 74; 85; 0] /\
  step envS at_state (OpAtomic 5 h3 2 [1; 0]) = Done (atomic_result h3 2 [1; 0]) /\ stored (atomic_result h3 2 [1; 0]) 15 [0; 0; 255; 255; 0; 0; 0; 0].
Proof.
  split; [apply avoid_none; vm_compute; reflexivity|]. split; [apply avoid_none; vm_compute; reflexivity|]. split; [apply avoid_none; vm_compute; reflexivity|].
  split; [stored_tac|]. split; [stored_tac|]. split; [left; discriminate|].
  split; [vm_compute; reflexivity|]. split; [stored_tac|]. split; [vm_compute; reflexivity|]. split; [stored_tac|]. split; [vm_compute; reflexivity|]. split; [stored_tac|].
  split; [vm_compute; reflexivity|]. stored_tac.
Qed.
