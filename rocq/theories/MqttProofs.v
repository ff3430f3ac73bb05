(** * MqttProofs: the conversion of Lua values does not depend on the old mask *)
From Verif Require Import Base Const Lib LuaConv LuaConvProofs.

(** Lua strings consist of bytes *)
Fixpoint vok (v : lval) : Prop :=
  match v with
  | LStr s => bytes_ok s
  | LTab t => (fix go (l : list (key * lval)) : Prop := match l with [] => True | (_, x) :: l => vok x /\ go l end) t
  | _ => True
  end.
Lemma vok_get k t : vok (LTab t) -> vok (rawget k t).
Proof.
  induction t as [|[k' x] t IH]; intros V; [exact I|]. cbn [rawget]. destruct V as [V1 V2]. destruct (key_eqb k k'); [exact V1|]. apply IH. exact V2.
Qed.
Lemma vok_needed : vok needed.
Proof. cbn. repeat constructor; lia. Qed.

Definition same (a b : lw) : Prop :=
  w_stk a = w_stk b /\ w_data a = w_data b /\ zlen (w_mask a) = zlen (w_mask b) /\ Forall vok (w_stk a) /\ bytes_ok (w_data a).
Definition both (p q : run lw) : Prop := match p, q with Done a, Done b => same a b | Undef u, Undef v => u = v | _, _ => False end.
Definition both2 (p q : run (Z * lw)) : Prop :=
  match p, q with Done (e, a), Done (f, b) => e = f /\ same a b | Undef u, Undef v => u = v | _, _ => False end.

Lemma both_bind p q f g : both p q -> (forall a b, same a b -> both (f a) (g b)) -> both (rbind p f) (rbind q g).
Proof. destruct p, q; cbn; intros H K; try contradiction; auto. Qed.
Lemma both_bind2 p q f g : both p q -> (forall a b, same a b -> both2 (f a) (g b)) -> both2 (rbind p f) (rbind q g).
Proof. destruct p, q; cbn; intros H K; try contradiction; auto. Qed.
Lemma both2_bind p q f g : both2 p q -> (forall e a b, same a b -> both2 (f (e, a)) (g (e, b))) -> both2 (rbind p f) (rbind q g).
Proof. destruct p as [[e a]|u], q as [[e' b]|u']; cbn; intros H K; try contradiction; auto. destruct H as [<- H]. auto. Qed.

Lemma same_top a b : same a b -> top a = top b.
Proof. intros (A & _). unfold top. rewrite A. reflexivity. Qed.
Lemma same_top_ok a b : same a b -> vok (top a).
Proof. intros (_ & _ & _ & F & _). unfold top. destruct (w_stk a); [exact I|]. inversion F; subst. assumption. Qed.
Lemma same_pop a b : same a b -> same (pop a) (pop b).
Proof. intros (A & B & C & D & F). unfold same, pop. cbn. rewrite A. do 3 (split; [auto|]). split; [|exact F]. rewrite A in D. destruct (w_stk b); [constructor|]. inversion D; subst. assumption. Qed.
Lemma same_push v a b : vok v -> same a b -> same (push v a) (push v b).
Proof. intros V (A & B & C & D & F). unfold same, push. cbn. rewrite A. do 3 (split; [auto|]). split; [|exact F]. constructor; [exact V|]. rewrite <- A. exact D. Qed.
Lemma get_key_both k a b : same a b -> both (get_key k a) (get_key k b).
Proof.
  intros S. unfold get_key. rewrite <- (same_top _ _ S). pose proof (same_top_ok _ _ S) as V. destruct (top a); cbn; auto.
  apply same_push; [apply vok_get; exact V|exact S].
Qed.
Lemma byte_small x : 0 <= x -> (forall j, 8 <= j -> Z.testbit x j = false) -> 0 <= x < 256.
Proof.
  intros X B. split; [exact X|]. assert (E : x = x mod 2 ^ 8).
  { apply Z.bits_inj. intros j. destruct (Z.neg_nonneg_cases j); [rewrite !Z.testbit_neg_r by lia; reflexivity|].
    destruct (Z.lt_ge_cases j 8); [rewrite Z.mod_pow2_bits_low by lia; reflexivity|]. rewrite Z.mod_pow2_bits_high by lia. apply B. lia. }
  change (2 ^ 8) with 256 in E. lia.
Qed.
Lemma byte_above x j : 0 <= x < 256 -> 8 <= j -> Z.testbit x j = false.
Proof.
  intros X J. replace x with (x mod 2 ^ 8) by (change (2 ^ 8) with 256; lia). apply Z.mod_pow2_bits_high. lia.
Qed.
Lemma setbit_byte x k : 0 <= x < 256 -> 0 <= k < 8 -> 0 <= Z.setbit x k < 256.
Proof.
  intros X K. apply byte_small; [unfold Z.setbit; apply Z.lor_nonneg; split; [lia|apply Z.shiftl_nonneg; lia]|].
  intros j J. rewrite Z.setbit_neq by lia. apply byte_above; lia.
Qed.
Lemma clearbit_byte x k : 0 <= x < 256 -> 0 <= k < 8 -> 0 <= Z.clearbit x k < 256.
Proof.
  intros X K. apply byte_small; [unfold Z.clearbit; apply Z.ldiff_nonneg; lia|]. intros j J. rewrite Z.clearbit_neq by lia. apply byte_above; lia.
Qed.
Lemma bytes_ok_updb l i x : bytes_ok l -> 0 <= x < 256 -> bytes_ok (updb l i x).
Proof.
  intros L X. unfold updb. generalize (Z.to_nat i) as n. induction L as [|y l Y L IH]; intros n; [destruct n; constructor|].
  destruct n; cbn [upd]; constructor; auto. apply IH.
Qed.
Lemma put_bytes_both off new a b : bytes_ok new -> same a b -> both (put_bytes off new a) (put_bytes off new b).
Proof.
  intros N (A & B & C & D & F). unfold put_bytes. rewrite B, C. destruct (_ && _) eqn:Q; [|reflexivity]. apply andb_prop in Q as [Q1 Q2]. cbn. unfold same. cbn.
  split; [exact A|]. split; [reflexivity|]. split; [|split; [exact D|apply bytes_ok_splice; [exact N|rewrite <- B; exact F]]].
  rewrite !zlen_splice; [exact C|unfold zlen in *; rewrite repeat_length; assumption|rewrite C; unfold zlen in *; rewrite repeat_length; assumption].
Qed.
Lemma put_bit_both off bit v a b : same a b -> both (put_bit off bit v a) (put_bit off bit v b).
Proof.
  intros (A & B & C & D & F). unfold put_bit. rewrite B, C. destruct (_ && _) eqn:Q; [|reflexivity]. cbn. unfold same. cbn.
  split; [exact A|]. split; [reflexivity|]. split; [rewrite !zlen_updb; exact C|]. split; [exact D|].
  apply bytes_ok_updb; [rewrite <- B; exact F|]. rewrite B in F. pose proof (nthb_byte _ (off + bit / 8) F) as Y.
  pose proof (Z.mod_pos_bound bit 8 ltac:(lia)).
  destruct v; [apply setbit_byte|apply clearbit_byte]; auto.
Qed.

Lemma write_from_stack_both E t idx off a b : same a b -> both (write_from_stack E t idx off a) (write_from_stack E t idx off b).
Proof.
  intros S. unfold write_from_stack. rewrite <- (same_top _ _ S).
  repeat match goal with
  | |- both (if ?c then _ else _) _ => destruct c
  | |- both (put_bytes _ _ _) _ => apply put_bytes_both; [apply le_bytes_ok|exact S]
  | |- both (rbind (dbl_to ?lo ?hi ?x) _) _ => destruct (dbl_to lo hi x); [cbn [rbind]|reflexivity]
  | |- both (Done _) _ => exact S
  end.
Qed.
Lemma pop_loop_both E : forall k n t bit off a b, same a b -> both (pop_loop E k n t bit off a) (pop_loop E k n t bit off b).
Proof.
  induction k as [|k IH]; intros n t bit off a b S; cbn [pop_loop]; [exact S|].
  apply both_bind; [apply get_key_both; exact S|]. intros a1 b1 S1. rewrite <- (same_top _ _ S1). apply both_bind.
  - destruct (is_lnil _); [exact S1|]. destruct (t =? T_BOOL); [apply put_bit_both; exact S1|apply write_from_stack_both; exact S1].
  - intros a2 b2 S2. apply IH. apply same_pop. exact S2.
Qed.
Lemma pop_base_both E t count bit off a b : same a b -> both2 (pop_base E t count bit off a) (pop_base E t count bit off b).
Proof.
  intros S. unfold pop_base. rewrite <- (same_top _ _ S). pose proof (same_top_ok _ _ S) as V. destruct (1 <? count).
  - destruct (top a) as [| | | |s|tb]; try (cbn [both2]; split; [reflexivity|apply same_push; [apply vok_needed|exact S]]).
    + cbv zeta. destruct S as (A & B & C & D & F). rewrite B, C. destruct (_ && _) eqn:Q; [|reflexivity]. apply andb_prop in Q as [Q1 Q2].
      cbn [both2]. split; [reflexivity|]. unfold same. cbn [w_stk w_data w_mask].
      assert (P : 0 <= count) by (apply in_bounds_iff in Q2; lia).
      split; [exact A|]. split; [reflexivity|].
      split; [rewrite !zlen_splice; [exact C| |]; unfold zlen in *; rewrite repeat_length, Z2Nat.id by lia; rewrite ?C; exact Q2|].
      split; [exact D|]. apply bytes_ok_splice; [|rewrite <- B; exact F]. cbn [vok] in V. unfold bytes_ok in *.
      rewrite <- (firstn_skipn (Z.to_nat count) s) in V. apply Forall_app in V as [V _]. exact V.
    + apply both_bind2; [apply pop_loop_both; exact S|]. intros a1 b1 S1. cbn [both2]. auto.
  - destruct (t =? T_BOOL).
    + apply both_bind2; [apply put_bit_both; exact S|]. intros a1 b1 S1. cbn [both2]. auto.
    + apply both_bind2; [apply write_from_stack_both; exact S|]. intros a1 b1 S1. cbn [both2]. auto.
Qed.
Lemma cdt_loop_both f : (forall n a b, same a b -> both2 (f n a) (f n b)) -> forall k n a b, same a b -> both2 (cdt_loop k n f a) (cdt_loop k n f b).
Proof.
  intros HF. induction k as [|k IH]; intros n a b S; cbn [cdt_loop]; [split; [reflexivity|exact S]|]. rewrite <- (same_top _ _ S).
  destruct (negb _); [split; [reflexivity|apply same_push; [apply vok_needed|exact S]]|].
  apply both_bind2; [apply get_key_both; exact S|]. intros a1 b1 S1. rewrite <- (same_top _ _ S1).
  destruct (is_lnil _); [apply IH, same_pop; exact S1|]. destruct (negb _); [split; [reflexivity|apply same_push; [apply vok_needed|apply same_pop; exact S1]]|].
  apply both2_bind; [apply HF; exact S1|]. intros e a2 b2 S2. destruct (e =? 0); [apply IH, same_pop; exact S2|split; [reflexivity|apply same_pop; exact S2]].
Qed.
Lemma write_both E :
  (forall ty nm count bit off a b, same a b -> both2 (write_cb E ty nm count bit off a) (write_cb E ty nm count bit off b)) /\
  (forall ms byte bit off err a b, same a b -> both2 (write_ms E ms byte bit off err a) (write_ms E ms byte bit off err b)).
Proof.
  apply lty_lms_ind.
  - intros t nm count bit off a b S. cbn [write_cb]. apply both_bind2; [apply get_key_both; exact S|]. intros a1 b1 S1. rewrite <- (same_top _ _ S1).
    apply both2_bind; [destruct (is_lnil _); [split; [reflexivity|exact S1]|apply pop_base_both; exact S1]|].
    intros e a2 b2 S2. split; [reflexivity|apply same_pop; exact S2].
  - intros ms IH nm count bit off a b S. cbn [write_cb]. apply both_bind2; [apply get_key_both; exact S|]. intros a1 b1 S1. rewrite <- (same_top _ _ S1).
    destruct (1 <? count).
    + apply both2_bind; [apply cdt_loop_both; [intros n a2 b2 S2; apply IH; exact S2|exact S1]|].
      intros e a2 b2 S2. destruct (e =? 0); split; try reflexivity; [apply same_pop; exact S2|exact S2].
    + destruct (is_lnil _); [split; [reflexivity|apply same_pop; exact S1]|]. destruct (negb _); [split; [reflexivity|apply same_push; [apply vok_needed|exact S1]]|].
      apply both2_bind; [apply IH; exact S1|]. intros e a2 b2 S2. destruct (e =? 0); split; try reflexivity; [apply same_pop; exact S2|exact S2].
  - intros byte bit off err a b S. split; [reflexivity|exact S].
  - intros nm ty IHt count r IHr byte bit off err a b S. cbn [write_ms]. apply both2_bind; [apply IHt; exact S|].
    intros e a1 b1 S1. destruct (next_pos _ _ _ _ _). apply IHr. exact S1.
Qed.
Lemma lua_to_dax_both E ty count a b : same a b -> both2 (lua_to_dax E ty count a) (lua_to_dax E ty count b).
Proof.
  intros S. unfold lua_to_dax. destruct ty as [t|ms]; [apply pop_base_both; exact S|]. rewrite <- (same_top _ _ S). destruct (1 <? count).
  - apply cdt_loop_both; [|exact S]. intros n a1 b1 S1. apply (proj2 (write_both E)). exact S1.
  - destruct (is_lnil _); [split; [reflexivity|exact S]|]. destruct (negb _); [split; [reflexivity|apply same_push; [apply vok_needed|exact S]]|].
    apply (proj2 (write_both E)). exact S.
Qed.
