(** * EvLoops: what the loops of events.c compute *)
From Verif Require Import Base Const Types State Events Lib Spec.

(** ** _event_change on bytes *)
Lemma change_loop_spec n : forall pt pd test data hit test' h, 0 <= pt -> 0 <= pd ->
  change_loop n pt pd test data hit = Done (test', h) ->
  zlen test' = zlen test /\
  (forall k, znth test' k = if (pt <=? k) && (k <? pt + Z.of_nat n) then znth data (pd + (k - pt)) else znth test k) /\
  (h = true <-> hit = true \/ exists k, 0 <= k < Z.of_nat n /\ znth test (pt + k) <> znth data (pd + k)).
Proof.
  induction n as [|n IH]; intros pt pd test data hit test' h Hpt Hpd H; cbn [change_loop] in H.
  - injection H as <- <-. split; [reflexivity|]. split; [intros k; replace ((pt <=? k) && (k <? pt + Z.of_nat 0)) with false by lia; reflexivity|].
    split; [tauto|]. intros [A|(k & A & _)]; [exact A | lia].
  - destruct (znth test pt) as [a|] eqn:A; [|discriminate]. destruct (znth data pd) as [b|] eqn:B; [|discriminate].
    assert (Rt := znth_range _ _ _ A). rewrite Nat2Z.inj_succ.
    destruct (Z.eqb_spec a b) as [->|Ne]; apply IH in H; try lia; destruct H as (P1 & P2 & P3).
    + split; [exact P1|]. split.
      * intros k. rewrite P2. destruct (Z.eq_dec k pt) as [->|Nk].
        -- replace ((pt + 1 <=? pt) && _) with false by lia. replace ((pt <=? pt) && (pt <? pt + Z.succ (Z.of_nat n))) with true by lia.
           rewrite A. replace (pd + (pt - pt)) with pd by lia. rewrite B. reflexivity.
        -- replace ((pt + 1 <=? k) && (k <? pt + 1 + Z.of_nat n)) with ((pt <=? k) && (k <? pt + Z.succ (Z.of_nat n))) by lia.
           replace (pd + 1 + (k - (pt + 1))) with (pd + (k - pt)) by lia. reflexivity.
      * rewrite P3. split; (intros [Q|(k & Q1 & Q2)]; [left; exact Q|]).
        -- right. exists (k + 1). split; [lia|]. replace (pt + (k + 1)) with (pt + 1 + k) by lia. replace (pd + (k + 1)) with (pd + 1 + k) by lia. exact Q2.
        -- right. destruct (Z.eq_dec k 0) as [->|Nk]; [rewrite !Z.add_0_r, A, B in Q2; congruence|]. exists (k - 1). split; [lia|].
           replace (pt + 1 + (k - 1)) with (pt + k) by lia. replace (pd + 1 + (k - 1)) with (pd + k) by lia. exact Q2.
    + split; [rewrite P1; apply zset_zlen|]. split.
      * intros k. rewrite P2. destruct (Z.eq_dec k pt) as [->|Nk].
        -- replace ((pt + 1 <=? pt) && _) with false by lia. replace ((pt <=? pt) && (pt <? pt + Z.succ (Z.of_nat n))) with true by lia.
           rewrite znth_zset_eq by exact Rt. replace (pd + (pt - pt)) with pd by lia. congruence.
        -- replace ((pt + 1 <=? k) && (k <? pt + 1 + Z.of_nat n)) with ((pt <=? k) && (k <? pt + Z.succ (Z.of_nat n))) by lia.
           replace (pd + 1 + (k - (pt + 1))) with (pd + (k - pt)) by lia. rewrite znth_zset_ne by congruence. reflexivity.
      * rewrite P3. split; [intros _ | intros _; left; reflexivity]. right. exists 0. split; [lia|]. rewrite !Z.add_0_r, A, B. congruence.
Qed.

(** ** the bit loops *)
(** [f] gives the remembered bit the value [g now] and hits when that goes from false to true *)
Definition edge (f : Z -> Z -> Z -> Z * bool) (g : bool -> bool) : Prop :=
  forall j a b, 0 <= j < 8 -> (forall k, 0 <= k -> Z.testbit (fst (f (2 ^ j) a b)) k = if k =? j then g (Z.testbit b j) else Z.testbit a k) /\
    snd (f (2 ^ j) a b) = g (Z.testbit b j) && negb (Z.testbit a j).
Lemma land_pow2 a j : 0 <= j -> (Z.land a (2 ^ j) =? 0) = negb (Z.testbit a j).
Proof.
  intros J. destruct (Z.testbit a j) eqn:T; cbn.
  - apply Z.eqb_neq. intros Q. assert (X : Z.testbit (Z.land a (2 ^ j)) j = false) by (rewrite Q; apply Z.bits_0).
    rewrite Z.land_spec, Z.pow2_bits_true, T in X by exact J. discriminate.
  - apply Z.eqb_eq. apply Z.bits_inj'. intros k K. rewrite Z.land_spec, Z.bits_0, Z.pow2_bits_eqb by exact J.
    destruct (Z.eqb_spec j k) as [->|]; [rewrite T; reflexivity | apply andb_false_r].
Qed.
Lemma lor_pow2 a j k : 0 <= j -> Z.testbit (Z.lor a (2 ^ j)) k = if k =? j then true else Z.testbit a k.
Proof. intros J. rewrite Z.lor_spec, Z.pow2_bits_eqb, Z.eqb_sym by exact J. destruct (k =? j); [apply orb_true_r | apply orb_false_r]. Qed.
Lemma ldiff_pow2 a j k : 0 <= j -> Z.testbit (Z.ldiff a (2 ^ j)) k = if k =? j then false else Z.testbit a k.
Proof. intros J. rewrite Z.ldiff_spec, Z.pow2_bits_eqb, Z.eqb_sym by exact J. destruct (k =? j); [apply andb_false_r | apply andb_true_r]. Qed.
Lemma f_set_edge : edge f_set (fun x => x).
Proof.
  intros j a b J. unfold f_set. rewrite !land_pow2, negb_involutive by lia. destruct (Z.testbit b j) eqn:B; cbn.
  - destruct (Z.testbit a j) eqn:A; cbn; (split; [|reflexivity]); intros k K.
    + destruct (Z.eqb_spec k j) as [->|]; [exact A | reflexivity].
    + apply lor_pow2; lia.
  - split; [|reflexivity]. intros k K. apply ldiff_pow2. lia.
Qed.
Lemma f_reset_edge : edge f_reset negb.
Proof.
  intros j a b J. unfold f_reset. rewrite !land_pow2 by lia. destruct (Z.testbit b j) eqn:B; cbn.
  - split; [|reflexivity]. intros k K. apply ldiff_pow2. lia.
  - destruct (Z.testbit a j) eqn:A; cbn; (split; [|reflexivity]); intros k K.
    + destruct (Z.eqb_spec k j) as [->|]; [exact A | reflexivity].
    + apply lor_pow2; lia.
Qed.
Lemma bmask_small b : 0 <= b < 8 -> bmask b = Done (2 ^ b).
Proof.
  intros H. unfold bmask. replace (b <? 31) with true by lia. f_equal. unfold u8. apply Z.mod_small. split; [apply Z.pow_nonneg; lia|].
  change 256 with (2 ^ 8). apply Z.pow_lt_mono_r; lia.
Qed.
Lemma bit_zset l i x q : 0 <= i < zlen l -> 0 <= q -> bit (zset l i x) q = if q / 8 =? i then Z.testbit x (q mod 8) else bit l q.
Proof.
  intros I Q. unfold bit. assert (0 <= q / 8) by lia. destruct (Z.eqb_spec (q / 8) i) as [->|N].
  - rewrite (nthb_znth (zset l i x) i x) by (apply znth_zset_eq; exact I). reflexivity.
  - f_equal. destruct (Z_lt_le_dec (q / 8) (zlen l)) as [L|L].
    + apply nthb_znth. rewrite znth_zset_ne by congruence. apply znth_nthb. lia.
    + unfold nthb. rewrite !nth_overflow; [reflexivity | |]; [|assert (S := zset_zlen l i x)]; unfold zlen in *; lia.
Qed.
Lemma bits_loop_spec f g : edge f g -> forall n b i test data base hit test' h, 0 <= b < 8 -> 0 <= i -> 0 <= base ->
  bits_loop f n b i test data base hit = Done (test', h) ->
  zlen test' = zlen test /\
  (forall q, 0 <= q -> bit test' q = if (8 * i + b <=? q) && (q <? 8 * i + b + Z.of_nat n) then g (bit data (8 * base + q)) else bit test q) /\
  (h = true <-> hit = true \/ exists q, 8 * i + b <= q < 8 * i + b + Z.of_nat n /\ g (bit data (8 * base + q)) = true /\ bit test q = false).
Proof.
  intros Ef n. induction n as [|n IH]; intros b i test data base hit test' h B I Ba H; cbn [bits_loop] in H.
  - injection H as <- <-. split; [reflexivity|]. split; [intros q Q; replace ((8 * i + b <=? q) && _) with false by lia; reflexivity|].
    split; [tauto|]. intros [A|(q & A & _)]; [exact A | lia].
  - rewrite bmask_small in H by exact B. cbn [rbind] in H.
    destruct (znth test i) as [a|] eqn:Ta; [|discriminate]. destruct (znth data (base + i)) as [d|] eqn:Td; [|discriminate].
    assert (Ri := znth_range _ _ _ Ta). destruct (Ef b a d B) as [F1 F2]. destruct (f (2 ^ b) a d) as [a' x]. cbn [fst snd] in F1, F2.
    assert (Bd : bit data (8 * base + (8 * i + b)) = Z.testbit d b).
    { unfold bit. replace ((8 * base + (8 * i + b)) / 8) with (base + i) by lia. replace ((8 * base + (8 * i + b)) mod 8) with b by lia.
      rewrite (nthb_znth _ _ _ Td). reflexivity. }
    assert (Bt : bit test (8 * i + b) = Z.testbit a b).
    { unfold bit. replace ((8 * i + b) / 8) with i by lia. replace ((8 * i + b) mod 8) with b by lia. rewrite (nthb_znth _ _ _ Ta). reflexivity. }
    assert (Bz : forall q, 0 <= q -> bit (zset test i a') q = if q =? 8 * i + b then g (bit data (8 * base + q)) else bit test q).
    { intros q Q. rewrite bit_zset by assumption. destruct (Z.eqb_spec (q / 8) i) as [E|N].
      - rewrite F1 by lia. destruct (Z.eqb_spec (q mod 8) b) as [E2|N2].
        + replace q with (8 * i + b) by lia. rewrite Z.eqb_refl, Bd. reflexivity.
        + replace (q =? 8 * i + b) with false by lia. unfold bit. rewrite E, (nthb_znth _ _ _ Ta). reflexivity.
      - replace (q =? 8 * i + b) with false by lia. reflexivity. }
    assert (G : forall b2 i2, 8 * i2 + b2 = 8 * i + b + 1 -> 0 <= b2 < 8 -> 0 <= i2 ->
       bits_loop f n b2 i2 (zset test i a') data base (hit || x) = Done (test', h) ->
       zlen test' = zlen test /\
       (forall q, 0 <= q -> bit test' q = if (8 * i + b <=? q) && (q <? 8 * i + b + Z.of_nat (S n)) then g (bit data (8 * base + q)) else bit test q) /\
       (h = true <-> hit = true \/ exists q, 8 * i + b <= q < 8 * i + b + Z.of_nat (S n) /\ g (bit data (8 * base + q)) = true /\ bit test q = false)).
    { intros b2 i2 Eq B2 I2 L. apply IH in L; try assumption. destruct L as (P1 & P2 & P3). rewrite zset_zlen in P1. split; [exact P1|].
      rewrite Eq in P2, P3. rewrite Nat2Z.inj_succ. split.
      - intros q Q. rewrite P2, Bz by exact Q. destruct (Z.eqb_spec q (8 * i + b)) as [->|N].
        + replace ((8 * i + b + 1 <=? _) && _) with false by lia. replace ((8 * i + b <=? 8 * i + b) && (8 * i + b <? 8 * i + b + Z.succ (Z.of_nat n))) with true by lia. reflexivity.
        + replace ((8 * i + b + 1 <=? q) && (q <? 8 * i + b + 1 + Z.of_nat n)) with ((8 * i + b <=? q) && (q <? 8 * i + b + Z.succ (Z.of_nat n))) by lia. reflexivity.
      - rewrite P3, F2, orb_true_iff, andb_true_iff, negb_true_iff, <- Bd, <- Bt. split.
        + intros [[A|[A1 A2]]|(q & Q1 & Q2 & Q3)]; [tauto | right; exists (8 * i + b); split; [lia | auto] |].
          rewrite Bz in Q3 by lia. replace (q =? 8 * i + b) with false in Q3 by lia. right. exists q. split; [lia | auto].
        + intros [A|(q & Q1 & Q2 & Q3)]; [tauto|]. destruct (Z.eq_dec q (8 * i + b)) as [->|N]; [tauto|].
          right. exists q. split; [lia|]. rewrite Bz by lia. replace (q =? 8 * i + b) with false by lia. auto. }
    destruct (Z.eqb_spec (b + 1) 8) as [E8|N8]; eapply G; try exact H; lia.
Qed.

(** ** _event_compare *)
Lemma compare_loop_spec e cmp inc : 0 < inc -> forall n b pd test data hit test' h, 0 <= b ->
  compare_loop n e cmp inc b pd test data hit = Done (test', h) ->
  zlen test' = zlen test /\
  exists c, (forall k, 0 <= k < Z.of_nat n -> generic_compare (e_dtype e) (e_data e) 0 data (pd + inc * k) = Done (c k)) /\
  (forall q, 0 <= q -> bit test' q = if (b <=? q) && (q <? b + Z.of_nat n) then c (q - b) =? cmp else bit test q) /\
  (h = true <-> hit = true \/ exists k, 0 <= k < Z.of_nat n /\ c k = cmp /\ bit test (b + k) = false).
Proof.
  intros Inc n. induction n as [|n IH]; intros b pd test data hit test' h B H; cbn [compare_loop] in H.
  - injection H as <- <-. split; [reflexivity|]. exists (fun _ => 0). split; [intros; lia|].
    split; [intros q Q; replace ((b <=? q) && _) with false by lia; reflexivity|]. split; [tauto|]. intros [A|(q & A & _)]; [exact A | lia].
  - apply rbind_done in H as [c0 [C0 H]]. destruct (znth test (b / 8)) as [a|] eqn:Ta; [|discriminate].
    assert (Ri := znth_range _ _ _ Ta). assert (Bt : bit test b = Z.testbit a (b mod 8)) by (unfold bit; rewrite (nthb_znth _ _ _ Ta); reflexivity).
    assert (G : forall test1 hit1, zlen test1 = zlen test -> (forall q, 0 <= q -> bit test1 q = if q =? b then c0 =? cmp else bit test q) ->
       (hit1 = true <-> hit = true \/ (c0 = cmp /\ bit test b = false)) ->
       compare_loop n e cmp inc (b + 1) (pd + inc) test1 data hit1 = Done (test', h) ->
       zlen test' = zlen test /\
       exists c, (forall k, 0 <= k < Z.of_nat (S n) -> generic_compare (e_dtype e) (e_data e) 0 data (pd + inc * k) = Done (c k)) /\
       (forall q, 0 <= q -> bit test' q = if (b <=? q) && (q <? b + Z.of_nat (S n)) then c (q - b) =? cmp else bit test q) /\
       (h = true <-> hit = true \/ exists k, 0 <= k < Z.of_nat (S n) /\ c k = cmp /\ bit test (b + k) = false)).
    { intros test1 hit1 L1 T1 H1 L. apply IH in L; [|lia]. destruct L as (P1 & c & P2 & P3 & P4). split; [congruence|].
      exists (fun k => if k =? 0 then c0 else c (k - 1)). rewrite Nat2Z.inj_succ. split; [|split].
      - intros k K. destruct (Z.eqb_spec k 0) as [->|N]; [rewrite Z.mul_0_r, Z.add_0_r; exact C0|].
        rewrite <- P2 by lia. f_equal. lia.
      - intros q Q. rewrite P3, T1 by exact Q. destruct (Z.eqb_spec q b) as [->|N].
        + replace ((b + 1 <=? b) && _) with false by lia. replace ((b <=? b) && (b <? b + Z.succ (Z.of_nat n))) with true by lia.
          rewrite Z.sub_diag. reflexivity.
        + replace ((b + 1 <=? q) && (q <? b + 1 + Z.of_nat n)) with ((b <=? q) && (q <? b + Z.succ (Z.of_nat n))) by lia.
          destruct ((b <=? q) && (q <? b + Z.succ (Z.of_nat n))) eqn:R; [|reflexivity]. replace (q - b =? 0) with false by lia.
          replace (q - b - 1) with (q - (b + 1)) by lia. reflexivity.
      - rewrite P4, H1. split.
        + intros [[A|[A1 A2]]|(k & K1 & K2 & K3)]; [tauto | right; exists 0; rewrite Z.add_0_r; split; [lia | auto] |].
          right. exists (k + 1). split; [lia|]. replace (k + 1 =? 0) with false by lia. replace (k + 1 - 1) with k by lia. split; [exact K2|].
          rewrite T1 in K3 by lia. replace (b + 1 + k =? b) with false in K3 by lia. replace (b + (k + 1)) with (b + 1 + k) by lia. exact K3.
        + intros [A|(k & K1 & K2 & K3)]; [tauto|]. destruct (Z.eqb_spec k 0) as [->|N]; [rewrite Z.add_0_r in K3; tauto|].
          right. exists (k - 1). split; [lia|]. split; [exact K2|]. rewrite T1 by lia. replace (b + 1 + (k - 1) =? b) with false by lia.
          replace (b + 1 + (k - 1)) with (b + k) by lia. exact K3. }
    assert (Bset : forall x q, 0 <= q -> bit (zset test (b / 8) x) q = if q / 8 =? b / 8 then Z.testbit x (q mod 8) else bit test q) by (intros; apply bit_zset; assumption).
    assert (Bq : forall q, q / 8 = b / 8 -> bit test q = Z.testbit a (q mod 8)) by (intros q Q; unfold bit; rewrite Q, (nthb_znth _ _ _ Ta); reflexivity).
    rewrite land_pow2 in H by lia. rewrite <- Bt in H. destruct (Z.eqb_spec c0 cmp) as [Ec|Nc].
    + destruct (bit test b) eqn:T; cbn [negb] in H; eapply G; try exact H; rewrite ?zset_zlen; try reflexivity.
      * intros q Q. destruct (Z.eqb_spec q b) as [->|]; [rewrite T; lia | reflexivity].
      * intuition congruence.
      * intros q Q. rewrite Bset by exact Q. destruct (Z.eqb_spec (q / 8) (b / 8)) as [E|N].
        -- rewrite lor_pow2 by lia. destruct (Z.eqb_spec (q mod 8) (b mod 8)); [replace (q =? b) with true by lia; lia|].
           replace (q =? b) with false by (destruct (Z.eqb_spec q b); [subst; lia | reflexivity]). rewrite Bq by exact E. reflexivity.
        -- replace (q =? b) with false by (destruct (Z.eqb_spec q b); [subst; lia | reflexivity]). reflexivity.
      * tauto.
    + eapply G; try exact H; rewrite ?zset_zlen; try reflexivity; [|tauto].
      intros q Q. rewrite Bset by exact Q. destruct (Z.eqb_spec (q / 8) (b / 8)) as [E|N].
      * rewrite ldiff_pow2 by lia. destruct (Z.eqb_spec (q mod 8) (b mod 8)); [replace (q =? b) with true by lia; lia|].
        replace (q =? b) with false by (destruct (Z.eqb_spec q b); [subst; lia | reflexivity]). rewrite Bq by exact E. reflexivity.
      * replace (q =? b) with false by (destruct (Z.eqb_spec q b); [subst; lia | reflexivity]). reflexivity.
Qed.

(** ** _event_deadband *)
Lemma vkind_width t k : vkind_of t = Some k -> 0 <= kwidth k.
Proof. unfold vkind_of. repeat (destruct (_ || _) || destruct (t =? _)); intros H; try discriminate; injection H as <-; cbn; lia. Qed.
Lemma slice_splice_other p x l q n : in_bounds p (zlen x) (zlen l) = true -> 0 <= q -> 0 <= n -> (q + n <= p \/ p + zlen x <= q) ->
  slice q n (splice p x l) = slice q n l.
Proof.
  intros B Q N D. apply in_bounds_iff in B. apply znth_ext. intros i I. destruct (Z_lt_le_dec i n) as [L|L].
  - rewrite !znth_slice by lia. rewrite znth_splice by (try apply in_bounds_iff; lia).
    replace ((p <=? q + i) && (q + i <? p + zlen x)) with false by lia. reflexivity.
  - unfold slice. rewrite !(proj2 (znth_none _ _)); [reflexivity | |]; right; rewrite zlen_firstn; lia.
Qed.
Lemma deadband_loop_spec E e inc : 0 < inc -> forall n pt pd test data hit test' h, 0 <= pt -> 0 <= pd ->
  deadband_loop E n e inc pt pd test data hit = Done (test', h) ->
  zlen test' = zlen test /\
  exists c, (forall k, 0 <= k < Z.of_nat n -> generic_deadband E e test (pt + inc * k) data (pd + inc * k) = Done (c k)) /\
  (forall k, 0 <= k < Z.of_nat n -> slice (pt + inc * k) inc test' =
     if c k then slice (pd + inc * k) inc data else slice (pt + inc * k) inc test) /\
  (forall q m, 0 <= q -> 0 <= m -> q + m <= pt \/ pt + inc * Z.of_nat n <= q -> slice q m test' = slice q m test) /\
  (h = true <-> hit = true \/ exists k, 0 <= k < Z.of_nat n /\ c k = true).
Proof.
  intros Inc n. induction n as [|n IH]; intros pt pd test data hit test' h Pt Pd H; cbn [deadband_loop] in H.
  - injection H as <- <-. split; [reflexivity|]. exists (fun _ => false). split; [intros; lia|]. split; [intros; lia|]. split; [reflexivity|].
    split; [tauto|]. intros [A|(q & A & _)]; [exact A | lia].
  - apply rbind_done in H as [h0 [C0 H]].
    assert (G : forall test1 hit1, zlen test1 = zlen test -> (hit1 = true <-> hit = true \/ h0 = true) ->
       slice pt inc test1 = (if h0 then slice pd inc data else slice pt inc test) ->
       (forall q m, 0 <= q -> 0 <= m -> q + m <= pt \/ pt + inc <= q -> slice q m test1 = slice q m test) ->
       deadband_loop E n e inc (pt + inc) (pd + inc) test1 data hit1 = Done (test', h) ->
       zlen test' = zlen test /\
       exists c, (forall k, 0 <= k < Z.of_nat (S n) -> generic_deadband E e test (pt + inc * k) data (pd + inc * k) = Done (c k)) /\
       (forall k, 0 <= k < Z.of_nat (S n) -> slice (pt + inc * k) inc test' =
          if c k then slice (pd + inc * k) inc data else slice (pt + inc * k) inc test) /\
       (forall q m, 0 <= q -> 0 <= m -> q + m <= pt \/ pt + inc * Z.of_nat (S n) <= q -> slice q m test' = slice q m test) /\
       (h = true <-> hit = true \/ exists k, 0 <= k < Z.of_nat (S n) /\ c k = true)).
    { intros test1 hit1 L1 H1 S1 O1 L. apply IH in L; try lia. destruct L as (P1 & c & P2 & P3 & P4 & P5). split; [congruence|].
      exists (fun k => if k =? 0 then h0 else c (k - 1)). rewrite Nat2Z.inj_succ. split; [|split; [|split]].
      - intros k K. destruct (Z.eqb_spec k 0) as [->|N]; [rewrite !Z.mul_0_r, !Z.add_0_r; exact C0|].
        rewrite <- P2 by lia. replace (pt + inc + inc * (k - 1)) with (pt + inc * k) by lia. replace (pd + inc + inc * (k - 1)) with (pd + inc * k) by lia.
        unfold generic_deadband, rd. rewrite L1. destruct (vkind_of (e_dtype e)) as [kd|] eqn:Vk; [|reflexivity].
        rewrite (O1 (pt + inc * k) (kwidth kd)); [reflexivity | nia | exact (vkind_width _ _ Vk) | right; nia].
      - intros k K. destruct (Z.eqb_spec k 0) as [->|N].
        + rewrite !Z.mul_0_r, !Z.add_0_r. rewrite P4 by lia. exact S1.
        + replace (pt + inc * k) with (pt + inc + inc * (k - 1)) by lia. rewrite P3 by lia.
          replace (pd + inc + inc * (k - 1)) with (pd + inc * k) by lia. replace (pt + inc + inc * (k - 1)) with (pt + inc * k) by lia.
          rewrite O1 by nia. reflexivity.
      - intros q m Q M D. rewrite P4 by lia. apply O1; lia.
      - rewrite P5, H1. split.
        + intros [[A|A]|(k & K1 & K2)]; [tauto | right; exists 0; split; [lia | exact A]|]. right. exists (k + 1). split; [lia|].
          replace (k + 1 =? 0) with false by lia. replace (k + 1 - 1) with k by lia. exact K2.
        + intros [A|(k & K1 & K2)]; [tauto|]. destruct (Z.eqb_spec k 0) as [->|N]; [tauto|]. right. exists (k - 1). split; [lia | exact K2]. }
    destruct h0.
    + apply rbind_done in H as [x [Hx H]]. destruct (in_bounds pt inc (zlen test)) eqn:B; [|discriminate].
      unfold rd in Hx. destruct (in_bounds pd inc (zlen data)) eqn:Bd; [|discriminate]. injection Hx as <-.
      assert (Zx := zlen_slice _ _ _ Bd).
      assert (B' : in_bounds pt (zlen (slice pd inc data)) (zlen test) = true) by (rewrite Zx; exact B).
      eapply G; [apply zlen_splice; exact B' | tauto | | | exact H].
      * rewrite <- Zx at 1. apply slice_splice_same. exact B'.
      * intros q m Q M D. apply slice_splice_other; try assumption. rewrite Zx. exact D.
    + apply (G test hit); [reflexivity | split; [tauto | intros [Q|Q]; [exact Q | discriminate]] | reflexivity | reflexivity | exact H].
Qed.
