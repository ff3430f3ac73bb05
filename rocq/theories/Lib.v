(** * Lib: lemmas on lists, byte blocks, integers and strings *)
From Verif Require Import Base.

(** ** lists indexed by Z *)
Lemma zlen_nonneg {A} (l : list A) : 0 <= zlen l.
Proof. unfold zlen; lia. Qed.
Lemma zlen_app {A} (l m : list A) : zlen (l ++ m) = zlen l + zlen m.
Proof. unfold zlen; rewrite app_length; lia. Qed.
Lemma zlen_cons {A} (x : A) l : zlen (x :: l) = 1 + zlen l.
Proof. unfold zlen; cbn [length]; lia. Qed.
Lemma zlen_nil {A} : zlen (@nil A) = 0.
Proof. reflexivity. Qed.
Lemma zlen_zero {A} (l : list A) : zlen l = 0 -> l = [].
Proof. destruct l; [reflexivity | rewrite zlen_cons; pose proof (zlen_nonneg l); lia]. Qed.
Lemma zlen_map {A B} (f : A -> B) l : zlen (map f l) = zlen l.
Proof. unfold zlen; rewrite map_length; reflexivity. Qed.
Lemma zlen_zeros n : 0 <= n -> zlen (zeros n) = n.
Proof. unfold zlen, zeros; rewrite repeat_length; lia. Qed.
Lemma zlen_zeros' n : zlen (zeros n) = Z.max 0 n.
Proof. unfold zlen, zeros; rewrite repeat_length; lia. Qed.
Lemma zlen_firstn {A} n (l : list A) : zlen (firstn (Z.to_nat n) l) = Z.min (Z.max 0 n) (zlen l).
Proof. unfold zlen; rewrite firstn_length; lia. Qed.

Lemma nth_error_range {A} (l : list A) i x : nth_error l i = Some x -> (i < length l)%nat.
Proof. intros H; apply nth_error_Some; congruence. Qed.

Lemma znth_iff {A} (l : list A) i x : znth l i = Some x <-> 0 <= i /\ nth_error l (Z.to_nat i) = Some x.
Proof.
  unfold znth; destruct ((0 <=? i) && (i <? zlen l)) eqn:H.
  - split; [intros E; split; [lia | exact E] | intros [_ E]; exact E].
  - split; [discriminate | intros [H0 E]]. apply nth_error_range in E. unfold zlen in H. lia.
Qed.
Lemma znth_range {A} (l : list A) i x : znth l i = Some x -> 0 <= i < zlen l.
Proof. intros H; apply znth_iff in H as [H0 E]; apply nth_error_range in E; unfold zlen; lia. Qed.
Lemma znth_none {A} (l : list A) i : znth l i = None <-> (i < 0 \/ zlen l <= i).
Proof.
  unfold znth; destruct ((0 <=? i) && (i <? zlen l)) eqn:H; split; intros E; try lia; try reflexivity.
  apply nth_error_None in E; unfold zlen in *; lia.
Qed.
Lemma znth_some {A} (l : list A) i : 0 <= i < zlen l -> exists x, znth l i = Some x.
Proof.
  intros H; destruct (znth l i) eqn:E; [eauto|]. apply znth_none in E; lia.
Qed.
Lemma znth_In {A} (l : list A) i x : znth l i = Some x -> In x l.
Proof. intros H; apply znth_iff in H as [_ E]; eapply nth_error_In; exact E. Qed.
Lemma In_znth {A} (l : list A) x : In x l -> exists i, znth l i = Some x.
Proof.
  intros H; apply In_nth_error in H as [n E]. exists (Z.of_nat n). apply znth_iff.
  rewrite Nat2Z.id; split; [lia | exact E].
Qed.
Lemma znth_app1 {A} (l m : list A) i : i < zlen l -> znth (l ++ m) i = znth l i.
Proof.
  intros H. destruct (Z_lt_le_dec i 0).
  - transitivity (@None A); [|symmetry]; apply znth_none; left; lia.
  - destruct (znth l i) eqn:E.
    + apply znth_iff in E as [E0 E]. apply znth_iff; split; [lia|].
      rewrite nth_error_app1; [exact E | apply nth_error_range in E; lia].
    + apply znth_none in E; lia.
Qed.
Lemma znth_app2 {A} (l m : list A) i : zlen l <= i -> znth (l ++ m) i = znth m (i - zlen l).
Proof.
  intros H. destruct (znth m (i - zlen l)) eqn:E.
  - apply znth_iff in E as [E0 E]. apply znth_iff; split; [pose proof (zlen_nonneg l); lia|].
    rewrite nth_error_app2; [rewrite <- E; f_equal; unfold zlen; lia | unfold zlen in H; lia].
  - apply znth_none in E. apply znth_none. rewrite zlen_app. lia.
Qed.
Lemma znth_last {A} (l : list A) x : znth (l ++ [x]) (zlen l) = Some x.
Proof. rewrite znth_app2 by lia. replace (zlen l - zlen l) with 0 by lia. reflexivity. Qed.
Lemma znth_map {A B} (f : A -> B) l i : znth (map f l) i = option_map f (znth l i).
Proof.
  unfold znth. rewrite zlen_map. destruct ((0 <=? i) && (i <? zlen l)); [|reflexivity].
  revert l; induction (Z.to_nat i); destruct l; cbn; auto.
Qed.
Lemma znth_0 {A} (x : A) l : znth (x :: l) 0 = Some x.
Proof. apply znth_iff; split; [lia | reflexivity]. Qed.
Lemma znth_S {A} (x : A) l i : 0 <= i -> znth (x :: l) (i + 1) = znth l i.
Proof.
  intros H. change (x :: l) with ([x] ++ l). rewrite znth_app2 by (unfold zlen; cbn; lia).
  f_equal. unfold zlen; cbn; lia.
Qed.

Lemma upd_length {A} (l : list A) i x : length (upd l i x) = length l.
Proof.
  unfold upd. rewrite app_length, firstn_length.
  destruct (skipn i l) eqn:E.
  - apply (f_equal (@length A)) in E. rewrite skipn_length in E. cbn in *. lia.
  - apply (f_equal (@length A)) in E. rewrite skipn_length in E. cbn in *. lia.
Qed.
Lemma nth_error_upd_eq {A} (l : list A) i x : (i < length l)%nat -> nth_error (upd l i x) i = Some x.
Proof.
  revert l; induction i; intros [|y l] H; cbn in H; try lia; [reflexivity|].
  cbn. apply (IHi l). lia.
Qed.
Lemma nth_error_upd_ne {A} (l : list A) i j x : i <> j -> nth_error (upd l i x) j = nth_error l j.
Proof.
  revert l j; induction i; intros [|y l] j H; destruct j; cbn; try reflexivity; try lia.
  apply (IHi l j). lia.
Qed.
Lemma zset_length {A} (l : list A) i x : length (zset l i x) = length l.
Proof. unfold zset; destruct (_ && _); [apply upd_length | reflexivity]. Qed.
Lemma zset_zlen {A} (l : list A) i x : zlen (zset l i x) = zlen l.
Proof. unfold zlen; rewrite zset_length; reflexivity. Qed.
Lemma znth_zset_eq {A} (l : list A) i x : 0 <= i < zlen l -> znth (zset l i x) i = Some x.
Proof.
  intros H. apply znth_iff; split; [lia|]. unfold zset.
  replace ((0 <=? i) && (i <? zlen l)) with true by lia.
  apply nth_error_upd_eq. unfold zlen in H; lia.
Qed.
Lemma znth_zset_ne {A} (l : list A) i j x : i <> j -> znth (zset l i x) j = znth l j.
Proof.
  intros H. unfold znth. rewrite zset_zlen. destruct ((0 <=? j) && (j <? zlen l)) eqn:E; [|reflexivity].
  unfold zset. destruct ((0 <=? i) && (i <? zlen l)) eqn:E2; [|reflexivity].
  apply nth_error_upd_ne. lia.
Qed.
Lemma znth_zset {A} (l : list A) i j x :
  znth (zset l i x) j = if (i =? j) && (0 <=? i) && (i <? zlen l) then Some x else znth l j.
Proof.
  destruct (Z.eqb_spec i j); cbn [andb].
  - subst j. destruct ((0 <=? i) && (i <? zlen l)) eqn:E; [apply znth_zset_eq; lia|].
    unfold zset. rewrite E. reflexivity.
  - apply znth_zset_ne; assumption.
Qed.
Lemma zset_oob {A} (l : list A) i x : ~ (0 <= i < zlen l) -> zset l i x = l.
Proof. intros H; unfold zset. destruct ((0 <=? i) && (i <? zlen l)) eqn:E; [lia | reflexivity]. Qed.

Lemma znth_ext {A} (l m : list A) : (forall i, 0 <= i -> znth l i = znth m i) -> l = m.
Proof.
  revert m; induction l as [|x l IH]; intros [|y m] H; [reflexivity | | |].
  - specialize (H 0 ltac:(lia)). rewrite znth_0 in H. discriminate.
  - specialize (H 0 ltac:(lia)). rewrite znth_0 in H. discriminate.
  - pose proof (H 0 ltac:(lia)) as H0. rewrite !znth_0 in H0. injection H0 as ->.
    f_equal. apply IH. intros i Hi. specialize (H (i + 1) ltac:(lia)). rewrite !znth_S in H by lia. exact H.
Qed.
Lemma zset_same {A} (l : list A) i x : znth l i = Some x -> zset l i x = l.
Proof.
  intros H. apply znth_ext. intros j _. rewrite znth_zset.
  destruct ((i =? j) && (0 <=? i) && (i <? zlen l)) eqn:E; [|reflexivity].
  replace j with i by lia. symmetry; exact H.
Qed.
Lemma zset_zset {A} (l : list A) i x y : zset (zset l i x) i y = zset l i y.
Proof.
  apply znth_ext. intros j _. rewrite !znth_zset, zset_zlen.
  destruct ((i =? j) && (0 <=? i) && (i <? zlen l)); reflexivity.
Qed.
Lemma zset_comm {A} (l : list A) i j x y : i <> j -> zset (zset l i x) j y = zset (zset l j y) i x.
Proof.
  intros H. apply znth_ext. intros k _. rewrite !znth_zset, !zset_zlen.
  destruct ((j =? k) && (0 <=? j) && (j <? zlen l)) eqn:E1, ((i =? k) && (0 <=? i) && (i <? zlen l)) eqn:E2; try reflexivity.
  lia.
Qed.

(** ** bytes: nthb, slice, splice *)
Lemma nthb_znth l i b : znth l i = Some b -> nthb l i = b.
Proof. intros H; apply znth_iff in H as [_ H]. unfold nthb. apply nth_error_nth. exact H. Qed.
Lemma znth_nthb l i : 0 <= i < zlen l -> znth l i = Some (nthb l i).
Proof. intros H. destruct (znth_some l i H) as [x E]. rewrite E. f_equal. symmetry. apply nthb_znth; exact E. Qed.

Lemma zlen_slice off n l : in_bounds off n (zlen l) = true -> zlen (slice off n l) = n.
Proof.
  unfold in_bounds, slice, zlen. intros H. rewrite firstn_length, skipn_length. lia.
Qed.
Lemma znth_firstn {A} (l : list A) n i : i < n -> znth (firstn (Z.to_nat n) l) i = znth l i.
Proof.
  intros H. destruct (Z_lt_le_dec i 0).
  - transitivity (@None A); [|symmetry]; apply znth_none; lia.
  - unfold znth. rewrite zlen_firstn.
    replace ((0 <=? i) && (i <? Z.min (Z.max 0 n) (zlen l))) with ((0 <=? i) && (i <? zlen l)) by lia.
    destruct ((0 <=? i) && (i <? zlen l)); [|reflexivity].
    assert (Hn : (Z.to_nat i < Z.to_nat n)%nat) by lia. revert Hn.
    generalize (Z.to_nat i) as k; generalize (Z.to_nat n) as m. clear.
    intros m; revert l; induction m; intros l k Hk; [lia|]. destruct l, k; cbn; try reflexivity. apply IHm; lia.
Qed.
Lemma znth_skipn {A} (l : list A) n i : 0 <= n -> 0 <= i -> znth (skipn (Z.to_nat n) l) i = znth l (n + i).
Proof.
  intros Hn Hi.
  assert (E : nth_error (skipn (Z.to_nat n) l) (Z.to_nat i) = nth_error l (Z.to_nat (n + i))).
  { replace (Z.to_nat (n + i)) with (Z.to_nat n + Z.to_nat i)%nat by lia.
    generalize (Z.to_nat n) as m. generalize (Z.to_nat i) as k. clear. intros k m; revert l.
    induction m; intros l; cbn; [reflexivity|]. destruct l; [destruct k; reflexivity | apply IHm]. }
  destruct (znth l (n + i)) eqn:E2.
  - apply znth_iff in E2 as [_ E2]. apply znth_iff; split; [lia | congruence].
  - apply znth_none in E2. apply znth_none. right. unfold zlen in *. rewrite skipn_length. lia.
Qed.
Lemma znth_slice off n l i : 0 <= off -> 0 <= i < n -> znth (slice off n l) i = znth l (off + i).
Proof. intros H H1. unfold slice. rewrite znth_firstn by lia. apply znth_skipn; lia. Qed.
Lemma zlen_splice off new l : in_bounds off (zlen new) (zlen l) = true -> zlen (splice off new l) = zlen l.
Proof.
  unfold in_bounds, splice, zlen. intros H. rewrite !app_length, firstn_length, skipn_length. lia.
Qed.
Lemma znth_splice off new l i : in_bounds off (zlen new) (zlen l) = true -> 0 <= i ->
  znth (splice off new l) i = if (off <=? i) && (i <? off + zlen new) then znth new (i - off) else znth l i.
Proof.
  unfold in_bounds. intros H Hi. unfold splice.
  assert (L : zlen (firstn (Z.to_nat off) l) = off) by (rewrite zlen_firstn; lia).
  destruct (Z_lt_le_dec i off).
  - rewrite znth_app1 by lia. replace ((off <=? i) && (i <? off + zlen new)) with false by lia. apply znth_firstn; lia.
  - rewrite znth_app2, L by lia. destruct (Z_lt_le_dec i (off + zlen new)).
    + replace ((off <=? i) && (i <? off + zlen new)) with true by lia. apply znth_app1; lia.
    + replace ((off <=? i) && (i <? off + zlen new)) with false by lia. rewrite znth_app2 by lia.
      replace (Z.to_nat off + length new)%nat with (Z.to_nat (off + zlen new)) by (unfold zlen in *; lia).
      rewrite znth_skipn by (pose proof (zlen_nonneg new); lia). f_equal; lia.
Qed.
Lemma slice_splice_same off new l : in_bounds off (zlen new) (zlen l) = true ->
  slice off (zlen new) (splice off new l) = new.
Proof.
  intros H. pose proof H as H'. unfold in_bounds in H'. apply znth_ext. intros i Hi.
  destruct (Z_lt_le_dec i (zlen new)).
  - rewrite znth_slice by lia. rewrite znth_splice by (auto; lia).
    replace ((off <=? off + i) && (off + i <? off + zlen new)) with true by lia. f_equal; lia.
  - transitivity (@None Z); [|symmetry]; apply znth_none; right; [|lia].
    rewrite zlen_slice; [lia|]. rewrite zlen_splice by assumption. exact H.
Qed.
Lemma slice_full l : slice 0 (zlen l) l = l.
Proof. unfold slice, zlen. rewrite Nat2Z.id. cbn [skipn Z.to_nat]. apply firstn_all. Qed.

Lemma bytes_ok_znth l : bytes_ok l <-> (forall i b, znth l i = Some b -> 0 <= b < 256).
Proof.
  unfold bytes_ok. rewrite Forall_forall. split.
  - intros H i b E. apply H. eapply znth_In; exact E.
  - intros H x Hx. apply In_znth in Hx as [i E]. eapply H; exact E.
Qed.
Lemma bytes_ok_app l m : bytes_ok l -> bytes_ok m -> bytes_ok (l ++ m).
Proof. intros; apply Forall_app; split; assumption. Qed.
Lemma bytes_ok_zeros n : bytes_ok (zeros n).
Proof. apply Forall_forall. intros x H. apply repeat_spec in H. lia. Qed.
Lemma bytes_ok_slice off n l : bytes_ok l -> bytes_ok (slice off n l).
Proof. unfold bytes_ok, slice. intros H. rewrite Forall_forall in *. intros x Hx.
  apply H. apply firstn_In in Hx || idtac. 
  assert (In x (skipn (Z.to_nat off) l)).
  { rewrite <- (firstn_skipn (Z.to_nat n)). apply in_or_app; left; assumption. }
  rewrite <- (firstn_skipn (Z.to_nat off)). apply in_or_app; right; assumption.
Qed.
Lemma bytes_ok_splice off new l : bytes_ok new -> bytes_ok l -> bytes_ok (splice off new l).
Proof.
  unfold bytes_ok, splice. intros Hn Hl. rewrite !Forall_app; repeat split; try assumption.
  - rewrite <- (firstn_skipn (Z.to_nat off) l) in Hl. apply Forall_app in Hl; tauto.
  - rewrite <- (firstn_skipn (Z.to_nat off + length new) l) in Hl. apply Forall_app in Hl; tauto.
Qed.

(** ** little-endian *)
Lemma le_bytes_length n z : length (le_bytes n z) = n.
Proof. revert z; induction n; intros z; cbn; auto. Qed.
Lemma zlen_le_bytes n z : zlen (le_bytes n z) = Z.of_nat n.
Proof. unfold zlen; rewrite le_bytes_length; reflexivity. Qed.
Lemma le_bytes_ok n z : bytes_ok (le_bytes n z).
Proof. revert z; induction n; intros z; constructor; [lia | apply IHn]. Qed.
Lemma le_val_le_bytes n z : le_val (le_bytes n z) = z mod 256 ^ Z.of_nat n.
Proof.
  revert z; induction n; intros z.
  - cbn. symmetry. apply Z.mod_1_r.
  - cbn [le_bytes le_val]. rewrite IHn.
    replace (Z.of_nat (S n)) with (1 + Z.of_nat n) by lia.
    rewrite Z.pow_add_r, Z.pow_1_r by lia.
    assert (0 < 256 ^ Z.of_nat n) by (apply Z.pow_pos_nonneg; lia).
    rewrite Z.rem_mul_r by lia. reflexivity.
Qed.
Lemma le_val_range l : bytes_ok l -> 0 <= le_val l < 256 ^ zlen l.
Proof.
  induction 1 as [|x l Hx _ IH]; [cbn; lia|].
  cbn [le_val]. rewrite zlen_cons, Z.pow_add_r by (pose proof (zlen_nonneg l); lia). lia.
Qed.
Lemma le_bytes_le_val l : bytes_ok l -> le_bytes (length l) (le_val l) = l.
Proof.
  induction 1 as [|x l Hx _ IH]; [reflexivity|].
  cbn [length le_bytes le_val]. f_equal.
  - clear IH. generalize (le_val l); intros v. lia.
  - replace ((x + 256 * le_val l) / 256) with (le_val l) by (clear IH; generalize (le_val l); intros v; lia). exact IH.
Qed.
Lemma le_val_inj l m : bytes_ok l -> bytes_ok m -> length l = length m -> le_val l = le_val m -> l = m.
Proof. intros Hl Hm E V. rewrite <- (le_bytes_le_val l), <- (le_bytes_le_val m), E, V by assumption. reflexivity. Qed.

(** ** strings *)
Lemma name_eqb_eq a b : name_eqb a b = true <-> a = b.
Proof.
  revert b; induction a as [|x a IH]; intros [|y b]; cbn; split; intros H; try reflexivity; try discriminate.
  - apply andb_true_iff in H as [H1 H2]. apply IH in H2. f_equal; [lia | exact H2].
  - injection H as -> ->. rewrite Z.eqb_refl. apply IH. reflexivity.
Qed.
Lemma name_eqb_refl a : name_eqb a a = true.
Proof. apply name_eqb_eq; reflexivity. Qed.
Lemma name_eqb_neq a b : name_eqb a b = false <-> a <> b.
Proof. rewrite <- name_eqb_eq. destruct (name_eqb a b); split; congruence. Qed.
Lemma strcmp_eq a b : strcmp a b = Eq <-> a = b.
Proof.
  revert b; induction a as [|x a IH]; intros [|y b]; cbn; split; intros H; try reflexivity; try discriminate.
  - destruct (Z.compare_spec x y); try discriminate. f_equal; [assumption | apply IH; exact H].
  - injection H as -> ->. rewrite Z.compare_refl. apply IH; reflexivity.
Qed.
Lemma strcmp_refl a : strcmp a a = Eq.
Proof. apply strcmp_eq; reflexivity. Qed.
Lemma strcmp_opp a b : strcmp b a = CompOpp (strcmp a b).
Proof.
  revert b; induction a as [|x a IH]; intros [|y b]; cbn; try reflexivity.
  rewrite (Z.compare_antisym x y). destruct (x ?= y); cbn; try reflexivity. apply IH.
Qed.
Lemma strcmp_gt a b : strcmp a b = Gt <-> strcmp b a = Lt.
Proof. rewrite (strcmp_opp a b). destruct (strcmp a b); cbn; split; congruence. Qed.
Lemma strcmp_trans a b c : strcmp a b = Lt -> strcmp b c = Lt -> strcmp a c = Lt.
Proof.
  revert b c; induction a as [|x a IH]; intros [|y b] [|z c]; cbn; try discriminate; try reflexivity.
  destruct (Z.compare_spec x y) as [->|H|H]; try discriminate.
  - destruct (Z.compare_spec y z); try discriminate; try reflexivity. apply IH.
  - intros _. destruct (Z.compare_spec y z) as [->|H2|H2]; try discriminate; intros _.
    + destruct (Z.compare_spec x z); try lia; reflexivity.
    + destruct (Z.compare_spec x z); try lia; reflexivity.
Qed.

(** ** [run] *)
Lemma rbind_done {A B} (m : run A) (k : A -> run B) b :
  rbind m k = Done b -> exists a, m = Done a /\ k a = Done b.
Proof. destruct m; cbn; [eauto | discriminate]. Qed.
Lemma bind_done {S A B} (m : M S A) (k : A -> M S B) s s' b :
  bind m k s = Done (s', b) -> exists s1 a, m s = Done (s1, a) /\ k a s1 = Done (s', b).
Proof. unfold bind; destruct (m s) as [[s1 a]|]; [eauto | discriminate]. Qed.
Lemma lift_done {S A} (r : run A) (s s' : S) a : lift r s = Done (s', a) -> s' = s /\ r = Done a.
Proof. unfold lift; destruct r; intros H; [injection H as -> ->; auto | discriminate]. Qed.

(** in_bounds as a proposition *)
Lemma in_bounds_iff off n len : in_bounds off n len = true <-> 0 <= off /\ 0 <= n /\ off + n <= len.
Proof. unfold in_bounds; lia. Qed.
