(** * Prop_MqttData: C93 (raw messages), C94 (messages with a filter function),
    C95 (what is published) *)
From Verif Require Import Base Const Lib State Server Inv Reach Spec Types Events Atomic SearchProofs Shape Frame Effects Out DataFrame Prop_Data Prop_Maps Prop_Atomic LuaConv LuaConvProofs Prop_LuaConv ClientTypes ClientData Prop_ClientData Demo Mqtt MqttProofs.

Lemma splice_all new l : zlen new = zlen l -> splice 0 new l = new.
Proof.
  intros L. unfold splice. cbn [Z.to_nat firstn app Nat.add]. unfold zlen in L. rewrite skipn_all2 by lia. apply app_nil_r.
Qed.
Lemma slice_short n l : zlen l <= n -> slice 0 n l = l.
Proof. intros L. unfold slice. cbn [Z.to_nat skipn]. apply firstn_all2. unfold zlen in L. lia. Qed.

(** ** C93: messages without a filter *)
(** A message that is long enough determines the whole block *)
Theorem C93_raw_partial : forall E ks payload buff mask, ks <> [] -> zlen buff <= zlen payload ->
  arrived E ks None payload buff mask = Done (slice 0 (zlen buff) payload, mask).
Proof.
  intros E ks payload buff mask K L. unfold arrived. cbn [rbind]. rewrite Z.min_r by lia.
  rewrite splice_all by (apply zlen_slice, in_bounds_iff; pose proof (zlen_nonneg buff); lia). destruct ks; [congruence|reflexivity].
Qed.
(** and ends up in the tag *)
Theorem C93_stored_partial : forall L E cc fd s h k payload buff b s',
  reachable E s -> stored s (h_index h) b -> no_mapping s (h_index h) -> zlen b < 2147483648 -> inside h b -> h_type h <> T_BOOL ->
  zlen buff = h_size h -> h_size h <= zlen payload ->
  on_message L E cc fd s h k payload buff = Done (s', 0) ->
  only_data s s' (h_index h) /\ stored s' (h_index h) (splice (h_byte h) (slice 0 (h_size h) payload) b).
Proof.
  intros L E cc fd s h k payload buff b s' R S N Z I T B P H. unfold on_message in H. rewrite C93_raw_partial in H by (congruence || lia). cbn [rbind fst] in H.
  destruct (C45_write _ _ _ _ _ _ _ _ R S N Z I (or_introl T) H) as (_ & O & S'). split; [exact O|]. rewrite B in S'.
  rewrite (slice_short (h_size h)) in S'; [exact S'|]. rewrite zlen_slice; [lia|]. apply in_bounds_iff. destruct I as (I1 & I2 & I3). lia.
Qed.
(** A message that is too short is completed with the bytes of the one before *)
Theorem C93_short_refuted : forall E ks old payload buff mask, ks <> [] -> zlen old = zlen buff -> zlen payload < zlen buff ->
  exists b1, arrived E ks None old buff mask = Done (b1, mask) /\
    arrived E ks None payload b1 mask = Done (payload ++ skipn (length payload) old, mask).
Proof.
  intros E ks old payload buff mask K O P. exists old. split; [rewrite C93_raw_partial by (auto; lia); rewrite slice_short by lia; reflexivity|].
  unfold arrived. cbn [rbind]. rewrite Z.min_l by lia. rewrite slice_short by lia. unfold splice. cbn [Z.to_nat firstn app Nat.add].
  destruct ks; [congruence|reflexivity].
Qed.
(** so a tag that somebody else has written in the meantime is overwritten with old bytes *)
Definition kb : mtag := {| k_ty := LB T_BYTE; k_count := 4; k_size := 4 |}.

(** ** C94: messages with a filter *)
(** The tag reads as the value the function gave *)
Theorem C94_value_partial : forall E k new v payload buff mask,
  bytes_ok new -> uniq (k_ty k) -> ok_ty new (k_ty k) (k_count k) 0 -> dax_to_lua new (k_ty k) (k_count k) = Done v -> vok v ->
  bytes_ok buff -> zlen buff = zlen new -> zlen mask = zlen new ->
  exists b m, arrived E [k] (Some (Gave v)) payload buff mask = Done (b, m) /\ zlen b = zlen new /\ bytes_ok b /\ dax_to_lua b (k_ty k) (k_count k) = Done v.
Proof.
  intros E k new v payload buff mask B U OK RD V BB LB LM.
  set (w0 := {| w_stk := [v]; w_data := buff; w_mask := zeros (zlen new) |}).
  destruct (lua_to_dax_step E (k_ty k) (k_count k) new v w0 B U OK RD) as (w & P & S).
  - constructor; cbn; auto; [apply zlen_zeros, zlen_nonneg|]. intros i I M. exfalso. unfold bit_of, nthb, zeros in M. rewrite nth_repeat, Z.testbit_0_l in M. discriminate.
  - reflexivity.
  - assert (X := lua_to_dax_both E (k_ty k) (k_count k) w0 {| w_stk := [v]; w_data := buff; w_mask := mask |}).
    assert (SM : same w0 {| w_stk := [v]; w_data := buff; w_mask := mask |}).
    { unfold same, w0. cbn [w_stk w_data w_mask]. rewrite zlen_zeros by apply zlen_nonneg. split; [reflexivity|]. split; [reflexivity|]. split; [congruence|].
      split; [constructor; [exact V|constructor]|exact BB]. }
    specialize (X SM). rewrite P in X. unfold arrived. destruct (lua_to_dax E _ _ {| w_stk := [v]; w_data := buff; w_mask := mask |}) as [[e w1]|u]; cbn [both2] in X; [|contradiction].
    destruct X as (_ & X1 & X2 & X3 & X4 & X5). cbn [rbind snd]. eexists. eexists. split; [reflexivity|]. rewrite <- X2.
    split; [exact (st_data _ _ _ _ S)|]. split; [exact X5|].
    apply (st_read _ _ _ _ S); [split; [exact (st_data _ _ _ _ S)|exact X5]|exact (st_agree _ _ _ _ S)].
Qed.

(** Several tags: [New] is the block whose tags have the values of the table *)
Fixpoint tags_ok (ks : list mtag) (off : Z) (New : list Z) : Prop :=
  match ks with
  | [] => True
  | k :: ks => 0 <= k_size k /\ off + k_size k <= zlen New /\ uniq (k_ty k) /\ ok_ty (skipn (Z.to_nat off) New) (k_ty k) (k_count k) 0 /\
               tags_ok ks (off + k_size k) New
  end.
Lemma push_tags_get : forall ks n off New acc t, push_tags ks n off New acc = Done (LTab t) -> forall j, j <= n -> rawget (KI j) t = rawget (KI j) acc.
Proof.
  induction ks as [|k ks IH]; intros n off New acc t H j J; cbn [push_tags] in H; [injection H as <-; reflexivity|].
  destruct (dax_to_lua _ _ _) as [v|]; [|discriminate]. cbn [rbind] in H. rewrite (IH _ _ _ _ _ H j) by lia. cbn [rawget key_eqb]. replace (j =? n + 1) with false by lia. reflexivity.
Qed.
Lemma push_tags_tab : forall ks n off New acc v, push_tags ks n off New acc = Done v -> exists t, v = LTab t.
Proof.
  induction ks as [|k ks IH]; intros n off New acc v H; cbn [push_tags] in H; [injection H as <-; eauto|].
  destruct (dax_to_lua _ _ _) as [x|]; [|discriminate]. cbn [rbind] in H. eauto.
Qed.
Lemma nthb_skipn a l i : 0 <= i -> nthb (skipn a l) i = nthb l (Z.of_nat a + i).
Proof.
  intros I. unfold nthb. rewrite <- (firstn_skipn a l) at 2. destruct (Nat.le_gt_cases a (length l)).
  - rewrite app_nth2 by (rewrite firstn_length; lia). rewrite firstn_length. f_equal. lia.
  - rewrite skipn_all2 by lia. rewrite app_nil_r. rewrite firstn_all2 by lia. rewrite !nth_overflow by (cbn; lia). reflexivity.
Qed.
Lemma bit_skipn a l k : 0 <= k -> bit_of (skipn a l) k = bit_of l (8 * Z.of_nat a + k).
Proof.
  intros K. unfold bit_of. rewrite nthb_skipn by lia. replace ((8 * Z.of_nat a + k) / 8) with (Z.of_nat a + k / 8) by lia.
  replace ((8 * Z.of_nat a + k) mod 8) with (k mod 8) by lia. reflexivity.
Qed.
Lemma bit_join a l r k : 0 <= k -> (a <= length l)%nat ->
  bit_of (firstn a l ++ r) k = if k <? 8 * Z.of_nat a then bit_of l k else bit_of r (k - 8 * Z.of_nat a).
Proof.
  intros K A. unfold bit_of, nthb. destruct (k <? 8 * Z.of_nat a) eqn:Q.
  - rewrite app_nth1 by (rewrite firstn_length; lia). rewrite <- (firstn_skipn a l) at 2. rewrite (app_nth1 (firstn a l)) by (rewrite firstn_length; lia). reflexivity.
  - rewrite app_nth2 by (rewrite firstn_length; lia). rewrite firstn_length. f_equal; [f_equal|]; lia.
Qed.
Lemma zlen_skipn a (l : list Z) : (a <= length l)%nat -> zlen (skipn a l) = zlen l - Z.of_nat a.
Proof. intros A. unfold zlen. rewrite skipn_length. lia. Qed.
Lemma zlen_join a (l r : list Z) : (a <= length l)%nat -> zlen r = zlen l - Z.of_nat a -> zlen (firstn a l ++ r) = zlen l.
Proof. intros A R. unfold zlen in *. rewrite app_length, firstn_length. lia. Qed.
Lemma bytes_ok_skipn a l : bytes_ok l -> bytes_ok (skipn a l).
Proof. unfold bytes_ok. intros H. rewrite <- (firstn_skipn a l) in H. apply Forall_app in H. tauto. Qed.
Lemma bytes_ok_firstn a l : bytes_ok l -> bytes_ok (firstn a l).
Proof. unfold bytes_ok. intros H. rewrite <- (firstn_skipn a l) in H. apply Forall_app in H. tauto. Qed.

Lemma read_not_nil (E : lenv) ty count new v w : bytes_ok new -> ok_ty new ty count 0 -> dax_to_lua new ty count = Done v -> ready new w -> is_lnil v = false.
Proof.
  intros B OK RD W. destruct ty as [t|ms].
  - destruct (pop_base_step new B E t count 0 0 v (push v w) RD OK) as (N & _); [apply ready_push, W|reflexivity|]. destruct v; [congruence|reflexivity..].
  - unfold dax_to_lua in RD. cbn [read_ty] in RD. destruct (1 <? count).
    + destruct (fill _ _ _ _); [|discriminate RD]. injection RD as <-. reflexivity.
    + destruct (read_ms _ _ _ _ _ _); [|discriminate RD]. injection RD as <-. reflexivity.
Qed.

(** [g]: the bits that have been written so far *)
Lemma fill_round E New t (BN : bytes_ok New) (VT : vok (LTab t)) : forall ks n off acc buff mask g, 0 <= off ->
  tags_ok ks off New -> push_tags ks n off New acc = Done (LTab t) -> off <= zlen New ->
  zlen buff = zlen New -> bytes_ok buff -> zlen mask = zlen New -> zlen g = zlen New -> agree New buff g ->
  exists b m g', fill_tags E ks n off (LTab t) buff mask = Done (b, m) /\ zlen b = zlen New /\ bytes_ok b /\ zlen m = zlen New /\ agree New b g' /\ submask g g' /\
    forall c, zlen c = zlen New -> bytes_ok c -> agree New c g' -> push_tags ks n off c acc = Done (LTab t).
Proof.
  induction ks as [|k ks IH]; intros n off acc buff mask g OFF TK PT OL LB BB LM LG AG.
  - cbn [push_tags] in PT. injection PT as ->. exists buff, mask, g. split; [reflexivity|]. do 4 (split; [assumption|]). split; [intros i I X; exact X|]. intros c _ _ _. reflexivity.
  - destruct TK as (K0 & K1 & K2 & K3 & K4). cbn [push_tags] in PT. destruct (dax_to_lua (skipn (Z.to_nat off) New) (k_ty k) (k_count k)) as [x|] eqn:RD; [|discriminate].
    cbn [rbind] in PT. assert (GX : rawget (KI (n + 1)) t = x).
    { rewrite (push_tags_get _ _ _ _ _ _ PT (n + 1)) by lia. cbn [rawget key_eqb]. rewrite Z.eqb_refl. reflexivity. }
    set (a := Z.to_nat off) in *. assert (AN : (a <= length New)%nat) by (unfold zlen in *; lia).
    assert (AB : (a <= length buff)%nat) by (unfold zlen in *; lia). assert (AM : (a <= length mask)%nat) by (unfold zlen in *; lia).
    assert (AG' : (a <= length g)%nat) by (unfold zlen in *; lia).
    set (w0 := {| w_stk := [x; LTab t]; w_data := skipn a buff; w_mask := skipn a g |}).
    set (w0' := {| w_stk := [x; LTab t]; w_data := skipn a buff; w_mask := skipn a mask |}).
    assert (R0 : ready (skipn a New) w0).
    { constructor; cbn; [rewrite !zlen_skipn by assumption; lia | rewrite !zlen_skipn by assumption; lia |].
      intros i I M. rewrite bit_skipn in M by exact I. rewrite !bit_skipn by exact I. apply AG; [lia|exact M]. }
    assert (BS := bytes_ok_skipn a New BN).
    pose proof (read_not_nil E _ _ _ _ _ BS K3 RD R0) as NN.
    destruct (lua_to_dax_step E (k_ty k) (k_count k) (skipn a New) x w0 BS K2 K3 RD R0 eq_refl) as (w & P & S).
    assert (X := lua_to_dax_both E (k_ty k) (k_count k) w0 w0'). rewrite P in X.
    assert (SM : same w0 w0').
    { unfold same, w0, w0'. cbn [w_stk w_data w_mask]. do 2 (split; [reflexivity|]). split; [rewrite !zlen_skipn by assumption; lia|]. split; [|apply bytes_ok_skipn; exact BB].
      constructor; [rewrite <- GX; apply vok_get; exact VT|]. constructor; [exact VT|constructor]. }
    specialize (X SM). destruct (lua_to_dax E (k_ty k) (k_count k) w0') as [[e w']|u] eqn:P'; cbn [both2] in X; [|contradiction].
    destruct X as (_ & _ & XD & XM & _ & BW).
    destruct S as [S1 S2 S3 S4 S5 S6]. rewrite zlen_skipn in S2, S3 by exact AN.
    set (b1 := firstn a buff ++ w_data w). set (g1 := firstn a g ++ w_mask w). set (m1 := firstn a mask ++ w_mask w').
    assert (LB1 : zlen b1 = zlen New) by (unfold b1; rewrite zlen_join by (assumption || lia); exact LB).
    assert (LG1 : zlen g1 = zlen New) by (unfold g1; rewrite zlen_join by (assumption || lia); exact LG).
    assert (LM1 : zlen m1 = zlen New) by (unfold m1; rewrite zlen_join by (assumption || lia); exact LM).
    assert (BB1 : bytes_ok b1) by (apply bytes_ok_app; [apply bytes_ok_firstn; exact BB|exact BW]).
    assert (AG1 : agree New b1 g1).
    { intros i I M. unfold b1, g1 in *. rewrite bit_join in M by assumption. rewrite bit_join by assumption. destruct (i <? 8 * Z.of_nat a) eqn:Q; [apply AG; assumption|].
      apply S4 in M; [|lia]. rewrite M, bit_skipn by lia. f_equal. lia. }
    destruct (IH (n + 1) (off + k_size k) ((KI (n + 1), x) :: acc) b1 m1 g1) as (b & m & g' & F & L1 & L2 & L3 & L4 & L5 & L6); try assumption; [lia|].
    exists b, m, g'. split.
    { cbn [fill_tags]. rewrite GX, NN. replace (in_bounds off 0 (zlen buff)) with true by (symmetry; apply in_bounds_iff; lia). fold a. fold w0'. rewrite P'. cbn [rbind snd]. rewrite <- XD. exact F. }
    do 4 (split; [assumption|]). split.
    { intros i I M. apply L5; [exact I|]. unfold g1. rewrite bit_join by assumption. destruct (i <? 8 * Z.of_nat a) eqn:Q; [exact M|].
      apply S5; [lia|]. unfold w0. cbn [w_mask]. rewrite bit_skipn by lia. replace (8 * Z.of_nat a + (i - 8 * Z.of_nat a)) with i by lia. exact M. }
    intros c C1 C2 C3. cbn [push_tags]. fold a.
    assert (AC : (a <= length c)%nat) by (unfold zlen in *; lia).
    rewrite (S6 (skipn a c)).
    + cbn [rbind]. apply L6; assumption.
    + split; [rewrite !zlen_skipn by assumption; lia|apply bytes_ok_skipn; exact C2].
    + intros i I M. rewrite !bit_skipn by exact I. apply C3; [lia|]. apply L5; [lia|]. unfold g1. rewrite bit_join by (assumption || lia).
      replace (8 * Z.of_nat a + i <? 8 * Z.of_nat a) with false by lia. replace (8 * Z.of_nat a + i - 8 * Z.of_nat a) with i by lia. exact M.
Qed.
(** Several tags and a table made the way publish_callback makes it: the block
    reads as that table again *)
Theorem C94_round_partial : forall E k1 k2 ks New v payload buff mask, bytes_ok New -> tags_ok (k1 :: k2 :: ks) 0 New ->
  push_tags (k1 :: k2 :: ks) 0 0 New [] = Done v -> vok v -> bytes_ok buff -> zlen buff = zlen New -> zlen mask = zlen New ->
  exists b m, arrived E (k1 :: k2 :: ks) (Some (Gave v)) payload buff mask = Done (b, m) /\ zlen b = zlen New /\ bytes_ok b /\
    push_tags (k1 :: k2 :: ks) 0 0 b [] = Done v.
Proof.
  intros E k1 k2 ks New v payload buff mask BN TK PT V BB LB LM. destruct (push_tags_tab _ _ _ _ _ _ PT) as [t ->].
  destruct (fill_round E New t BN V (k1 :: k2 :: ks) 0 0 [] buff mask (zeros (zlen New))) as (b & m & g & F & L1 & L2 & L3 & L4 & L5 & L6); auto; try lia.
  - apply zlen_nonneg.
  - apply zlen_zeros, zlen_nonneg.
  - intros i I M. exfalso. unfold bit_of, nthb, zeros in M. rewrite nth_repeat, Z.testbit_0_l in M. discriminate.
  - exists b, m. split; [|split; [exact L1|split; [exact L2|apply L6; assumption]]]. unfold arrived. rewrite F. reflexivity.
Qed.
(** What the function did not give for one tag shifts all that follow: tags of
    one byte each, 5 for the second one alone *)
Definition one : mtag := {| k_ty := LB T_BYTE; k_count := 1; k_size := 1 |}.
Theorem C94_nil_refuted : forall E payload a b m1 m2,
  arrived E [one; one] (Some (Gave (LTab [(KI 2, LInt 5)]))) payload [a; b] [m1; m2] = Done ([5; b], [255; m2]).
Proof. intros. reflexivity. Qed.
(** A function that fails: the block of the message before is written again *)
Theorem C94_failed_refuted : forall E ks msg payload buff mask, ks <> [] ->
  arrived E ks (Some (Failed msg)) payload buff mask = Done (buff, mask).
Proof. intros E ks msg payload buff mask K. unfold arrived. cbn [rbind]. destruct ks; [congruence|reflexivity]. Qed.
(** Several tags, and a function that gives no table *)
Theorem C94_table_refuted : forall E k1 k2 ks v payload buff mask, (forall t, v <> LTab t) ->
  arrived E (k1 :: k2 :: ks) (Some (Gave v)) payload buff mask = Undef UOob.
Proof. intros E k1 k2 ks v payload buff mask V. unfold arrived. cbn [fill_tags]. destruct v; try reflexivity. destruct (V t eq_refl). Qed.
(** No tags (the function is to do the work), whatever the function does *)
Theorem C94_notags_refuted : forall E c payload buff mask, arrived E [] (Some c) payload buff mask = Undef UNull.
Proof. intros E [m|v] payload buff mask; reflexivity. Qed.

(** ** C95: what is published *)
Lemma zlen_cons {A} (x : A) l : zlen (x :: l) = 1 + zlen l.
Proof. unfold zlen. cbn [length]. lia. Qed.
(** Without a filter: the bytes the server gave *)
Theorem C95_raw_partial : forall T ks gi d buff, ks <> [] -> zlen d = zlen buff -> (1 < zlen ks -> 4 <= zlen buff) ->
  triggered T ks gi None (Some d) buff = Done (Some d, d).
Proof.
  intros T ks gi d buff K D S. unfold triggered, pub_read. destruct ks as [|k ks]; [congruence|]. rewrite zlen_cons in *. pose proof (zlen_nonneg ks).
  destruct (1 + zlen ks =? 1) eqn:Q1; cbn [rbind].
  - rewrite splice_all by exact D. reflexivity.
  - replace (1 + zlen ks =? 0) with false by lia. replace (zlen buff <? 4) with false by lia. cbn [rbind].
    rewrite splice_all; [reflexivity|]. rewrite D, zlen_splice; [reflexivity|]. rewrite zlen_le_bytes. apply in_bounds_iff. lia.
Qed.
(** and these are the bytes of the tag *)
Theorem C95_stored_partial : forall T E cc fd s h k b buff w,
  reachable E s -> stored s (h_index h) b -> no_override s (h_index h) -> zlen b < 2147483648 ->
  inside h b -> zlen buff = h_size h -> In (h_type h, w) elementary -> 0 <= h_count h -> h_size h = w * h_count h ->
  exists s', on_trigger T E cc fd s h k buff = Done (s', Some (slice (h_byte h) (h_size h) b)) /\ s_db s' = s_db s.
Proof.
  intros T E cc fd s h k b buff w R S N Z I B W C H.
  destruct (C45_read_succeeds E cc fd s h buff b w) as (s' & buf' & RD); try assumption; [lia|].
  assert (NB : h_type h <> T_BOOL).
  { cbn [In elementary] in W. repeat (destruct W as [[= <- _]|W]; [discriminate|]). contradiction. }
  destruct (C45_read E cc fd s h buff b s' buf') as (D & L & V & _); try assumption; [lia|].
  exists s'. split; [|exact D]. unfold on_trigger. rewrite RD. cbn [rbind]. change (0 =? 0) with true. cbv iota.
  rewrite C95_raw_partial; [|congruence|exact L|cbn; lia]. cbn [rbind fst]. rewrite <- V, slice_short by lia. reflexivity.
Qed.
(** One tag published and another one of the same size subscribed: the same bytes *)
Theorem C95_round_partial : forall T L E cc fd s h k b buff w E2 cc2 fd2 s2 h2 k2 b2 buff2 s2',
  reachable E s -> stored s (h_index h) b -> no_override s (h_index h) -> zlen b < 2147483648 ->
  inside h b -> zlen buff = h_size h -> In (h_type h, w) elementary -> 0 <= h_count h -> h_size h = w * h_count h ->
  reachable E2 s2 -> stored s2 (h_index h2) b2 -> no_mapping s2 (h_index h2) -> zlen b2 < 2147483648 -> inside h2 b2 -> h_type h2 <> T_BOOL ->
  zlen buff2 = h_size h2 -> h_size h2 = h_size h ->
  exists s' payload, on_trigger T E cc fd s h k buff = Done (s', Some payload) /\
    (on_message L E2 cc2 fd2 s2 h2 k2 payload buff2 = Done (s2', 0) ->
     exists b2', stored s2' (h_index h2) b2' /\ slice (h_byte h2) (h_size h2) b2' = slice (h_byte h) (h_size h) b /\
       forall i, i < h_byte h2 \/ h_byte h2 + h_size h2 <= i -> znth b2' i = znth b2 i).
Proof.
  intros T L E cc fd s h k b buff w E2 cc2 fd2 s2 h2 k2 b2 buff2 s2' R S N Z I B W C H R2 S2 N2 Z2 I2 T2 B2 EQ.
  destruct (C95_stored_partial T E cc fd s h k b buff w) as (s' & P & _); try assumption.
  exists s', (slice (h_byte h) (h_size h) b). split; [exact P|]. intros M. destruct I as (I1 & I1' & I1''). destruct I2 as (J1 & J2 & J3).
  assert (LP : zlen (slice (h_byte h) (h_size h) b) = h_size h) by (apply zlen_slice, in_bounds_iff; lia).
  destruct (C93_stored_partial L E2 cc2 fd2 s2 h2 k2 (slice (h_byte h) (h_size h) b) buff2 b2 s2') as (_ & X); try assumption; [unfold inside; lia|lia|].
  rewrite EQ in *. rewrite slice_short in X by lia. eexists. split; [exact X|].
  assert (IB : in_bounds (h_byte h2) (zlen (slice (h_byte h) (h_size h) b)) (zlen b2) = true) by (apply in_bounds_iff; lia).
  split.
  - rewrite <- LP at 1. apply slice_splice_same. exact IB.
  - intros i Hi. destruct (Z.neg_nonneg_cases i); [rewrite !(proj2 (znth_none _ i)) by (left; lia); reflexivity|].
    rewrite znth_splice by (exact IB || lia). replace ((h_byte h2 <=? i) && (i <? h_byte h2 + zlen (slice (h_byte h) (h_size h) b))) with false by lia. reflexivity.
Qed.
(** The server refuses: what was read before is published, for several tags with
    the number of the group at its start *)
Theorem C95_stale_refuted : forall T k gi buff, triggered T [k] gi None None buff = Done (Some buff, buff).
Proof. intros. reflexivity. Qed.
Theorem C95_stale_group_refuted : forall T k1 k2 ks gi buff, 4 <= zlen buff ->
  triggered T (k1 :: k2 :: ks) gi None None buff = Done (Some (splice 0 (le_bytes 4 gi) buff), splice 0 (le_bytes 4 gi) buff).
Proof.
  intros T k1 k2 ks gi buff B. unfold triggered, pub_read. rewrite !zlen_cons. pose proof (zlen_nonneg ks).
  replace (1 + (1 + zlen ks) =? 1) with false by lia. replace (1 + (1 + zlen ks) =? 0) with false by lia. replace (zlen buff <? 4) with false by lia. reflexivity.
Qed.
(** Tags that together have fewer than four bytes *)
Theorem C95_small_refuted : forall T k1 k2 ks gi filter ans buff, zlen buff < 4 -> triggered T (k1 :: k2 :: ks) gi filter ans buff = Undef UOob.
Proof.
  intros T k1 k2 ks gi filter ans buff B. unfold triggered, pub_read. rewrite !zlen_cons. pose proof (zlen_nonneg ks).
  replace (1 + (1 + zlen ks) =? 1) with false by lia. replace (1 + (1 + zlen ks) =? 0) with false by lia. replace (zlen buff <? 4) with true by lia. reflexivity.
Qed.
(** No tags: the case the function's argument nil is meant for *)
Theorem C95_notags_refuted : forall T gi filter ans buff, triggered T [] gi filter ans buff = Undef UNull.
Proof. intros. reflexivity. Qed.
(** The text of an error is published *)
Theorem C95_error_refuted : forall T k gi f d msg buff v, dax_to_lua (splice 0 d buff) (k_ty k) (k_count k) = Done v -> f v = Failed msg ->
  triggered T [k] gi (Some f) (Some d) buff = Done (Some msg, splice 0 d buff).
Proof. intros T k gi f d msg buff v H F. unfold triggered, pub_read. change (zlen [k] =? 1) with true. cbv iota. cbn [rbind negb]. rewrite H. cbn [rbind]. rewrite F. reflexivity. Qed.
(** With a filter: the function gets the value of the tag, or of the tags in
    order, and what it gives is sent *)
Theorem C95_filter_partial : forall T ks gi f d buff v arg s, ks <> [] -> zlen d = zlen buff -> (1 < zlen ks -> 4 <= zlen buff) ->
  match ks with [k] => dax_to_lua d (k_ty k) (k_count k) | _ => push_tags ks 0 0 d [] end = Done arg ->
  f arg = Gave v -> tolstring T v = Some s -> triggered T ks gi (Some f) (Some d) buff = Done (Some s, d).
Proof.
  intros T ks gi f d buff v arg s K D S A F V. pose proof (C95_raw_partial T ks gi d buff K D S) as X. unfold triggered in *.
  destruct (pub_read (zlen ks) gi (Some d) buff) as [[ok b]|] eqn:P; [|discriminate]. cbn [rbind] in *. injection X as ->.
  assert (ok = true) as ->.
  { unfold pub_read in P. destruct (zlen ks =? 1); [injection P; congruence|]. destruct (zlen ks =? 0); [discriminate|]. destruct (zlen buff <? 4); [discriminate|]. injection P; congruence. }
  cbn [negb]. rewrite A. cbn [rbind]. rewrite F, V. reflexivity.
Qed.

(** ** Concrete cases *)
(** a message for two elements of a tag *)
Example C93_ex : forall L, let h := mk_h 13 8 0 2 8 T_DINT in exists b s',
  stored demo 13 b /\ no_mapping demo 13 /\ inside h b /\
  on_message L env0 [] 5 demo h kb [1; 2; 3; 4; 5; 6; 7; 8; 9] (zeros 8) = Done (s', 0) /\
  stored s' 13 (splice 8 [1; 2; 3; 4; 5; 6; 7; 8] b).
Proof.
  intros L. cbv zeta. eexists. eexists. split; [find_tag; split; vm_compute; reflexivity|].
  split; [intros t A; vm_compute in A; injection A as <-; vm_compute; reflexivity|]. split; [vm_compute; repeat split; congruence|].
  split; [vm_compute; reflexivity|]. find_tag; split; vm_compute; reflexivity.
Qed.
(** a DINT and two BYTEs *)
Definition kd : mtag := {| k_ty := LB T_DINT; k_count := 1; k_size := 4 |}.
Definition k2b : mtag := {| k_ty := LB T_BYTE; k_count := 2; k_size := 2 |}.
Example C94_ex : forall E, let New := [1; 1; 0; 0; 7; 9] in let v := LTab [(KI 2, LTab [(KI 2, LInt 9); (KI 1, LInt 7)]); (KI 1, LInt 257)] in
  bytes_ok New /\ tags_ok [kd; k2b] 0 New /\ push_tags [kd; k2b] 0 0 New [] = Done v /\ vok v /\
  arrived E [kd; k2b] (Some (Gave v)) [120] [9; 9; 9; 9; 9; 9] (zeros 6) = Done ([1; 1; 0; 0; 7; 9], [255; 255; 255; 255; 255; 255]).
Proof.
  intros E. cbv zeta. split; [repeat constructor; lia|]. split; [cbn; repeat split; try lia; auto; intros n N; right; unfold ok_elem; cbn; auto|].
  split; [vm_compute; reflexivity|]. split; [cbn; repeat split|]. vm_compute. reflexivity.
Qed.
Example C95_ex : forall T, let h := mk_h 16 4088 0 1 8 T_LINT in exists b,
  stored long_server 16 b /\ no_override long_server 16 /\ inside h b /\ In (h_type h, 8) elementary /\ h_size h = 8 * h_count h /\
  exists s', on_trigger T env0 [] 5 long_server h kb (zeros 8) = Done (s', Some (slice 4088 8 b)) /\ slice 4088 8 b <> zeros 8 /\
  triggered T [kd; k2b] 3 (Some (fun a => match a with LTab (x :: _) => Gave (LStr [120]) | _ => Failed [1] end)) (Some [1; 1; 0; 0; 7; 9]) (zeros 6)
    = Done (Some [120], [1; 1; 0; 0; 7; 9]).
Proof.
  intros T. cbv zeta. eexists. split; [find_tag; split; vm_compute; reflexivity|].
  split; [intros t A; vm_compute in A; injection A as <-; vm_compute; reflexivity|]. split; [vm_compute; repeat split; congruence|].
  split; [cbn; tauto|]. split; [reflexivity|]. eexists. split; [vm_compute; reflexivity|]. split; [vm_compute; congruence|]. vm_compute. reflexivity.
Qed.
