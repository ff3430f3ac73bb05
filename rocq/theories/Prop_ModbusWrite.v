(** * C57, C58: write requests to a Modbus slave; no request makes the slave leave its buffers *)
From Verif Require Import Base Const Types State Events Atomic Server Lib Frame Shape Inv Reach Spec Out Demo Prop_Tags Prop_Data ClientTypes ClientData Prop_ClientData Crc Modbus Prop_Atomic Prop_Maps Prop_Modbus.

(** a tag that any module may write, with no events and no mappings, and not retained *)
Definition quiet (s : server) (i : Z) : Prop := forall t, znth (s_db s) i = Some t ->
  has (t_attr t) A_READONLY = false /\ has (t_attr t) A_SPECIAL = false /\ has (t_attr t) A_RETAIN = false /\ t_events t = [] /\ t_maps t = Some [].
Lemma quiet_no_mapping s i : quiet s i -> no_mapping s i.
Proof. intros Q t H. apply (Q t H). Qed.
Lemma quiet_only s s' i b : stored s i b -> only_data s s' i -> quiet s i -> quiet s' i.
Proof.
  intros (t0 & T0 & _) (_ & _ & D & _) Q t' T'. destruct (D _ T0) as (t2 & T2 & C1 & C2 & C3). assert (t2 = t') by congruence. subst t2.
  destruct (Q _ T0) as (Q1 & Q2 & Q3 & Q4 & Q5). injection C1 as H1 H2 H3 H4 H5 H6 H7. injection C2 as H8 H9 H10 H11.
  rewrite H2, H8. rewrite Q4 in C3. split; [exact Q1|]. split; [exact Q2|]. split; [exact Q3|]. split; [destruct (t_events t'); [reflexivity|discriminate] | exact Q5].
Qed.
Lemma plain_only s s' i b b' : plain s i b -> only_data s s' i -> stored s' i b' -> bytes_ok b' -> zlen b' = zlen b -> plain s' i b'.
Proof.
  intros ((t0 & T0 & V0 & D0) & NO & _ & Z) (_ & _ & D & _) S' B L. split; [exact S'|]. split; [|split; [exact B | lia]].
  intros t' T'. destruct (D _ T0) as (t2 & T2 & C1 & _). assert (t2 = t') by congruence. subst t2. injection C1 as H1 H2 H3 H4 H5 H6 H7. rewrite H2. apply NO. exact T0.
Qed.
Lemma quiet_map_check E i off n s t : znth (s_db s) i = Some t -> t_maps t = Some [] -> map_check E i off n s = Done (s, tt).
Proof. intros H M. unfold map_check, tag_at, bind. rewrite H. cbn. rewrite M. reflexivity. Qed.
Lemma quiet_commit E i t b off n s : has (t_attr t) A_RETAIN = false -> t_events t = [] ->
  commit E i t b off n s = Done (set_out (set_tag s i (set_events (set_data t (DBytes b)) [])) (s_out s ++ []), tt).
Proof. intros H1 H2. unfold commit. rewrite H1, H2. reflexivity. Qed.
Lemma quiet_write E s fd i off d b : reachable E s -> stored s i b -> quiet s i -> zlen b < 2147483648 -> 0 <= off -> off + zlen d <= zlen b ->
  exists s', step E s (OpWrite fd i off d) = Done (after s' [OResp fd MSG_TAG_WRITE []]).
Proof.
  intros R (t & Ht & V & D) Q Z Ho Hb. assert (I := reachable_Inv _ _ R). destruct (Q _ Ht) as (Q1 & Q2 & Q3 & Q4 & Q5).
  assert (Ld := zlen_nonneg d). exists (set_out (set_tag s i (set_events (set_data t (DBytes (splice off d b))) [])) (s_out s ++ [])). unfold step. cbn [handle_op]. unfold h_write. rewrite bind_get. rewrite (bind_lift_done _ _ _ _ (attr_at_znth _ _ _ _ Ht)). rewrite Q1. cbn [andb].
  unfold bind at 1. unfold tag_write. rewrite Ht, V. replace (fits32 (off + zlen d)) with true by (unfold fits32; lia). cbn [negb]. rewrite (stored_size _ _ _ _ I Ht D). cbn [rbind].
  rewrite s32_small by lia. replace (zlen b <? off + zlen d) with false by lia. rewrite D, Q2. change (negb (0 =? 0)) with false. cbv iota. cbv zeta. cbn [negb].
  replace (in_bounds off (zlen d) (zlen b)) with true by (unfold in_bounds; lia). cbn [negb]. rewrite (quiet_commit _ _ _ _ _ _ _ Q3 Q4). change (negb (0 =? 0)) with false. cbv iota.
  unfold bind at 1. erewrite quiet_map_check; [|cbn [s_db set_tag set_out set_db]; apply znth_zset_eq; eapply znth_range; exact Ht | exact Q5]. reflexivity.
Qed.
Lemma quiet_mask E s fd i off d m b : reachable E s -> stored s i b -> quiet s i -> zlen b < 2147483648 -> 0 <= off -> off + zlen d <= zlen b -> zlen d <= zlen m ->
  exists s', step E s (OpMask fd i off d m) = Done (after s' [OResp fd MSG_TAG_MWRITE []]).
Proof.
  intros R (t & Ht & V & D) Q Z Ho Hb Hm. assert (I := reachable_Inv _ _ R). destruct (Q _ Ht) as (Q1 & Q2 & Q3 & Q4 & Q5).
  assert (Ld := zlen_nonneg d). exists (set_out (set_tag s i (set_events (set_data t (DBytes (splice off (mix (slice off (zlen d) b) d m) b))) [])) (s_out s ++ [])). unfold step. cbn [handle_op]. unfold h_mask. rewrite bind_get. rewrite (bind_lift_done _ _ _ _ (attr_at_znth _ _ _ _ Ht)). rewrite Q1.
  unfold bind at 1. unfold tag_mask_write. rewrite (attr_at_znth _ _ _ _ Ht). cbn [rbind]. rewrite V, Ht. replace (fits32 (off + zlen d)) with true by (unfold fits32; lia). cbn [negb]. rewrite (stored_size _ _ _ _ I Ht D). cbn [rbind].
  rewrite s32_small by lia. replace (zlen b <? off + zlen d) with false by lia. rewrite D, Q2. cbv zeta. change (negb (0 =? 0)) with false. cbv iota.
  replace (in_bounds off (zlen d) (zlen b)) with true by (unfold in_bounds; lia). replace (zlen m <? zlen d) with false by lia. cbn [negb orb]. rewrite (quiet_commit _ _ _ _ _ _ _ Q3 Q4). change (negb (0 =? 0)) with false. cbv iota.
  unfold bind at 1. erewrite quiet_map_check; [|cbn [s_db set_tag set_out set_db]; apply znth_zset_eq; eapply znth_range; exact Ht | exact Q5]. reflexivity.
Qed.
Lemma ask_after1 E s s1 o r : step E s o = Done (after s1 [r]) ->
  ask E s o = Done (after s1 [r], match r with OResp _ _ p => inl p | OErr _ _ c => inr c | _ => inr E_TIMEOUT end).
Proof. intros H. unfold ask. rewrite H. cbn [rbind]. unfold after. cbn [s_out set_step set_out]. rewrite rev_app_distr. destruct r; reflexivity. Qed.
Lemma land_byte x m : 0 <= x < 256 -> 0 <= Z.land x m < 256.
Proof. intros H. rewrite <- (Z.lnot_involutive m), <- Z.ldiff_land. apply ldiff_byte. exact H. Qed.
Lemma mix_bytes o : forall n m, bytes_ok o -> bytes_ok n -> bytes_ok m -> bytes_ok (mix o n m).
Proof.
  induction o as [|x o IH]; intros [|y n] [|z m] A B C; cbn [mix]; try constructor.
  - apply Forall_inv in A. apply Forall_inv in B. apply Forall_inv in C. apply lor_byte.
    + apply land_byte. exact B.
    + apply land_byte. exact A.
  - apply IH; [apply Forall_inv_tail in A | apply Forall_inv_tail in B | apply Forall_inv_tail in C]; assumption.
Qed.
(** one write to a quiet tag: stored if it fits, refused as too big otherwise *)
Lemma c_write_quiet E fd i off size at_ d s b : reachable E s -> stored s i b -> quiet s i -> zlen b < 2147483648 -> 0 <= off -> 0 <= size <= 4080 ->
  off + size < 2147483648 -> in_bounds at_ size (zlen d) = true ->
  exists s' e, c_write E fd i off size at_ d s = Done (s', e) /\ reachable E s' /\
    ((off + size <= zlen b /\ e = 0 /\ only_data s s' i /\ stored s' i (splice off (slice at_ size d) b)) \/ (zlen b < off + size /\ e < 0 /\ s_db s' = s_db s)).
Proof.
  intros R S Q Z Ho Hs Hz Hd. assert (L := zlen_slice _ _ _ Hd).
  assert (C : exists s' e, c_write E fd i off size at_ d s = Done (s', e) /\ reachable E s' /\ (off + size <= zlen b -> e = 0) /\ (zlen b < off + size -> e < 0 /\ s_db s' = s_db s)).
  { unfold c_write. replace (MSG_DATA_SIZE <? size + 8) with false by (unfold MSG_DATA_SIZE, DAX_MSGMAX; lia). rewrite Hd. cbn [negb]. rewrite s32_small by lia.
    destruct (Z_lt_le_dec (zlen b) (off + size)) as [X|X].
    - destruct (C08_past_end_refused E s i off size b fd _ _ R S Z Ho ltac:(lia) ltac:(lia) X (dr_write _ _ _ _ _ L)) as (code & Hc & St).
      assert (R' := reachable_step _ _ _ _ R St). rewrite (ask_after _ _ _ _ St). cbn [rbind]. eexists. eexists. split; [reflexivity|]. split; [exact R'|]. split; [lia|]. intros _. split; [exact Hc | reflexivity].
    - destruct (quiet_write E s fd i off (slice at_ size d) b R S Q Z Ho ltac:(lia)) as (s1 & St). assert (R' := reachable_step _ _ _ _ R St).
      rewrite (ask_after1 _ _ _ _ _ St). cbn [rbind]. eexists. eexists. split; [reflexivity|]. split; [exact R'|]. split; [reflexivity | lia]. }
  destruct C as (s' & e & C & R' & C1 & C2). exists s', e. split; [exact C|]. split; [exact R'|]. destruct (Z_lt_le_dec (zlen b) (off + size)) as [X|X].
  - right. split; [exact X | exact (C2 X)].
  - left. specialize (C1 X). subst e. split; [exact X|]. split; [reflexivity|].
    destruct (write_part E fd i off size at_ d s b s' 0 R S (quiet_no_mapping _ _ Q) Z Ho ltac:(lia) X C) as [(_ & _ & _ & O1 & S1)|(F & _)]; [|lia]. split; assumption.
Qed.
Lemma c_mask_quiet E fd i off size at_ d m s b : reachable E s -> plain s i b -> quiet s i -> bytes_ok d -> bytes_ok m -> 0 <= off -> 0 <= size <= 2040 ->
  off + size < 2147483648 -> in_bounds at_ size (zlen d) = true -> in_bounds at_ size (zlen m) = true ->
  exists s' e, c_mask E fd i off size at_ d m s = Done (s', e) /\ reachable E s' /\
    ((off + size <= zlen b /\ e = 0 /\ only_data s s' i /\ exists b', stored s' i b' /\ bytes_ok b' /\ masked b b' d m off size at_) \/ (zlen b < off + size /\ e < 0 /\ s_db s' = s_db s)).
Proof.
  intros R (S & NO & Bb & Z) Q Bd Bm Ho Hs Hz Hd Hm. assert (L := zlen_slice _ _ _ Hd). assert (L2 := zlen_slice _ _ _ Hm).
  assert (C : exists s' e, c_mask E fd i off size at_ d m s = Done (s', e) /\ reachable E s' /\ (off + size <= zlen b -> e = 0 /\ exists b', stored s' i b' /\ bytes_ok b') /\ (zlen b < off + size -> e < 0 /\ s_db s' = s_db s)).
  { unfold c_mask. replace (MSG_DATA_SIZE <? size * 2 + 8) with false by (unfold MSG_DATA_SIZE, DAX_MSGMAX; lia). rewrite Hd, Hm. cbn [negb andb]. rewrite s32_small by lia.
    destruct (Z_lt_le_dec (zlen b) (off + size)) as [X|X].
    - destruct (C08_past_end_refused E s i off size b fd _ _ R S Z Ho ltac:(lia) ltac:(lia) X (dr_mask _ _ _ _ _ (slice at_ size m) L)) as (code & Hc & St).
      assert (R' := reachable_step _ _ _ _ R St). rewrite (ask_after _ _ _ _ St). cbn [rbind]. eexists. eexists. split; [reflexivity|]. split; [exact R'|]. split; [lia|]. intros _. split; [exact Hc | reflexivity].
    - destruct (quiet_mask E s fd i off (slice at_ size d) (slice at_ size m) b R S Q Z Ho ltac:(lia) ltac:(lia)) as (s1 & St). assert (R' := reachable_step _ _ _ _ R St).
      assert (K : exists b', stored (after s1 [OResp fd MSG_TAG_MWRITE []]) i b' /\ bytes_ok b').
      { destruct (mask_outcome _ _ _ _ _ _ _ _ St) as [(code & Hc & F) | (s2 & s3 & W1 & W2 & F)].
        - exfalso. apply (f_equal (fun x => rev (s_out x))) in F. unfold after in F. cbn [s_out set_step set_out] in F. rewrite !rev_app_distr in F. discriminate.
        - assert (A : answered s (after s3 [OResp fd MSG_TAG_MWRITE []]) (OResp fd MSG_TAG_MWRITE [])).
          { unfold after. apply answered_step, answered_resp. eapply evout_trans; [eapply tag_mask_write_evout; exact W1 | eapply map_check_evout; exact W2]. }
          rewrite <- F in A. eexists. split; [exact (proj2 (proj2 (C04_mask_stores _ _ _ _ _ _ _ _ _ R S (no_mapping_avoid _ _ (quiet_no_mapping _ _ Q)) St A)))|].
          apply bytes_ok_splice; [|exact Bb]. apply mix_bytes; apply bytes_ok_slice; assumption. }
      rewrite (ask_after1 _ _ _ _ _ St). cbn [rbind]. eexists. eexists. split; [reflexivity|]. split; [exact R'|].
      split; [intros _; split; [reflexivity | exact K] | lia]. }
  destruct C as (s' & e & C & R' & C1 & C2). exists s', e. split; [exact C|]. split; [exact R'|]. destruct (Z_lt_le_dec (zlen b) (off + size)) as [X|X].
  - right. split; [exact X | exact (C2 X)].
  - left. destruct (C1 X) as (-> & b1 & Sb1 & Bb1). split; [exact X|]. split; [reflexivity|].
    destruct (mask_part E fd i off size at_ d m s b s' 0 R S (quiet_no_mapping _ _ Q) Bm Z Ho ltac:(lia) X C) as [(_ & _ & O1 & b' & S1 & M)|(F & _)]; [|lia]. split; [exact O1|].
    exists b'. split; [exact S1|]. split; [|exact M]. assert (b1 = b') by (destruct Sb1 as (t1 & T1 & _ & D1), S1 as (t2 & T2 & _ & D2); congruence). subst b1. exact Bb1.
Qed.
Lemma words_write E cc fd i a c d s b : reachable E s -> plain s i b -> quiet s i -> 0 <= a < 65536 -> 0 <= c -> 2 * c <= zlen d -> 2 * c <= 4080 ->
  exists s', slave_write E cc fd true i a c d s = Done s' /\ reachable E s' /\
    ((2 * (a + c) <= zlen b /\ only_data s s' i /\ stored s' i (splice (2 * a) (slice 0 (2 * c) d) b)) \/ (zlen b < 2 * (a + c) /\ s_db s' = s_db s)).
Proof.
  intros R (S & NO & Bb & Zb) Q Ha Hc Hd Hs. unfold slave_write, slave_handle, dax_tag_write, bits_path. cbn [h_size h_type h_byte h_index h_count h_bit].
  change (T_UINT =? T_BOOL) with false. cbn [andb]. cbv iota. unfold write_format. rewrite (base_fmt true _ _ _ 2) by (first [lia | cbn; tauto]). cbn [rbind].
  change (negb (0 =? 0)) with false. cbv iota. replace (4080 <? c * 2) with false by lia.
  destruct (c_write_quiet E fd i (a * 2) (c * 2) 0 d s b R S Q Zb ltac:(lia) ltac:(lia) ltac:(lia) ltac:(unfold in_bounds; lia)) as (s' & e & -> & R' & K). cbn [rbind fst].
  exists s'. split; [reflexivity|]. split; [exact R'|]. rewrite (Z.mul_comm 2 a), (Z.mul_comm 2 c). destruct K as [(K1 & _ & K2 & K3)|(K1 & _ & K2)]; [left | right]; [split; [lia|]; split; assumption | split; [lia | exact K2]].
Qed.
Definition coils_stored (a c : Z) (d b b' : list Z) : Prop :=
  zlen b' = zlen b /\ forall k, 0 <= k < 8 * zlen b -> bit b' k = if (a <=? k) && (k <? a + c) then bit d (k - a) else bit b k.
(** the library needs one more byte than there are coils in some cases (C47) *)
Definition coils_room (a c : Z) (b : list Z) : Prop := a + c <= 8 * zlen b /\ (a mod 8 = 0 \/ c mod 8 <> 0 \/ (a + c) / 8 + 2 <= zlen b).
Lemma bits_write E cc fd i a c d s b : reachable E s -> plain s i b -> quiet s i -> bytes_ok d -> 0 <= a < 65536 -> 0 <= c <= 2048 -> c <= 8 * zlen d -> 1 <= zlen d ->
  exists s', slave_write E cc fd false i a c d s = Done s' /\ reachable E s' /\
    ((only_data s s' i /\ exists b', stored s' i b' /\ bytes_ok b' /\ zlen b' = zlen b /\ (1 <= c -> coils_stored a c d b b')) \/ (s_db s' = s_db s /\ (1 <= c -> ~ coils_room a c b))).
Proof.
  intros R P Q Bd Ha Hc Hd Hd1. assert (P' := P). destruct P' as (S & NO & Bb & Zb).
  assert (Sz : bits_size a c = if 1 <=? c then (a mod 8 + c - 1) / 8 + 1 else 1).
  { destruct (Z.leb_spec 1 c); [apply bits_size_pos; lia|]. unfold bits_size. assert (c = 0) by lia. subst c. rewrite Z.rem_mod_nonneg by lia. assert (0 <= a mod 8 < 8) by lia. set (r := a mod 8) in *. clearbody r.
    assert (r = 0 \/ r = 1 \/ r = 2 \/ r = 3 \/ r = 4 \/ r = 5 \/ r = 6 \/ r = 7) as D by lia. repeat (destruct D as [->|D]; [reflexivity|]). subst r. reflexivity. }
  unfold slave_write, slave_handle. fold (bits_size a c). rewrite Z.rem_mod_nonneg, Z.quot_div_nonneg by lia. cbv zeta.
  unfold dax_tag_write, bits_path. cbn [h_size h_type h_byte h_index h_count h_bit]. change (T_BOOL =? T_BOOL) with true. cbn [andb].
  destruct ((0 <? a mod 8) || negb (c mod 8 =? 0)) eqn:Bp.
  - unfold write_bits. cbn [h_size h_type h_byte h_index h_count h_bit]. set (sz := bits_size a c + (if negb (a mod 8 =? 0) && (c mod 8 =? 0) then 1 else 0)).
    assert (Hsz : bits_size a c <= sz <= bits_size a c + 1) by (unfold sz; destruct (negb (a mod 8 =? 0) && (c mod 8 =? 0)); lia).
    assert (B1 : 1 <= bits_size a c <= 257 /\ a mod 8 + c <= 8 * bits_size a c) by (rewrite Sz; destruct (1 <=? c) eqn:?; lia).
    rewrite (Z.mod_small (a mod 8)) by lia. assert (Lz : zlen (zeros sz) = sz) by (apply zlen_zeros; lia).
    destruct (copy_bits_spec (Z.to_nat c) d 0 (zeros sz) (a mod 8)) as (nd & -> & Bn & Ln & Kn); [apply bytes_ok_zeros | lia..|]. cbn [rbind].
    destruct (mark_bits_spec (Z.to_nat c) (zeros sz) (a mod 8)) as (m & -> & Bm & Lm & Km); [apply bytes_ok_zeros | lia..|]. cbn [rbind].
    replace (2040 <? bits_size a c) with false by lia. rewrite Lz in *.
    destruct (c_mask_quiet E fd i (a / 8) sz 0 nd m s b R P Q Bn Bm ltac:(lia) ltac:(lia) ltac:(lia) ltac:(unfold in_bounds; lia) ltac:(unfold in_bounds; lia)) as (s' & e & -> & R' & K). cbn [rbind fst].
    exists s'. split; [reflexivity|]. split; [exact R'|]. destruct K as [(K1 & _ & O1 & b' & S' & B' & (L' & M))|(K1 & _ & D)].
    + left. split; [exact O1|]. exists b'. split; [exact S'|]. split; [exact B'|]. split; [exact L'|]. intros Hc1. split; [exact L'|]. intros k Hk. rewrite (M k Hk).
      destruct ((8 * (a / 8) <=? k) && (k <? 8 * (a / 8 + sz))) eqn:C; cbn [andb].
      * rewrite Km, Kn by lia. rewrite !bit_zeros. cbn [orb].
        replace ((a mod 8 <=? k - 8 * (a / 8) + 8 * 0) && (k - 8 * (a / 8) + 8 * 0 <? a mod 8 + Z.of_nat (Z.to_nat c))) with ((a <=? k) && (k <? a + c)) by lia.
        destruct ((a <=? k) && (k <? a + c)) eqn:C2; cbn [andb]; [|reflexivity]. f_equal. lia.
      * replace ((a <=? k) && (k <? a + c)) with false by lia. reflexivity.
    + right. split; [exact D|]. intros Hc1 (X1 & X2). unfold sz in K1. rewrite Sz in K1. replace (1 <=? c) with true in K1 by lia. clear - K1 X1 X2 Hc1 Ha.
      destruct (Z.eqb_spec (a mod 8) 0); destruct (Z.eqb_spec (c mod 8) 0); cbn [negb andb] in K1; lia.
  - assert (a mod 8 = 0 /\ c mod 8 = 0) as (A0 & C0) by lia. unfold write_format. change (fmt (Datatypes.S (length (s_types s))) true (s_types s) cc T_BOOL c 0 0 (zlen d)) with (@Done Z 0). cbn [rbind].
    change (negb (0 =? 0)) with false. cbv iota. assert (B1 : 1 <= bits_size a c <= 257 /\ (1 <= c -> 8 * bits_size a c = c) /\ bits_size a c <= zlen d) by (rewrite Sz; destruct (1 <=? c) eqn:?; lia).
    replace (4080 <? bits_size a c) with false by lia. assert (Ib : in_bounds 0 (bits_size a c) (zlen d) = true) by (unfold in_bounds; lia).
    destruct (c_write_quiet E fd i (a / 8) (bits_size a c) 0 d s b R S Q Zb ltac:(lia) ltac:(lia) ltac:(lia) Ib) as (s' & e & -> & R' & K). cbn [rbind fst].
    exists s'. split; [reflexivity|]. split; [exact R'|]. assert (L := zlen_slice _ _ _ Ib). destruct K as [(K1 & _ & O1 & S1)|(K1 & _ & D)].
    + left. split; [exact O1|]. eexists. split; [exact S1|]. assert (Bi : in_bounds (a / 8) (zlen (slice 0 (bits_size a c) d)) (zlen b) = true) by (rewrite L; unfold in_bounds; lia).
      split; [apply bytes_ok_splice; [apply bytes_ok_slice; exact Bd | exact Bb]|]. assert (Ls : zlen (splice (a / 8) (slice 0 (bits_size a c) d) b) = zlen b) by (apply zlen_splice; exact Bi).
      split; [exact Ls|]. intros Hc1. split; [exact Ls|]. intros k Hk. rewrite (splice_bit _ _ _ _ Bi Hk), L.
      replace ((8 * (a / 8) <=? k) && (k <? 8 * (a / 8 + bits_size a c))) with ((a <=? k) && (k <? a + c)) by lia. destruct ((a <=? k) && (k <? a + c)) eqn:C; [|reflexivity].
      rewrite slice_bit by (try exact Ib; lia). f_equal. lia.
    + right. split; [exact D|]. intros Hc1 (X1 & X2). lia.
Qed.
(** ** the data of a request *)
Lemma take_words_spec k : forall n buff data, bytes_ok buff -> bytes_ok data -> 0 <= n -> 7 + 2 * (n + Z.of_nat k) <= zlen buff -> 2 * (n + Z.of_nat k) <= zlen data ->
  exists d, take_words k n buff data = Done d /\ bytes_ok d /\ zlen d = zlen data /\
    (forall i, n <= i < n + Z.of_nat k -> nthb d (2 * i) = nthb buff (7 + 2 * i + 1) /\ nthb d (2 * i + 1) = nthb buff (7 + 2 * i)) /\
    (forall j, 0 <= j < zlen data -> j < 2 * n \/ 2 * (n + Z.of_nat k) <= j -> nthb d j = nthb data j).
Proof.
  induction k as [|k IH]; intros n buff data Bb Bd Hn Hb Hd; cbn [take_words].
  { exists data. split; [reflexivity|]. split; [exact Bd|]. split; [reflexivity|]. split; [intros i Hi; lia | reflexivity]. }
  replace (in_bounds (7 + n * 2) 2 (zlen buff)) with true by (unfold in_bounds; lia). cbn [negb].
  rewrite put_byte_ok by lia. cbn [rbind]. rewrite put_byte_ok by (rewrite zset_zlen; lia). cbn [rbind]. rewrite !u8_small by (apply nthb_byte; exact Bb).
  set (d1 := zset (zset data (2 * n) (nthb buff (7 + n * 2 + 1))) (2 * n + 1) (nthb buff (7 + n * 2))).
  assert (L1 : zlen d1 = zlen data) by (unfold d1; rewrite !zset_zlen; reflexivity).
  assert (B1 : bytes_ok d1) by (unfold d1; repeat apply bytes_ok_zset; try assumption; apply nthb_byte; exact Bb).
  assert (K1 : forall j, 0 <= j < zlen data -> nthb d1 j = if j =? 2 * n + 1 then nthb buff (7 + n * 2) else if j =? 2 * n then nthb buff (7 + n * 2 + 1) else nthb data j).
  { intros j Hj. unfold d1. rewrite nthb_zset by (rewrite ?zset_zlen; lia). destruct (j =? 2 * n + 1); [reflexivity|]. apply nthb_zset; lia. }
  clearbody d1. destruct (IH (n + 1) buff d1 Bb B1 ltac:(lia) ltac:(lia) ltac:(lia)) as (d & -> & B & L & W & O).
  exists d. split; [reflexivity|]. split; [exact B|]. split; [lia|]. split.
  - intros i Hi. destruct (Z.eq_dec i n) as [->|N]; [|apply W; lia]. rewrite !O, !K1 by lia.
    replace (2 * n =? 2 * n + 1) with false by lia. replace (2 * n =? 2 * n) with true by lia. replace (2 * n + 1 =? 2 * n + 1) with true by lia. rewrite (Z.mul_comm n 2). split; reflexivity.
  - intros j Hj Q. rewrite O, K1 by lia. replace (j =? 2 * n + 1) with false by lia. replace (j =? 2 * n) with false by lia. reflexivity.
Qed.
Lemma take_coils_spec k : forall n buff data, bytes_ok data -> 0 <= n -> 56 + n + Z.of_nat k <= 8 * zlen buff -> n + Z.of_nat k <= 8 * zlen data ->
  exists d, take_coils k n buff data = Done d /\ bytes_ok d /\ zlen d = zlen data /\
    forall j, 0 <= j < 8 * zlen data -> bit d j = if (n <=? j) && (j <? n + Z.of_nat k) then bit buff (56 + j) else bit data j.
Proof.
  induction k as [|k IH]; intros n buff data Bd Hn Hb Hd; cbn [take_coils].
  { exists data. split; [reflexivity|]. split; [exact Bd|]. split; [reflexivity|]. intros j Hj. replace ((n <=? j) && (j <? n + Z.of_nat 0)) with false by lia. reflexivity. }
  replace (in_bounds (7 + n / 8) 1 (zlen buff)) with true by (unfold in_bounds; lia). cbn [negb].
  destruct (assign_bit_spec data n (bit_of buff (56 + n)) Bd ltac:(lia)) as (d1 & -> & B1 & L1 & K1 & _). cbn [rbind].
  destruct (IH (n + 1) buff d1 B1 ltac:(lia) ltac:(lia) ltac:(lia)) as (d & -> & B & L & W).
  exists d. split; [reflexivity|]. split; [exact B|]. split; [lia|]. intros j Hj. rewrite W, K1 by lia. destruct (Z.eqb_spec j n) as [->|N].
  - replace ((n + 1 <=? n) && (n <? n + 1 + Z.of_nat k)) with false by lia. replace ((n <=? n) && (n <? n + Z.of_nat (Datatypes.S k))) with true by lia. reflexivity.
  - replace ((n + 1 <=? j) && (j <? n + 1 + Z.of_nat k)) with ((n <=? j) && (j <? n + Z.of_nat (Datatypes.S k))) by lia. reflexivity.
Qed.

(** ** write requests *)
(** the tag and the number of registers a write function writes; [true] for registers of 16 bits *)
Inductive writes (nd : mbnode) : Z -> bool -> Z -> Z -> Prop :=
| writes_coil : writes nd 5 false (nd_coil nd) (nd_coil_size nd)
| writes_hold : writes nd 6 true (nd_hold nd) (nd_hold_size nd)
| writes_coils : writes nd 15 false (nd_coil nd) (nd_coil_size nd)
| writes_holds : writes nd 16 true (nd_hold nd) (nd_hold_size nd).
Lemma write_selected E cc fd p jk buff size s node f a c node' nd w i n :
  asks buff node f a c -> serves p node node' nd -> writes nd f w i n -> jk_result jk = 0 ->
  create_response E cc fd p jk buff size s =
    if n =? 0 then create_exception s buff ME_WRONG_FUNCTION
    else
      let finish m s := let r := call (nd_write_cb nd) node' f a m 0 in if negb (r =? 0) then create_exception s buff r else Done (s, buff, 6) in
      if n <? a + (if (f =? 5) || (f =? 6) then 1 else c) then create_exception s buff ME_BAD_ADDRESS
      else if f =? 5 then
        d <-- put_byte (jk_data jk) 0 (if c =? 0 then 0 else 1) ;; d <-- put_byte d 1 0 ;; s <-- slave_write E cc fd false i a 1 d s ;; finish 1 s
      else if f =? 6 then
        d <-- put_byte (jk_data jk) 0 c ;; d <-- put_byte d 1 (c / 256) ;; s <-- slave_write E cc fd true i a 1 d s ;; finish 1 s
      else if f =? 15 then d <-- take_coils (Z.to_nat c) 0 buff (jk_data jk) ;; s <-- slave_write E cc fd false i a c d s ;; finish c s
      else d <-- take_words (Z.to_nat c) 0 buff (jk_data jk) ;; s <-- slave_write E cc fd true i a c d s ;; finish c s.
Proof.
  intros (A0 & A1 & A2 & A3) S W J. unfold create_response. rewrite A0, A1, A2, A3.
  assert (K : match mp_nodes p node with Some nd => Some (node, nd) | None => match mp_nodes p 0 with Some nd => Some (0, nd) | None => None end end = Some (node', nd)).
  { destruct S as [(-> & ->)|(-> & -> & ->)]; reflexivity. }
  cbv zeta. rewrite K. cbn [rbind].
  destruct W; cbn [Z.eqb Pos.eqb orb]; rewrite J; change (negb (0 =? 0)) with false; cbv iota; unfold function_ok; cbn [Z.eqb Pos.eqb orb];
    match goal with |- context [negb (negb (?z =? 0))] => destruct (z =? 0) end; cbn [negb]; try reflexivity;
    match goal with |- context [?z <=? a] => replace (z <=? a) with (z <? a + 1) by lia end; reflexivity.
Qed.
Lemma reg_bytes d i : bytes_ok d -> 0 <= i -> 2 * i + 1 < zlen d -> nthb d (2 * i) = reg_value d i mod 256 /\ nthb d (2 * i + 1) = reg_value d i / 256.
Proof. intros B Hi Hl. unfold reg_value. assert (X := nthb_byte d (2 * i) B). assert (Y := nthb_byte d (2 * i + 1) B). lia. Qed.
(** [b'] is [b] with the registers from [a] on given by [v] *)
Definition regs_stored (a c : Z) (v : Z -> Z) (b b' : list Z) : Prop :=
  zlen b' = zlen b /\ (forall k, 0 <= k < c -> reg_value b' (a + k) = v k) /\ (forall j, 0 <= j < zlen b -> j < 2 * a \/ 2 * (a + c) <= j -> nthb b' j = nthb b j).
(** an acknowledged request: the answer repeats its first six bytes; only the data of tag [i] is different *)
Definition acknowledged (E : env) (cc : ctypes) (fd : Z) (p : mbport) (jk : mbjunk) (buff : list Z) (size : Z) (s : server) (i : Z) (P : list Z -> Prop) : Prop :=
  exists s', create_response E cc fd p jk buff size s = Done (s', buff, 6) /\ reachable E s' /\ only_data s s' i /\ exists b', plain s' i b' /\ P b'.
(** what the slave's request handler needs besides the registers: its (uninitialised) variables, the node, the callback *)
Definition accepts (p : mbport) (jk : mbjunk) (buff : list Z) (node f a c m : Z) (nd : mbnode) : Prop :=
  locals jk /\ jk_result jk = 0 /\ bytes_ok buff /\ asks buff node f a c /\ exists node', serves p node node' nd /\ call (nd_write_cb nd) node' f a m 0 = 0.

Lemma splice_regs a c d b : bytes_ok d -> bytes_ok b -> 0 <= a -> 0 <= c -> 2 * c <= zlen d -> 2 * (a + c) <= zlen b ->
  bytes_ok (splice (2 * a) (slice 0 (2 * c) d) b) /\ regs_stored a c (reg_value d) b (splice (2 * a) (slice 0 (2 * c) d) b).
Proof.
  intros Bd Bb Ha Hc Hd Hb. assert (L : zlen (slice 0 (2 * c) d) = 2 * c) by (apply zlen_slice; unfold in_bounds; lia).
  assert (Bi : in_bounds (2 * a) (zlen (slice 0 (2 * c) d)) (zlen b) = true) by (rewrite L; unfold in_bounds; lia).
  split; [apply bytes_ok_splice; [apply bytes_ok_slice; exact Bd | exact Bb]|]. split; [apply zlen_splice; exact Bi|].
  assert (K : forall j, 0 <= j < zlen b -> nthb (splice (2 * a) (slice 0 (2 * c) d) b) j = if (2 * a <=? j) && (j <? 2 * a + 2 * c) then nthb d (j - 2 * a) else nthb b j).
  { intros j Hj. apply nthb_znth. rewrite (znth_splice _ _ _ _ Bi) by lia. rewrite L. destruct ((2 * a <=? j) && (j <? 2 * a + 2 * c)) eqn:C; [|apply znth_nthb; lia].
    rewrite znth_slice by lia. apply znth_nthb. lia. }
  split.
  - intros k Hk. unfold reg_value. rewrite !K by lia. replace ((2 * a <=? 2 * (a + k)) && (2 * (a + k) <? 2 * a + 2 * c)) with true by lia.
    replace ((2 * a <=? 2 * (a + k) + 1) && (2 * (a + k) + 1 <? 2 * a + 2 * c)) with true by lia. replace (2 * (a + k) - 2 * a) with (2 * k) by lia. replace (2 * (a + k) + 1 - 2 * a) with (2 * k + 1) by lia. reflexivity.
  - intros j Hj Q. rewrite K by lia. replace ((2 * a <=? j) && (j <? 2 * a + 2 * c)) with false by lia. reflexivity.
Qed.
(** C57: a register written with function 6 *)
Theorem C57_register : forall E cc fd p jk buff size s node a c nd b,
  reachable E s -> plain s (nd_hold nd) b -> quiet s (nd_hold nd) -> accepts p jk buff node 6 a c 1 nd ->
  a < nd_hold_size nd -> 2 * nd_hold_size nd <= zlen b ->
  acknowledged E cc fd p jk buff size s (nd_hold nd) (regs_stored a 1 (fun _ => c) b).
Proof.
  intros E cc fd p jk buff size s node a c nd b R P Q ((J1 & J2 & J3 & J4) & J0 & Bb & A & node' & S & Cb) Ha Hn. unfold acknowledged.
  rewrite (write_selected _ _ _ _ _ _ _ _ _ _ _ _ _ _ _ _ _ A S (writes_hold nd) J0). destruct A as (A0 & A1 & A2 & A3).
  assert (Ra := word_range _ _ _ Bb A2). assert (Rc := word_range _ _ _ Bb A3). replace (nd_hold_size nd =? 0) with false by lia. cbv zeta. cbn [Z.eqb Pos.eqb orb].
  replace (nd_hold_size nd <? a + 1) with false by lia. rewrite put_byte_ok by lia. cbn [rbind]. rewrite put_byte_ok by (rewrite zset_zlen; lia). cbn [rbind].
  set (d := zset (zset (jk_data jk) 0 (u8 c)) 1 (u8 (c / 256))). assert (Ld : zlen d = 256) by (unfold d; rewrite !zset_zlen; lia).
  assert (Bd : bytes_ok d) by (unfold d; repeat apply bytes_ok_zset; try apply u8_byte; exact J3).
  assert (V : reg_value d 0 = c). { unfold reg_value, d. change (2 * 0) with 0. change (0 + 1) with 1. rewrite !nthb_zset by (rewrite ?zset_zlen; lia). change (0 =? 1) with false. change (1 =? 1) with true. change (0 =? 0) with true. cbv iota. unfold u8. rewrite (Z.mod_small (c / 256)) by lia. lia. }
  destruct (words_write E cc fd (nd_hold nd) a 1 d s b R P Q ltac:(lia) ltac:(lia) ltac:(lia) ltac:(lia)) as (s' & -> & R' & [(K1 & O1 & S1)|(K1 & _)]); [|lia].
  cbn [rbind]. rewrite Cb. change (negb (0 =? 0)) with false. cbv iota. exists s'. split; [reflexivity|]. split; [exact R'|]. split; [exact O1|].
  destruct (splice_regs a 1 d b Bd (proj1 (proj2 (proj2 P))) ltac:(lia) ltac:(lia) ltac:(lia) ltac:(lia)) as (Bs & (W0 & W1 & W2)). eexists. split; [apply (plain_only _ _ _ _ _ P O1 S1 Bs W0)|].
  split; [exact W0|]. split; [|exact W2]. intros k Hk. rewrite W1 by lia. replace k with 0 by lia. exact V.
Qed.
(** C57: registers written with function 16 *)
Theorem C57_registers : forall E cc fd p jk buff size s node a c nd b,
  reachable E s -> plain s (nd_hold nd) b -> quiet s (nd_hold nd) -> accepts p jk buff node 16 a c c nd ->
  1 <= c -> a + c <= nd_hold_size nd -> 2 * nd_hold_size nd <= zlen b -> 7 + 2 * c <= zlen buff -> zlen buff <= 256 ->
  acknowledged E cc fd p jk buff size s (nd_hold nd) (regs_stored a c (fun k => 256 * nthb buff (7 + 2 * k) + nthb buff (8 + 2 * k)) b).
Proof.
  intros E cc fd p jk buff size s node a c nd b R P Q ((J1 & J2 & J3 & J4) & J0 & Bb & A & node' & S & Cb) Hc Ha Hn Hl Hl2. unfold acknowledged.
  rewrite (write_selected _ _ _ _ _ _ _ _ _ _ _ _ _ _ _ _ _ A S (writes_holds nd) J0). destruct A as (A0 & A1 & A2 & A3).
  assert (Ra := word_range _ _ _ Bb A2). replace (nd_hold_size nd =? 0) with false by lia. cbv zeta. cbn [Z.eqb Pos.eqb orb].
  replace (nd_hold_size nd <? a + c) with false by lia.
  destruct (take_words_spec (Z.to_nat c) 0 buff (jk_data jk) Bb J3 ltac:(lia) ltac:(lia) ltac:(lia)) as (d & -> & Bd & Ld & W & _). cbn [rbind].
  destruct (words_write E cc fd (nd_hold nd) a c d s b R P Q ltac:(lia) ltac:(lia) ltac:(lia) ltac:(lia)) as (s' & -> & R' & [(K1 & O1 & S1)|(K1 & _)]); [|lia].
  cbn [rbind]. rewrite Cb. change (negb (0 =? 0)) with false. cbv iota. exists s'. split; [reflexivity|]. split; [exact R'|]. split; [exact O1|].
  destruct (splice_regs a c d b Bd (proj1 (proj2 (proj2 P))) ltac:(lia) ltac:(lia) ltac:(lia) ltac:(lia)) as (Bs & (W0 & W1 & W2)). eexists. split; [apply (plain_only _ _ _ _ _ P O1 S1 Bs W0)|].
  split; [exact W0|]. split; [|exact W2]. intros k Hk. rewrite W1 by lia. unfold reg_value. destruct (W k ltac:(lia)) as (X1 & X2). rewrite X1, X2. replace (7 + 2 * k + 1) with (8 + 2 * k) by lia. lia.
Qed.
(** C57: a coil written with function 5; every value but 0 switches it on *)
Theorem C57_coil : forall E cc fd p jk buff size s node a c nd b,
  reachable E s -> plain s (nd_coil nd) b -> quiet s (nd_coil nd) -> accepts p jk buff node 5 a c 1 nd ->
  a < nd_coil_size nd -> nd_coil_size nd <= 8 * zlen b ->
  acknowledged E cc fd p jk buff size s (nd_coil nd) (fun b' => zlen b' = zlen b /\ forall k, 0 <= k < 8 * zlen b -> bit b' k = if k =? a then negb (c =? 0) else bit b k).
Proof.
  intros E cc fd p jk buff size s node a c nd b R P Q ((J1 & J2 & J3 & J4) & J0 & Bb & A & node' & S & Cb) Ha Hn. unfold acknowledged.
  rewrite (write_selected _ _ _ _ _ _ _ _ _ _ _ _ _ _ _ _ _ A S (writes_coil nd) J0). destruct A as (A0 & A1 & A2 & A3).
  assert (Ra := word_range _ _ _ Bb A2). replace (nd_coil_size nd =? 0) with false by lia. cbv zeta. cbn [Z.eqb Pos.eqb orb].
  replace (nd_coil_size nd <? a + 1) with false by lia. rewrite put_byte_ok by lia. cbn [rbind]. rewrite put_byte_ok by (rewrite zset_zlen; lia). cbn [rbind].
  set (d := zset (zset (jk_data jk) 0 (u8 (if c =? 0 then 0 else 1))) 1 (u8 0)). assert (Ld : zlen d = 256) by (unfold d; rewrite !zset_zlen; lia).
  assert (Bd : bytes_ok d) by (unfold d; repeat apply bytes_ok_zset; try apply u8_byte; exact J3).
  assert (V : bit d 0 = negb (c =? 0)). { unfold bit, d. change (0 / 8) with 0. rewrite !nthb_zset by (rewrite ?zset_zlen; lia). cbn [Z.eqb]. destruct (c =? 0); reflexivity. }
  destruct (bits_write E cc fd (nd_coil nd) a 1 d s b R P Q Bd ltac:(lia) ltac:(lia) ltac:(lia) ltac:(lia)) as (s' & -> & R' & [(O1 & b' & S1 & B' & L' & K)|(_ & K)]).
  2:{ exfalso. apply K; [lia|]. split; [lia|]. right. left. discriminate. }
  cbn [rbind]. rewrite Cb. change (negb (0 =? 0)) with false. cbv iota. exists s'. split; [reflexivity|]. split; [exact R'|]. split; [exact O1|]. exists b'. split; [apply (plain_only _ _ _ _ _ P O1 S1 B' L')|].
  split; [exact L'|]. intros k Hk. destruct (K ltac:(lia)) as (_ & K'). rewrite K' by lia. replace ((a <=? k) && (k <? a + 1)) with (k =? a) by lia. destruct (Z.eqb_spec k a) as [->|]; [|reflexivity]. rewrite Z.sub_diag. exact V.
Qed.
(** C57: coils written with function 15, when there is room for what the library sends *)
Theorem C57_coils_partial : forall E cc fd p jk buff size s node a c nd b,
  reachable E s -> plain s (nd_coil nd) b -> quiet s (nd_coil nd) -> accepts p jk buff node 15 a c c nd ->
  1 <= c -> a + c <= nd_coil_size nd -> nd_coil_size nd <= 8 * zlen b -> 56 + c <= 8 * zlen buff -> zlen buff <= 256 ->
  a mod 8 = 0 \/ c mod 8 <> 0 \/ (a + c) / 8 + 2 <= zlen b ->
  acknowledged E cc fd p jk buff size s (nd_coil nd) (fun b' => zlen b' = zlen b /\
    forall k, 0 <= k < 8 * zlen b -> bit b' k = if (a <=? k) && (k <? a + c) then bit buff (8 * 7 + (k - a)) else bit b k).
Proof.
  intros E cc fd p jk buff size s node a c nd b R P Q ((J1 & J2 & J3 & J4) & J0 & Bb & A & node' & S & Cb) Hc Ha Hn Hl Hl2 Hr. unfold acknowledged.
  rewrite (write_selected _ _ _ _ _ _ _ _ _ _ _ _ _ _ _ _ _ A S (writes_coils nd) J0). destruct A as (A0 & A1 & A2 & A3).
  assert (Ra := word_range _ _ _ Bb A2). replace (nd_coil_size nd =? 0) with false by lia. cbv zeta. cbn [Z.eqb Pos.eqb orb].
  replace (nd_coil_size nd <? a + c) with false by lia.
  destruct (take_coils_spec (Z.to_nat c) 0 buff (jk_data jk) J3 ltac:(lia) ltac:(lia) ltac:(lia)) as (d & -> & Bd & Ld & W). cbn [rbind].
  destruct (bits_write E cc fd (nd_coil nd) a c d s b R P Q Bd ltac:(lia) ltac:(lia) ltac:(lia) ltac:(lia)) as (s' & -> & R' & [(O1 & b' & S1 & B' & L' & K)|(_ & K)]).
  2:{ exfalso. apply K; [lia|]. split; [lia | exact Hr]. }
  cbn [rbind]. rewrite Cb. change (negb (0 =? 0)) with false. cbv iota. exists s'. split; [reflexivity|]. split; [exact R'|]. split; [exact O1|]. exists b'. split; [apply (plain_only _ _ _ _ _ P O1 S1 B' L')|].
  split; [exact L'|]. intros k Hk. destruct (K ltac:(lia)) as (_ & K'). rewrite K' by lia. destruct ((a <=? k) && (k <? a + c)) eqn:C; [|reflexivity].
  rewrite W by lia. replace ((0 <=? k - a) && (k - a <? 0 + Z.of_nat (Z.to_nat c))) with true by lia. reflexivity.
Qed.
(** C57: writes beyond the registers and functions without registers are refused, and nothing is stored *)
Theorem C57_bad_address : forall E cc fd p jk buff size s node f a c node' nd w i n,
  jk_result jk = 0 -> asks buff node f a c -> serves p node node' nd -> writes nd f w i n -> n <> 0 -> n < a + (if (f =? 5) || (f =? 6) then 1 else c) -> exception E cc fd p jk buff size s node f 2.
Proof.
  intros E cc fd p jk buff size s node f a c node' nd w i n J0 A S W Hn Ha. unfold exception. rewrite (write_selected _ _ _ _ _ _ _ _ _ _ _ _ _ _ _ _ _ A S W J0).
  destruct A as (A0 & A1 & A2 & A3). assert (Lw := word_len _ _ _ A3). replace (n =? 0) with false by lia. cbv zeta. replace (n <? a + (if (f =? 5) || (f =? 6) then 1 else c)) with true by lia.
  change ME_BAD_ADDRESS with 2. destruct (exception_spec s buff node f 2 ltac:(lia) A0 A1 ltac:(destruct W; lia) ltac:(lia)) as (b' & -> & X). exists s, b'. split; [reflexivity|]. split; [reflexivity | exact X].
Qed.
Theorem C57_bad_function : forall E cc fd p jk buff size s node f a c node' nd w i,
  jk_result jk = 0 -> asks buff node f a c -> serves p node node' nd -> writes nd f w i 0 -> exception E cc fd p jk buff size s node f 1.
Proof.
  intros E cc fd p jk buff size s node f a c node' nd w i J0 A S W. unfold exception. rewrite (write_selected E cc fd p jk buff size s node f a c node' nd w i 0 A S W J0).
  destruct A as (A0 & A1 & A2 & A3). assert (Lw := word_len _ _ _ A3). change (0 =? 0) with true. cbv iota. change ME_WRONG_FUNCTION with 1.
  assert (Hf : 0 <= f < 128) by (inversion W; lia). destruct (exception_spec s buff node f 1 ltac:(lia) A0 A1 Hf ltac:(lia)) as (b' & -> & X). exists s, b'. split; [reflexivity|]. split; [reflexivity | exact X].
Qed.
(** ** examples *)
Ltac quiet_tag := intros t A; vm_compute in A; injection A as <-; repeat split; vm_compute; reflexivity.
Definition the_node : mbnode := mk_node 16 200 16 200 14 12 14 12 None None.
Lemma slave_serves : serves mb_slave 1 1 the_node.
Proof. left. split; reflexivity. Qed.
Lemma no_junk_locals : locals no_junk.
Proof. split; [apply bytes_ok_zeros|split; [vm_compute; reflexivity|split; [apply bytes_ok_zeros|vm_compute; reflexivity]]]. Qed.
(** the hypotheses of C57 are met by three registers and by five coils *)
Example C57_ex : quiet mb_server 16 /\ quiet mb_server 14 /\
  accepts mb_slave no_junk (req [1; 16; 0; 10; 0; 3; 6; 1; 2; 3; 4; 5; 6]) 1 16 10 3 3 the_node /\ accepts mb_slave no_junk (req [1; 15; 0; 7; 0; 5; 1; 21]) 1 15 7 5 5 the_node /\
  accepts mb_slave no_junk (req [1; 6; 0; 9; 2; 1]) 1 6 9 513 1 the_node /\ accepts mb_slave no_junk (req [1; 5; 0; 9; 255; 0]) 1 5 9 65280 1 the_node /\
  talk mb_slave mb_server [[0; 1; 0; 0; 0; 13; 1; 16; 0; 10; 0; 3; 6; 1; 2; 3; 4; 5; 6]; [0; 2; 0; 0; 0; 6; 1; 3; 0; 9; 0; 5]] =
    Done [([0; 1; 0; 0; 0; 6; 1; 16; 0; 10; 0; 3], 0); ([0; 2; 0; 0; 0; 13; 1; 3; 10; 0; 0; 1; 2; 3; 4; 5; 6; 0; 0], 0)] /\
  talk mb_slave mb_server [[0; 1; 0; 0; 0; 8; 1; 15; 0; 7; 0; 5; 1; 21]; [0; 2; 0; 0; 0; 6; 1; 1; 0; 0; 0; 12]] =
    Done [([0; 1; 0; 0; 0; 6; 1; 15; 0; 7; 0; 5], 0); ([0; 2; 0; 0; 0; 5; 1; 1; 2; 165; 10], 0)].
Proof.
  split; [quiet_tag|]. split; [quiet_tag|].
  do 4 (split; [split; [exact no_junk_locals|]; split; [reflexivity|]; split; [apply bytes_check; vm_compute; reflexivity|]; split; [vm_compute; repeat split; reflexivity|]; exists 1; split; [exact slave_serves | reflexivity]|]).
  split; vm_compute; reflexivity.
Qed.
(** C57 fails: eight coils of which the first is number 4 are acknowledged, but the server refused to store them (C47) *)
Theorem C57_coils_refuted :
  talk mb_slave mb_server [[0; 1; 0; 0; 0; 8; 1; 15; 0; 4; 0; 8; 1; 0]; [0; 2; 0; 0; 0; 6; 1; 1; 0; 0; 0; 12]] =
    Done [([0; 1; 0; 0; 0; 6; 1; 15; 0; 4; 0; 8], 0); ([0; 2; 0; 0; 0; 5; 1; 1; 2; 165; 9], 0)].
Proof. vm_compute. reflexivity. Qed.
(** C57 fails: so are writes to a tag the slave may not write *)
Definition ro_server : server := after_ops env0 (demo_ops ++ [OpTagAdd 5 (str "ro") T_UINT 4 (A_READONLY + A_OWNED)]).
Theorem C57_readonly_refuted :
  talk (mk_port (fun n => if n =? 1 then Some (mk_node 16 4 0 0 0 0 0 0 None None) else None) true) ro_server [[0; 1; 0; 0; 0; 6; 1; 6; 0; 2; 1; 1]; [0; 2; 0; 0; 0; 6; 1; 3; 0; 2; 0; 1]] =
    Done [([0; 1; 0; 0; 0; 6; 1; 6; 0; 2; 1; 1], 0); ([0; 2; 0; 0; 0; 5; 1; 3; 2; 0; 0], 0)].
Proof. vm_compute. reflexivity. Qed.
(** C57 fails: the length in the frame is not compared with what the function needs.  A frame that ends behind the function
    code 5 is executed with the address and the value of the frame before it, a write to register 3: coil 3 is switched on *)
Theorem C57_short_frame_refuted :
  talk mb_slave mb_server [[0; 1; 0; 0; 0; 6; 1; 6; 0; 3; 0; 7]; [0; 2; 0; 0; 0; 2; 1; 5]; [0; 3; 0; 0; 0; 6; 1; 1; 0; 0; 0; 8]] =
    Done [([0; 1; 0; 0; 0; 6; 1; 6; 0; 3; 0; 7], 0); ([0; 2; 0; 0; 0; 6; 1; 5; 0; 3; 0; 7], 0); ([0; 3; 0; 0; 0; 4; 1; 1; 1; 173], 0)].
Proof. vm_compute. reflexivity. Qed.
(** C57 fails: a request to write no coils at all stores eight, from an array nothing was stored in *)
Theorem C57_zero_refuted : exists s' b', create_response env0 [] 7 mb_slave (mk_junk 0 (zeros 300) (90 :: zeros 255)) (req [1; 15; 0; 0; 0; 0; 0]) 250 mb_server = Done (s', req [1; 15; 0; 0; 0; 0; 0], 6) /\
  stored mb_server 14 [165; 9] /\ stored s' 14 b' /\ b' = [90; 9].
Proof.
  set (x := create_response env0 [] 7 mb_slave (mk_junk 0 (zeros 300) (90 :: zeros 255)) (req [1; 15; 0; 0; 0; 0; 0]) 250 mb_server).
  assert (H : match x with Done (s', b, r) => b = req [1; 15; 0; 0; 0; 0; 0] /\ r = 6 /\ match znth (s_db s') 14 with Some t => has (t_attr t) A_VIRTUAL = false /\ t_data t = DBytes [90; 9] | None => False end | Undef _ => False end)
    by (vm_compute; repeat split; reflexivity).
  destruct x as [((s' & b) & r)|]; [|contradiction]. destruct H as (-> & -> & H). exists s', [90; 9]. split; [reflexivity|]. split; [find_tag; split; vm_compute; reflexivity|]. split; [|reflexivity].
  destruct (znth (s_db s') 14) as [t|] eqn:T; [|contradiction]. exists t. split; [exact T | exact H].
Qed.
