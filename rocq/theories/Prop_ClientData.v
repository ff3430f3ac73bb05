(** * Reading and writing through handles: C45-C48 *)
From Verif Require Import Base Const Types State Events Atomic Server Lib SearchProofs Shape Inv Reach Spec Frame Effects Out DataFrame
  Demo Prop_Data Prop_Maps Prop_Atomic ClientTypes ClientData.

(** ** vocabulary *)
(** the handle covers bytes of a tag that holds the bytes [b] *)
Definition inside (h : handle) (b : list Z) : Prop := 0 <= h_byte h /\ 0 <= h_size h /\ h_byte h + h_size h <= zlen b.
(** the sizes in bytes of the elementary types other than BOOL *)
Definition elementary : list (Z * Z) :=
  [(T_BYTE, 1); (T_SINT, 1); (T_CHAR, 1); (T_WORD, 2); (T_INT, 2); (T_UINT, 2); (T_DWORD, 4); (T_DINT, 4); (T_UDINT, 4); (T_REAL, 4);
   (T_TIME, 8); (T_LWORD, 8); (T_LINT, 8); (T_ULINT, 8); (T_LREAL, 8)].

(** ** lists *)
Lemma slice_add a r q l : 0 <= a -> 0 <= r -> 0 <= q -> a + r + q <= zlen l -> slice a (r + q) l = slice a r l ++ slice (a + r) q l.
Proof.
  intros Ha Hr Hq Hl. assert (L1 : zlen (slice a r l) = r) by (apply zlen_slice, in_bounds_iff; lia).
  assert (L2 : zlen (slice (a + r) q l) = q) by (apply zlen_slice, in_bounds_iff; lia).
  assert (L3 : zlen (slice a (r + q) l) = r + q) by (apply zlen_slice, in_bounds_iff; lia).
  apply znth_ext. intros i Hi. destruct (Z_lt_le_dec i (r + q)).
  - rewrite znth_slice by lia. destruct (Z_lt_le_dec i r); [rewrite znth_app1, znth_slice by lia; reflexivity|].
    rewrite znth_app2, znth_slice by lia. f_equal; lia.
  - transitivity (@None Z); [apply znth_none; lia | symmetry; apply znth_none; rewrite zlen_app; lia].
Qed.
Lemma splice_app n x y l : 0 <= n -> n + zlen x + zlen y <= zlen l -> splice n (x ++ y) l = splice (n + zlen x) y (splice n x l).
Proof.
  intros Hn Hl. assert (X := zlen_nonneg x). assert (Y := zlen_nonneg y).
  assert (B1 : in_bounds n (zlen x) (zlen l) = true) by (apply in_bounds_iff; lia).
  assert (L1 := zlen_splice _ _ _ B1).
  assert (B2 : in_bounds (n + zlen x) (zlen y) (zlen (splice n x l)) = true) by (apply in_bounds_iff; lia).
  assert (B3 : in_bounds n (zlen (x ++ y)) (zlen l) = true) by (apply in_bounds_iff; rewrite zlen_app; lia).
  apply znth_ext. intros i Hi. rewrite (znth_splice _ _ _ _ B3), (znth_splice _ _ _ _ B2), (znth_splice _ _ _ _ B1) by lia. rewrite zlen_app.
  destruct ((n + zlen x <=? i) && (i <? n + zlen x + zlen y)) eqn:C.
  - replace ((n <=? i) && (i <? n + (zlen x + zlen y))) with true by lia. rewrite znth_app2 by lia. f_equal; lia.
  - destruct ((n <=? i) && (i <? n + zlen x)) eqn:C2.
    + replace ((n <=? i) && (i <? n + (zlen x + zlen y))) with true by lia. apply znth_app1. lia.
    + replace ((n <=? i) && (i <? n + (zlen x + zlen y))) with false by lia. reflexivity.
Qed.
Lemma splice_nil n l : 0 <= n <= zlen l -> splice n [] l = l.
Proof.
  intros H. assert (B : in_bounds n (zlen (@nil Z)) (zlen l) = true) by (apply in_bounds_iff; change (zlen (@nil Z)) with 0; lia).
  apply znth_ext. intros i Hi. rewrite (znth_splice _ _ _ _ B) by lia. change (zlen (@nil Z)) with 0.
  replace ((n <=? i) && (i <? n + 0)) with false by lia. reflexivity.
Qed.
Lemma slice_0 a l : slice a 0 l = [].
Proof. reflexivity. Qed.

(** ** one request *)
Lemma ask_after E s o r : step E s o = Done (after s [r]) ->
  ask E s o = Done (after s [r], match r with OResp _ _ p => inl p | OErr _ _ c => inr c | _ => inr E_TIMEOUT end).
Proof. intros H. unfold ask. rewrite H. cbn [rbind]. unfold after. cbn [s_out set_step set_out]. rewrite rev_app_distr. destruct r; reflexivity. Qed.
Lemma c_read_spec E s fd i off n at_ buf b : reachable E s -> stored s i b -> no_override s i ->
  0 <= off -> 0 <= n <= MSG_DATA_SIZE -> off + n <= zlen b -> zlen b < 2147483648 -> 0 <= at_ -> at_ + n <= zlen buf ->
  exists s', c_read E fd i off n at_ (s, buf) = Done (s', splice at_ (slice off n b) buf, 0) /\ reachable E s' /\ s_db s' = s_db s.
Proof.
  intros R S NO Ho Hn Hb Hz Ha Hl. assert (R1 := C04_read_stored E s fd i off n b R S NO Ho Hn Hb Hz).
  assert (L : zlen (slice off n b) = n) by (apply zlen_slice, in_bounds_iff; lia).
  exists (after s [OResp fd MSG_TAG_READ (slice off n b)]). split.
  - unfold c_read. replace (MSG_DATA_SIZE <? n) with false by lia. rewrite s32_small by lia. rewrite (ask_after _ _ _ _ R1). cbn [rbind].
    rewrite L. replace (in_bounds at_ n (zlen buf)) with true by (symmetry; apply in_bounds_iff; lia). reflexivity.
  - split; [exact (reachable_step _ _ _ _ R R1) | reflexivity].
Qed.
Lemma stored_db s s' i b : s_db s' = s_db s -> stored s i b -> stored s' i b.
Proof. intros H (t & A). exists t. rewrite H. exact A. Qed.
Lemma no_override_db s s' i : s_db s' = s_db s -> no_override s i -> no_override s' i.
Proof. intros H A t. rewrite H. apply A. Qed.

(** ** split reads *)
Lemma part_size tsize max tsz : 0 < tsize -> 0 < max -> tsz <> 0 -> let r := Z.min tsize max - Z.rem (Z.min tsize max) tsz in 0 <= r <= tsize /\ r <= max.
Proof.
  intros H1 H2 H3 r. subst r. assert (0 <= Z.rem (Z.min tsize max) tsz <= Z.min tsize max).
  { split; [apply Z.rem_nonneg; lia|]. destruct (Z_lt_le_dec 0 tsz); [apply Z.rem_le; lia|].
    rewrite <- Z.rem_opp_r by lia. apply Z.rem_le; lia. }
  lia.
Qed.
Lemma read_parts E fd i base b tsz : forall fuel tsize n s buf x,
  reachable E s -> stored s i b -> no_override s i -> zlen b < 2147483648 ->
  0 <= base -> 0 <= n -> 0 <= tsize -> base + n + tsize <= zlen b -> n + tsize <= zlen buf ->
  chunks (fun a n r => c_read E fd i (u32 (base + n)) r n a) fuel MSG_DATA_SIZE tsz tsize n (s, buf) = Done x ->
  exists s', x = (s', splice n (slice (base + n) tsize b) buf, 0) /\ s_db s' = s_db s.
Proof.
  induction fuel as [|k IH]; intros tsize n s buf x R S NO Hz Hb Hn Ht H1 H2 H; cbn [chunks] in H; destruct (tsize <=? 0) eqn:Q.
  1,3: assert (tsize = 0) by lia; subst tsize; rewrite slice_0, splice_nil by lia; exists s; split; [congruence | reflexivity].
  { discriminate. }
  destruct (tsz =? 0) eqn:Qz; [discriminate|]. assert (P := part_size tsize MSG_DATA_SIZE tsz ltac:(lia) ltac:(reflexivity) ltac:(lia)). cbv zeta in P, H.
  set (r := Z.min tsize MSG_DATA_SIZE - Z.rem (Z.min tsize MSG_DATA_SIZE) tsz) in *. clearbody r.
  replace (u32 (base + n)) with (base + n) in H by (unfold u32; rewrite Z.mod_small; lia).
  destruct (c_read_spec E s fd i (base + n) r n buf b) as (s1 & C1 & R1 & D1); try assumption; try lia.
  rewrite C1 in H. cbn [rbind] in H. change (negb (0 =? 0)) with false in H. cbv iota in H.
  assert (L : zlen (slice (base + n) r b) = r) by (apply zlen_slice, in_bounds_iff; lia).
  assert (L2 : zlen (splice n (slice (base + n) r b) buf) = zlen buf) by (apply zlen_splice, in_bounds_iff; lia).
  apply IH in H; try assumption; try lia; [|eapply stored_db; eassumption | eapply no_override_db; eassumption].
  destruct H as (s' & -> & D2). exists s'. split; [|congruence]. f_equal. f_equal.
  assert (L3 : zlen (slice (base + n + r) (tsize - r) b) = tsize - r) by (apply zlen_slice, in_bounds_iff; lia).
  replace tsize with (r + (tsize - r)) at 2 by lia. rewrite slice_add by lia. rewrite splice_app by lia. rewrite L. f_equal. f_equal; lia.
Qed.
Lemma read_parts_done E fd i base b tsz : 0 < tsz <= MSG_DATA_SIZE -> forall fuel tsize n s buf,
  reachable E s -> stored s i b -> no_override s i -> zlen b < 2147483648 ->
  0 <= base -> 0 <= n -> 0 <= tsize -> base + n + tsize <= zlen b -> n + tsize <= zlen buf -> (tsz | tsize) -> tsize < Z.of_nat fuel ->
  exists x, chunks (fun a n r => c_read E fd i (u32 (base + n)) r n a) fuel MSG_DATA_SIZE tsz tsize n (s, buf) = Done x.
Proof.
  intros Htsz. induction fuel as [|k IH]; intros tsize n s buf R S NO Hz Hb Hn Ht H1 H2 Hd Hf; cbn [chunks].
  { lia. }
  destruct (tsize <=? 0) eqn:Q; [eexists; reflexivity|]. replace (tsz =? 0) with false by lia.
  assert (P := part_size tsize MSG_DATA_SIZE tsz ltac:(lia) ltac:(reflexivity) ltac:(lia)). cbv zeta in P |- *.
  assert (P2 : 0 < Z.min tsize MSG_DATA_SIZE - Z.rem (Z.min tsize MSG_DATA_SIZE) tsz /\ (tsz | tsize - (Z.min tsize MSG_DATA_SIZE - Z.rem (Z.min tsize MSG_DATA_SIZE) tsz))).
  { assert (tsz <= tsize) by (apply Z.divide_pos_le; [lia | exact Hd]).
    assert (0 <= Z.rem (Z.min tsize MSG_DATA_SIZE) tsz < tsz) by (apply Z.rem_bound_pos; lia).
    assert (Q2 := Z.quot_rem' (Z.min tsize MSG_DATA_SIZE) tsz). split; [lia|].
    apply Z.divide_sub_r; [exact Hd|]. exists (Z.quot (Z.min tsize MSG_DATA_SIZE) tsz). lia. }
  set (r := Z.min tsize MSG_DATA_SIZE - Z.rem (Z.min tsize MSG_DATA_SIZE) tsz) in *. clearbody r.
  replace (u32 (base + n)) with (base + n) by (unfold u32; rewrite Z.mod_small; lia).
  destruct (c_read_spec E s fd i (base + n) r n buf b) as (s1 & C1 & R1 & D1); try assumption; try lia.
  rewrite C1. cbn [rbind]. change (negb (0 =? 0)) with false. cbv iota.
  assert (L : zlen (slice (base + n) r b) = r) by (apply zlen_slice, in_bounds_iff; lia).
  assert (L2 : zlen (splice n (slice (base + n) r b) buf) = zlen buf) by (apply zlen_splice, in_bounds_iff; lia).
  apply IH; try assumption; try lia; try (eapply stored_db; eassumption); try (eapply no_override_db; eassumption). apply P2.
Qed.

(** what the first half of dax_tag_read (before the bits are moved) leaves in the buffer *)
Definition fetched (E : env) (cc : ctypes) (fd : Z) (s : server) (h : handle) (buf : list Z) : run (server * list Z * Z) :=
  if MSG_DATA_SIZE <? h_size h then
    y <-- dax_get_typesize (s_types s) cc (h_type h) ;;
    let tsz := snd y in
    if MSG_DATA_SIZE <? tsz then Done (s, buf, E_2BIG)
    else chunks (fun a n r => c_read E fd (h_index h) (u32 (h_byte h + n)) r n a)
           (fuel_of (h_size h)) MSG_DATA_SIZE tsz (s32 (h_size h)) 0 (s, buf)
  else c_read E fd (h_index h) (h_byte h) (h_size h) 0 (s, buf).
Lemma fetched_ok E cc fd s h buf b x : reachable E s -> stored s (h_index h) b -> no_override s (h_index h) -> zlen b < 2147483648 ->
  inside h b -> h_size h <= zlen buf -> fetched E cc fd s h buf = Done x ->
  x = (s, buf, E_2BIG) \/ exists s', x = (s', splice 0 (slice (h_byte h) (h_size h) b) buf, 0) /\ s_db s' = s_db s.
Proof.
  intros R S NO Hz (I1 & I2 & I3) Hl H. unfold fetched in H. destruct (MSG_DATA_SIZE <? h_size h) eqn:Q.
  - apply rbind_done in H as ((cc', tsz) & _ & H). cbn [snd] in H. cbv zeta in H. destruct (MSG_DATA_SIZE <? tsz); [left; congruence|].
    rewrite s32_small in H by lia. apply (read_parts E fd (h_index h) (h_byte h) b) in H; try assumption; try lia.
    rewrite Z.add_0_r in H. right. exact H.
  - destruct (c_read_spec E s fd (h_index h) (h_byte h) (h_size h) 0 buf b) as (s1 & C1 & R1 & D1); try assumption; try lia.
    rewrite C1 in H. injection H as <-. right. exists s1. split; [reflexivity | assumption].
Qed.
Lemma base_size ts cc t w : In (t, w) ((T_BOOL, 1) :: elementary) -> dax_get_typesize ts cc t = Done (cc, w).
Proof. intros H. cbn [In elementary] in H. repeat (destruct H as [[= <- <-]|H]; [reflexivity|]). contradiction. Qed.
Lemma base_fmt dbl ts cc t w count len : In (t, w) elementary -> 0 <= count -> w * count <= len -> fmt (S (length ts)) dbl ts cc t count 0 0 len = Done 0.
Proof.
  intros H Hc Hl. cbn [In elementary] in H.
  repeat (destruct H as [[= <- <-]|H];
    [first [reflexivity |
       match goal with |- fmt _ _ _ _ ?t _ _ _ _ = _ =>
         first [change (fmt (S (length ts)) dbl ts cc t count 0 0 len) with (if in_bounds 0 (2 * count) len then Done 0 else @Undef Z UOob)
              | change (fmt (S (length ts)) dbl ts cc t count 0 0 len) with (if in_bounds 0 (4 * count) len then Done 0 else @Undef Z UOob)
              | change (fmt (S (length ts)) dbl ts cc t count 0 0 len) with (if in_bounds 0 (8 * count) len then Done 0 else @Undef Z UOob)]
       end;
       match goal with |- context [in_bounds ?a ?x ?y] => replace (in_bounds a x y) with true by (symmetry; apply in_bounds_iff; lia) end; reflexivity] |]).
  contradiction.
Qed.
Lemma tag_read_fetched E cc fd s h buf : dax_tag_read E cc fd s h buf =
  x <-- fetched E cc fd s h buf ;;
  let '(s, buf, e) := x in
  if negb (e =? 0) then Done (s, buf, e)
  else if h_type h =? T_BOOL then
    nd <-- copy_bits (Z.to_nat (h_count h)) buf (h_bit h) (zeros (h_size h)) 0 ;;
    if in_bounds 0 (h_size h) (zlen buf) then Done (s, splice 0 nd buf, 0) else Undef UOob
  else e <-- read_format (s_types s) cc (h_type h) (h_count h) (zlen buf) ;; Done (s, buf, e).
Proof. reflexivity. Qed.

(** ** C45: reading *)
(** Whenever dax_tag_read succeeds on a handle that is not BOOL, the buffer holds the bytes of the handle's range,
    as if they had been read at once, and the server's tags are unchanged. *)
Theorem C45_read : forall E cc fd s h buf b s' buf',
  reachable E s -> stored s (h_index h) b -> no_override s (h_index h) -> zlen b < 2147483648 ->
  inside h b -> h_size h <= zlen buf -> h_type h <> T_BOOL ->
  dax_tag_read E cc fd s h buf = Done (s', buf', 0) ->
  s_db s' = s_db s /\ zlen buf' = zlen buf /\ slice 0 (h_size h) buf' = slice (h_byte h) (h_size h) b /\
  forall k, h_size h <= k -> znth buf' k = znth buf k.
Proof.
  intros E cc fd s h buf b s' buf' R S NO Hz I Hl T H. rewrite tag_read_fetched in H. apply rbind_done in H as (x & Hx & H).
  apply (fetched_ok E cc fd s h buf b) in Hx; try assumption. destruct Hx as [-> | (s1 & -> & D1)]; [discriminate|].
  change (negb (0 =? 0)) with false in H. cbv iota in H. replace (h_type h =? T_BOOL) with false in H by lia.
  apply rbind_done in H as (e & _ & H). injection H as <- <- _. destruct I as (I1 & I2 & I3).
  assert (L : zlen (slice (h_byte h) (h_size h) b) = h_size h) by (apply zlen_slice, in_bounds_iff; lia).
  assert (B : in_bounds 0 (zlen (slice (h_byte h) (h_size h) b)) (zlen buf) = true) by (apply in_bounds_iff; lia).
  split; [exact D1|]. split; [apply zlen_splice; exact B|]. split.
  - rewrite <- L at 1. apply slice_splice_same. exact B.
  - intros k Hk. rewrite (znth_splice _ _ _ _ B) by lia. replace ((0 <=? k) && (k <? 0 + zlen (slice (h_byte h) (h_size h) b))) with false by lia. reflexivity.
Qed.
(** For handles of elementary types the call always returns, with success. *)
Theorem C45_read_succeeds : forall E cc fd s h buf b w,
  reachable E s -> stored s (h_index h) b -> no_override s (h_index h) -> zlen b < 2147483648 ->
  inside h b -> h_size h <= zlen buf -> In (h_type h, w) elementary -> 0 <= h_count h -> h_size h = w * h_count h ->
  exists s' buf', dax_tag_read E cc fd s h buf = Done (s', buf', 0).
Proof.
  intros E cc fd s h buf b w R S NO Hz I Hl T Hc Hs. rewrite tag_read_fetched.
  assert (W : 0 < w <= MSG_DATA_SIZE) by (cbn [In elementary] in T; repeat (destruct T as [[= _ <-]|T]; [unfold MSG_DATA_SIZE, DAX_MSGMAX; lia|]); contradiction).
  assert (exists x, fetched E cc fd s h buf = Done x /\ x <> (s, buf, E_2BIG)) as (x & Hx & Nx).
  { unfold fetched. destruct (MSG_DATA_SIZE <? h_size h) eqn:Q.
    - rewrite (base_size _ _ _ w) by (right; exact T). cbn [rbind snd]. cbv zeta. replace (MSG_DATA_SIZE <? w) with false by lia.
      destruct I as (I1 & I2 & I3). rewrite s32_small by lia.
      assert (Hdone : exists x, chunks (fun a n r => c_read E fd (h_index h) (u32 (h_byte h + n)) r n a) (fuel_of (h_size h)) MSG_DATA_SIZE w (h_size h) 0 (s, buf) = Done x).
      { apply (read_parts_done E fd (h_index h) (h_byte h) b); try assumption; try lia; [exists (h_count h); lia | unfold fuel_of; lia]. }
      destruct Hdone as (x & Hx). exists x. split; [exact Hx|].
      apply (read_parts E fd (h_index h) (h_byte h) b) in Hx; try assumption; try lia. destruct Hx as (s1 & -> & _). discriminate.
    - destruct I as (I1 & I2 & I3). destruct (c_read_spec E s fd (h_index h) (h_byte h) (h_size h) 0 buf b) as (s1 & C1 & R1 & D1); try assumption; try lia.
      exists (s1, splice 0 (slice (h_byte h) (h_size h) b) buf, 0). split; [exact C1 | discriminate]. }
  rewrite Hx. apply (fetched_ok E cc fd s h buf b) in Hx; try assumption. destruct Hx as [-> | (s1 & -> & D1)]; [congruence|]. cbn [rbind].
  change (negb (0 =? 0)) with false. cbv iota.
  replace (h_type h =? T_BOOL) with false by (symmetry; cbn [In elementary] in T; repeat (destruct T as [[= <- _]|T]; [reflexivity|]); contradiction).
  assert (Lb : zlen (splice 0 (slice (h_byte h) (h_size h) b) buf) = zlen buf).
  { apply zlen_splice, in_bounds_iff. destruct I as (I1 & I2 & I3). rewrite zlen_slice by (apply in_bounds_iff; lia). lia. }
  unfold read_format. rewrite (base_fmt false _ _ _ w) by (try assumption; lia). cbn [rbind]. eexists; eexists; reflexivity.
Qed.

(** ** one write *)
Lemma only_data_refl s i : only_data s s i.
Proof. split; [reflexivity|]. split; [reflexivity|]. split; [intros t H; exists t; repeat split; assumption | reflexivity]. Qed.
Lemma only_data_trans s1 s2 s3 i : only_data s1 s2 i -> only_data s2 s3 i -> only_data s1 s3 i.
Proof.
  intros (A1 & A2 & A3 & A4) (B1 & B2 & B3 & B4). split; [intros j Hj; rewrite B1, A1 by assumption; reflexivity|].
  split; [congruence|]. split; [|congruence]. intros t Ht. destruct (A3 _ Ht) as (t2 & T2 & C1 & C2 & C3).
  destruct (B3 _ T2) as (t3 & T3 & D1 & D2 & D3). exists t3. split; [exact T3|]. split; [congruence|]. split; congruence.
Qed.
Lemma only_no_mapping s s' i b : only_data s s' i -> stored s i b -> no_mapping s i -> no_mapping s' i.
Proof.
  intros (_ & _ & A & _) (t & T & _) N t' T'. destruct (A _ T) as (t2 & T2 & _ & C & _). assert (t2 = t') by congruence. subst t2.
  assert (t_maps t' = t_maps t) by congruence. rewrite H. apply N. exact T.
Qed.
Lemma no_mapping_avoid s i : no_mapping s i -> maps_avoid s i i.
Proof. intros N t l Ht Hl. rewrite (N _ Ht) in Hl. injection Hl as <-. constructor. Qed.
(** what one accepted or refused write request means to the caller *)
Lemma write_part E fd i off size at_ d s b s' e :
  reachable E s -> stored s i b -> no_mapping s i -> zlen b < 2147483648 -> 0 <= off -> 0 <= size -> off + size <= zlen b ->
  c_write E fd i off size at_ d s = Done (s', e) ->
  (e = 0 /\ reachable E s' /\ in_bounds at_ size (zlen d) = true /\ only_data s s' i /\ stored s' i (splice off (slice at_ size d) b)) \/
  (e < 0 /\ (size <= 4080 -> e <> E_2BIG) /\ s_db s' = s_db s).
Proof.
  intros R S N Hz Ho Hs Hb H. unfold c_write in H. destruct (MSG_DATA_SIZE <? size + 8) eqn:Q.
  - injection H as <- <-. right. split; [reflexivity|]. split; [unfold MSG_DATA_SIZE in Q; lia | reflexivity].
  - destruct (in_bounds at_ size (zlen d)) eqn:B; [|discriminate]. cbn [negb] in H. rewrite s32_small in H by lia.
    assert (L := zlen_slice _ _ _ B). unfold ask in H. destruct (step E s (OpWrite fd i off (slice at_ size d))) as [s1|] eqn:St; [|discriminate]. cbn [rbind] in H.
    assert (R1 := reachable_step _ _ _ _ R St).
    destruct (write_outcome _ _ _ _ _ _ _ St) as [(code & Hc & ->) | (s2 & s3 & W1 & W2 & ->)]; cbn [s_out after set_step set_out] in H; rewrite rev_app_distr in H; cbn [rev app] in H; injection H as <- <-.
    + right. split; [exact Hc|]. split; [|reflexivity]. intros _ ->.
      apply (C08_inside_not_too_big E s i off size b fd _ MSG_TAG_WRITE _ R S Hz ltac:(lia) (dr_write _ _ _ _ _ L) St). apply answered_after.
    + left. split; [reflexivity|]. split; [exact R1|]. split; [reflexivity|].
      assert (A : answered s (after s3 [OResp fd MSG_TAG_WRITE []]) (OResp fd MSG_TAG_WRITE [])).
      { unfold after. apply answered_step, answered_resp. eapply evout_trans; [eapply tag_write_evout; exact W1 | eapply map_check_evout; exact W2]. }
      split; [apply (C05_write_exact _ _ _ _ _ _ _ _ R S N St A)|].
      apply (C04_write_stores _ _ _ _ _ _ _ _ R S (no_mapping_avoid _ _ N) St A).
Qed.
(** the same for a masked write, bit by bit *)
Definition masked (b b' d m : list Z) (off n at_ : Z) : Prop :=
  zlen b' = zlen b /\ forall k, 0 <= k < 8 * zlen b ->
    bit b' k = if (8 * off <=? k) && (k <? 8 * (off + n)) && bit m (k - 8 * off + 8 * at_) then bit d (k - 8 * off + 8 * at_) else bit b k.
Lemma mask_part E fd i off size at_ d m s b s' e :
  reachable E s -> stored s i b -> no_mapping s i -> bytes_ok m -> zlen b < 2147483648 -> 0 <= off -> 0 <= size -> off + size <= zlen b ->
  c_mask E fd i off size at_ d m s = Done (s', e) ->
  (e = 0 /\ reachable E s' /\ only_data s s' i /\ exists b', stored s' i b' /\ masked b b' d m off size at_) \/
  (e < 0 /\ (size <= 2040 -> e <> E_2BIG) /\ s_db s' = s_db s).
Proof.
  intros R S N Bm Hz Ho Hs Hb H. unfold c_mask in H. destruct (MSG_DATA_SIZE <? size * 2 + 8) eqn:Q.
  - injection H as <- <-. right. split; [reflexivity|]. split; [unfold MSG_DATA_SIZE in Q; lia | reflexivity].
  - destruct (in_bounds at_ size (zlen d)) eqn:B; [|discriminate]. destruct (in_bounds at_ size (zlen m)) eqn:B2; [|discriminate].
    cbn [negb andb] in H. rewrite s32_small in H by lia.
    assert (L := zlen_slice _ _ _ B). assert (L2 := zlen_slice _ _ _ B2). unfold ask in H.
    destruct (step E s (OpMask fd i off (slice at_ size d) (slice at_ size m))) as [s1|] eqn:St; [|discriminate]. cbn [rbind] in H.
    assert (R1 := reachable_step _ _ _ _ R St).
    destruct (mask_outcome _ _ _ _ _ _ _ _ St) as [(code & Hc & ->) | (s2 & s3 & W1 & W2 & ->)]; cbn [s_out after set_step set_out] in H; rewrite rev_app_distr in H; cbn [rev app] in H; injection H as <- <-.
    + right. split; [exact Hc|]. split; [|reflexivity]. intros _ ->.
      apply (C08_inside_not_too_big E s i off size b fd _ MSG_TAG_MWRITE _ R S Hz ltac:(lia) (dr_mask _ _ _ _ _ _ L) St). apply answered_after.
    + left. split; [reflexivity|]. split; [exact R1|].
      assert (A : answered s (after s3 [OResp fd MSG_TAG_MWRITE []]) (OResp fd MSG_TAG_MWRITE [])).
      { unfold after. apply answered_step, answered_resp. eapply evout_trans; [eapply tag_mask_write_evout; exact W1 | eapply map_check_evout; exact W2]. }
      destruct (C06_mask_bits _ _ _ _ _ _ _ _ _ R S N (bytes_ok_slice at_ size m Bm) St A) as (O1 & b' & S' & Lb & K).
      split; [exact O1|]. exists b'. split; [exact S'|]. split; [exact Lb|]. intros k Hk. rewrite (K k Hk), L.
      destruct ((8 * off <=? k) && (k <? 8 * (off + size))) eqn:C; [|reflexivity]. cbn [andb]. rewrite !slice_bit by (assumption || lia). reflexivity.
Qed.

(** ** split writes *)
Lemma write_parts E fd i base d tsz : forall fuel tsize n s b x,
  reachable E s -> stored s i b -> no_mapping s i -> zlen b < 2147483648 ->
  0 <= base -> 0 <= n -> 0 <= tsize -> base + n + tsize <= zlen b -> 
  chunks (fun a n r => c_write E fd i (u32 (base + n)) r n d a) fuel 4080 tsz tsize n s = Done x ->
  (snd x = 0 /\ (tsize = 0 \/ n + tsize <= zlen d) /\ only_data s (fst x) i /\ stored (fst x) i (splice (base + n) (slice n tsize d) b)) \/ (snd x < 0 /\ snd x <> E_2BIG).
Proof.
  induction fuel as [|k IH]; intros tsize n s b x R S N Hz Hb Hn Ht H1 H; cbn [chunks] in H; destruct (tsize <=? 0) eqn:Q.
  1,3: assert (tsize = 0) by lia; subst tsize; rewrite slice_0, splice_nil by lia; injection H as <-; left; split; [reflexivity|]; split; [left; reflexivity|]; split; [apply only_data_refl | exact S].
  { discriminate. }
  destruct (tsz =? 0) eqn:Qz; [discriminate|]. assert (P := part_size tsize 4080 tsz ltac:(lia) ltac:(lia) ltac:(lia)). cbv zeta in P, H.
  set (r := Z.min tsize 4080 - Z.rem (Z.min tsize 4080) tsz) in *. clearbody r.
  replace (u32 (base + n)) with (base + n) in H by (unfold u32; rewrite Z.mod_small; lia).
  apply rbind_done in H as ((s1 & e) & W & H).
  apply (write_part E fd i (base + n) r n d s b) in W; try assumption; try lia.
  destruct W as [(-> & R1 & Bd & O1 & S1) | (He & H2 & _)].
  2:{ replace (negb (e =? 0)) with true in H by lia. injection H as <-. right. cbn [snd]. split; [exact He | apply H2; lia]. }
  change (negb (0 =? 0)) with false in H. cbv iota in H. apply in_bounds_iff in Bd.
  assert (L : zlen (slice n r d) = r) by (apply zlen_slice, in_bounds_iff; lia).
  assert (L2 : zlen (splice (base + n) (slice n r d) b) = zlen b) by (apply zlen_splice, in_bounds_iff; lia).
  apply (IH (tsize - r) (n + r) s1 (splice (base + n) (slice n r d) b)) in H; try assumption; try lia; [|eapply only_no_mapping; eassumption].
  destruct H as [(E0 & D0 & O2 & S2) | H]; [|right; exact H]. left. split; [exact E0|]. split; [right; lia|]. split; [eapply only_data_trans; eassumption|].
  replace tsize with (r + (tsize - r)) by lia. rewrite slice_add by lia. rewrite splice_app; [|lia|].
  - rewrite L. replace (base + n + r) with (base + (n + r)) by lia. exact S2.
  - rewrite L. destruct D0 as [D0|D0]; [rewrite D0, slice_0; change (zlen (@nil Z)) with 0; lia|]. rewrite zlen_slice by (apply in_bounds_iff; lia). lia.
Qed.
Lemma mask_parts E fd i base d m tsz : bytes_ok m -> forall fuel tsize n s b x,
  reachable E s -> stored s i b -> no_mapping s i -> zlen b < 2147483648 ->
  0 <= base -> 0 <= n -> 0 <= tsize -> base + n + tsize <= zlen b -> 
  chunks (fun a n r => c_mask E fd i (u32 (base + n)) r n d m a) fuel 2040 tsz tsize n s = Done x ->
  (snd x = 0 /\ only_data s (fst x) i /\ exists b', stored (fst x) i b' /\ masked b b' d m (base + n) tsize n) \/ (snd x < 0 /\ snd x <> E_2BIG).
Proof.
  intros Bm. induction fuel as [|k IH]; intros tsize n s b x R S N Hz Hb Hn Ht H1 H; cbn [chunks] in H; destruct (tsize <=? 0) eqn:Q.
  1,3: assert (tsize = 0) by lia; subst tsize; injection H as <-; left; split; [reflexivity|]; split; [apply only_data_refl|]; exists b; split; [exact S|]; split; [reflexivity|];
     intros k0 Hk0; replace ((8 * (base + n) <=? k0) && (k0 <? 8 * (base + n + 0))) with false by lia; reflexivity.
  { discriminate. }
  destruct (tsz =? 0) eqn:Qz; [discriminate|]. assert (P := part_size tsize 2040 tsz ltac:(lia) ltac:(lia) ltac:(lia)). cbv zeta in P, H.
  set (r := Z.min tsize 2040 - Z.rem (Z.min tsize 2040) tsz) in *. clearbody r.
  replace (u32 (base + n)) with (base + n) in H by (unfold u32; rewrite Z.mod_small; lia).
  apply rbind_done in H as ((s1 & e) & W & H).
  apply (mask_part E fd i (base + n) r n d m s b) in W; try assumption; try lia.
  destruct W as [(-> & R1 & O1 & b1 & S1 & L1 & M1) | (He & H2 & _)].
  2:{ replace (negb (e =? 0)) with true in H by lia. injection H as <-. right. cbn [snd]. split; [exact He | apply H2; lia]. }
  change (negb (0 =? 0)) with false in H. cbv iota in H.
  apply (IH (tsize - r) (n + r) s1 b1) in H; try assumption; try lia; [|eapply only_no_mapping; eassumption].
  destruct H as [(E0 & O2 & b2 & S2 & L2 & M2) | H]; [|right; exact H]. left. split; [exact E0|]. split; [eapply only_data_trans; eassumption|].
  exists b2. split; [exact S2|]. split; [lia|]. intros k0 Hk0. rewrite (M2 k0), (M1 k0) by lia.
  replace (k0 - 8 * (base + (n + r)) + 8 * (n + r)) with (k0 - 8 * (base + n) + 8 * n) by lia.
  set (v := k0 - 8 * (base + n) + 8 * n).
  destruct ((8 * (base + (n + r)) <=? k0) && (k0 <? 8 * (base + (n + r) + (tsize - r)))) eqn:C1; cbn [andb].
  - replace ((8 * (base + n) <=? k0) && (k0 <? 8 * (base + n + tsize))) with true by lia.
    replace ((8 * (base + n) <=? k0) && (k0 <? 8 * (base + n + r))) with false by lia. reflexivity.
  - destruct ((8 * (base + n) <=? k0) && (k0 <? 8 * (base + n + r))) eqn:C2; cbn [andb].
    + replace ((8 * (base + n) <=? k0) && (k0 <? 8 * (base + n + tsize))) with true by lia. reflexivity.
    + replace ((8 * (base + n) <=? k0) && (k0 <? 8 * (base + n + tsize))) with false by lia. reflexivity.
Qed.

(** ** C45: writing *)
(** Whenever dax_tag_write succeeds on a handle made of whole bytes, the handle's range of the tag holds the
    first [h_size] bytes of the caller's data, as if written at once, and nothing else has changed. *)
Theorem C45_write : forall E cc fd s h d b s',
  reachable E s -> stored s (h_index h) b -> no_mapping s (h_index h) -> zlen b < 2147483648 ->
  inside h b -> h_type h <> T_BOOL \/ (h_bit h = 0 /\ h_count h mod 8 = 0) ->
  dax_tag_write E cc fd s h d = Done (s', 0) ->
  h_size h <= zlen d /\ only_data s s' (h_index h) /\ stored s' (h_index h) (splice (h_byte h) (slice 0 (h_size h) d) b).
Proof.
  intros E cc fd s h d b s' R S N Hz (I1 & I2 & I3) T H. unfold dax_tag_write in H.
  replace (bits_path h) with false in H by (unfold bits_path; destruct T as [T|(T1 & T2)]; [|rewrite T1, T2; cbn]; lia).
  apply rbind_done in H as (e & _ & H). destruct (negb (e =? 0)) eqn:Qe; [assert (e = 0) by congruence; lia|]. destruct (4080 <? h_size h) eqn:Q.
  - apply rbind_done in H as ((cc' & tsz) & _ & H). cbn [snd] in H. cbv zeta in H. destruct (4080 <? tsz); [discriminate|].
    rewrite s32_small in H by lia. apply (write_parts E fd (h_index h) (h_byte h) d _ _ _ _ _ b) in H; try assumption; try lia.
    rewrite Z.add_0_r in H. cbn [fst snd] in H. destruct H as [(_ & D & O1 & S1) | (H & _)]; [|lia]. split; [lia|]. split; assumption.
  - apply (write_part _ _ _ _ _ _ _ _ b) in H; try assumption; try lia. destruct H as [(_ & _ & B & O1 & S1) | (H & _)]; [|lia].
    apply in_bounds_iff in B. split; [lia|]. split; assumption.
Qed.
(** A write of elementary data inside the tag is never refused for its size. *)
Theorem C45_write_not_too_big : forall E cc fd s h d b w s' e,
  reachable E s -> stored s (h_index h) b -> no_mapping s (h_index h) -> zlen b < 2147483648 ->
  inside h b -> h_size h <= zlen d -> In (h_type h, w) elementary -> 0 <= h_count h -> h_size h = w * h_count h ->
  dax_tag_write E cc fd s h d = Done (s', e) -> e <> E_2BIG.
Proof.
  intros E cc fd s h d b w s' e R S N Hz (I1 & I2 & I3) Hd T Hc Hs H. unfold dax_tag_write in H.
  assert (W : 0 < w <= 8) by (clear -T; cbn [In elementary] in T; repeat (destruct T as [[= _ <-]|T]; [lia|]); contradiction).
  replace (bits_path h) with false in H by (symmetry; unfold bits_path; clear -T; cbn [In elementary] in T; repeat (destruct T as [[= <- _]|T]; [reflexivity|]); contradiction).
  unfold write_format in H. rewrite (base_fmt true _ _ _ w) in H by (try assumption; lia). cbn [rbind] in H.
  change (negb (0 =? 0)) with false in H. cbv iota in H. destruct (4080 <? h_size h) eqn:Q.
  - rewrite (base_size _ _ _ w) in H by (right; exact T). cbn [rbind snd] in H. cbv zeta in H. replace (4080 <? w) with false in H by lia.
    rewrite s32_small in H by lia. apply (write_parts E fd (h_index h) (h_byte h) d _ _ _ _ _ b) in H; try assumption; try lia.
    cbn [snd] in H. unfold E_2BIG in *. lia.
  - apply (write_part _ _ _ _ _ _ _ _ b) in H; try assumption; try lia. unfold E_2BIG in *. lia.
Qed.

(** ** moving bits *)
Lemma set_bit_spec dst k : bytes_ok dst -> 0 <= k < 8 * zlen dst ->
  exists dst', set_bit dst k = Done dst' /\ bytes_ok dst' /\ zlen dst' = zlen dst /\ forall j, 0 <= j < 8 * zlen dst -> bit dst' j = bit dst j || (j =? k).
Proof.
  intros B Hk. unfold set_bit. destruct (znth dst (k / 8)) as [x|] eqn:X; [|apply znth_none in X; lia]. assert (Bx := proj1 (bytes_ok_znth _) B _ _ X).
  eexists. split; [reflexivity|]. assert (P : 0 <= 2 ^ (k mod 8) < 256).
  { split; [apply Z.pow_nonneg; lia|]. change 256 with (2 ^ 8). apply Z.pow_lt_mono_r; lia. }
  split; [apply bytes_ok_zset; [exact B | apply lor_byte; assumption]|]. split; [apply zset_zlen|].
  intros j Hj. rewrite (bit_or _ _ _ _ _ X Hj). f_equal. rewrite Z.pow2_bits_eqb by lia. destruct (Z.eqb_spec (k mod 8) (j mod 8)); lia.
Qed.
Lemma mark_bits_spec n : forall dst k, bytes_ok dst -> 0 <= k -> k + Z.of_nat n <= 8 * zlen dst ->
  exists dst', mark_bits n dst k = Done dst' /\ bytes_ok dst' /\ zlen dst' = zlen dst /\
    forall j, 0 <= j < 8 * zlen dst -> bit dst' j = bit dst j || ((k <=? j) && (j <? k + Z.of_nat n)).
Proof.
  induction n as [|n IH]; intros dst k B Hk Hn; cbn [mark_bits].
  { exists dst. repeat split; try assumption. intros j Hj. replace ((k <=? j) && (j <? k + Z.of_nat 0)) with false by lia. rewrite orb_false_r. reflexivity. }
  destruct (set_bit_spec dst k B ltac:(lia)) as (d1 & -> & B1 & L1 & K1). cbn [rbind].
  destruct (IH d1 (k + 1) B1 ltac:(lia) ltac:(lia)) as (d2 & E2 & B2 & L2 & K2). exists d2. split; [exact E2|]. split; [exact B2|]. split; [lia|].
  intros j Hj. rewrite K2, K1 by lia. destruct (bit dst j); [reflexivity|]. cbn [orb]. lia.
Qed.
Lemma copy_bits_spec n src : forall i dst k, bytes_ok dst -> 0 <= i -> i + Z.of_nat n <= 8 * zlen src -> 0 <= k -> k + Z.of_nat n <= 8 * zlen dst ->
  exists dst', copy_bits n src i dst k = Done dst' /\ bytes_ok dst' /\ zlen dst' = zlen dst /\
    forall j, 0 <= j < 8 * zlen dst -> bit dst' j = bit dst j || ((k <=? j) && (j <? k + Z.of_nat n) && bit src (i + (j - k))).
Proof.
  induction n as [|n IH]; intros i dst k B Hi Hs Hk Hn; cbn [copy_bits].
  { exists dst. repeat split; try assumption. intros j Hj. replace ((k <=? j) && (j <? k + Z.of_nat 0)) with false by lia. rewrite orb_false_r. reflexivity. }
  destruct (znth src (i / 8)) as [x|] eqn:X; [|apply znth_none in X; lia].
  assert (Bi : bit src i = Z.testbit x (i mod 8)) by (unfold bit; rewrite (nthb_znth _ _ _ X); reflexivity).
  assert (exists d1, (if Z.testbit x (i mod 8) then set_bit dst k else Done dst) = Done d1 /\ bytes_ok d1 /\ zlen d1 = zlen dst /\
     forall j, 0 <= j < 8 * zlen dst -> bit d1 j = bit dst j || ((j =? k) && bit src i)) as (d1 & -> & B1 & L1 & K1).
  { rewrite Bi. destruct (Z.testbit x (i mod 8)).
    - destruct (set_bit_spec dst k B ltac:(lia)) as (d1 & E1 & B1 & L1 & K1). exists d1. split; [exact E1|]. split; [exact B1|]. split; [exact L1|].
      intros j Hj. rewrite K1, andb_true_r by lia. reflexivity.
    - exists dst. repeat split; try assumption. intros j Hj. rewrite andb_false_r, orb_false_r. reflexivity. }
  cbn [rbind]. destruct (IH (i + 1) d1 (k + 1) B1 ltac:(lia) ltac:(lia) ltac:(lia) ltac:(lia)) as (d2 & E2 & B2 & L2 & K2).
  exists d2. split; [exact E2|]. split; [exact B2|]. split; [lia|].
  intros j Hj. rewrite K2, K1 by lia. rewrite <- orb_assoc. f_equal. destruct (Z.eqb_spec j k) as [->|Nj].
  - replace (i + (k - k)) with i by lia. replace ((k + 1 <=? k) && (k <? k + 1 + Z.of_nat n)) with false by lia.
    replace ((k <=? k) && (k <? k + Z.of_nat (S n))) with true by lia. cbn [andb]. rewrite orb_false_r. reflexivity.
  - cbn [andb orb]. replace (i + 1 + (j - (k + 1))) with (i + (j - k)) by lia. f_equal. lia.
Qed.
Lemma bit_zeros n j : bit (zeros n) j = false.
Proof.
  unfold bit, nthb, zeros. destruct (Nat.lt_ge_cases (Z.to_nat (j / 8)) (length (repeat 0 (Z.to_nat n)))) as [H|H].
  - rewrite nth_repeat. apply Z.bits_0.
  - rewrite nth_overflow by exact H. apply Z.bits_0.
Qed.

(** ** C46 *)
(** Reading a BOOL handle whose bits lie in the handle's bytes: bit [k] of the result is bit [k] of the slice,
    the remaining bits of the handle's bytes are zero, and the rest of the buffer is untouched. *)
Theorem C46_read_bits : forall E cc fd s h buf b,
  reachable E s -> stored s (h_index h) b -> no_override s (h_index h) -> zlen b < 2147483648 ->
  inside h b -> h_size h <= zlen buf ->
  h_type h = T_BOOL -> 0 <= h_bit h -> 0 <= h_count h -> h_bit h + h_count h <= 8 * h_size h ->
  exists s' buf', dax_tag_read E cc fd s h buf = Done (s', buf', 0) /\ s_db s' = s_db s /\ zlen buf' = zlen buf /\
    (forall k, 0 <= k < 8 * h_size h -> bit buf' k = (k <? h_count h) && bit b (8 * h_byte h + h_bit h + k)) /\
    (forall k, h_size h <= k -> znth buf' k = znth buf k).
Proof.
  intros E cc fd s h buf b R S NO Hz I Hl T Hb Hc Hs. rewrite tag_read_fetched. assert (I' := I). destruct I' as (I1 & I2 & I3).
  assert (exists x, fetched E cc fd s h buf = Done x /\ x <> (s, buf, E_2BIG)) as (x & Hx & Nx).
  { unfold fetched. destruct (MSG_DATA_SIZE <? h_size h) eqn:Q.
    - rewrite (base_size _ _ _ 1) by (left; rewrite T; reflexivity). cbn [rbind snd]. cbv zeta. change (MSG_DATA_SIZE <? 1) with false. cbv iota.
      rewrite s32_small by lia.
      assert (Hdone : exists x, chunks (fun a n r => c_read E fd (h_index h) (u32 (h_byte h + n)) r n a) (fuel_of (h_size h)) MSG_DATA_SIZE 1 (h_size h) 0 (s, buf) = Done x).
      { apply (read_parts_done E fd (h_index h) (h_byte h) b); try assumption; try lia; [unfold MSG_DATA_SIZE; lia | exists (h_size h); lia | unfold fuel_of; lia]. }
      destruct Hdone as (x & Hx). exists x. split; [exact Hx|].
      apply (read_parts E fd (h_index h) (h_byte h) b) in Hx; try assumption; try lia. destruct Hx as (s1 & -> & _). discriminate.
    - destruct (c_read_spec E s fd (h_index h) (h_byte h) (h_size h) 0 buf b) as (s1 & C1 & R1 & D1); try assumption; try lia.
      exists (s1, splice 0 (slice (h_byte h) (h_size h) b) buf, 0). split; [exact C1 | discriminate]. }
  rewrite Hx. apply (fetched_ok E cc fd s h buf b) in Hx; try assumption. destruct Hx as [-> | (s1 & -> & D1)]; [congruence|]. cbn [rbind].
  change (negb (0 =? 0)) with false. cbv iota. rewrite T. change (T_BOOL =? T_BOOL) with true. cbv iota.
  set (bd := slice (h_byte h) (h_size h) b). assert (Ld : zlen bd = h_size h) by (apply zlen_slice, in_bounds_iff; lia).
  assert (Bd : in_bounds 0 (zlen bd) (zlen buf) = true) by (apply in_bounds_iff; lia).
  assert (Lb := zlen_splice _ _ _ Bd).
  assert (Lz : zlen (zeros (h_size h)) = h_size h) by (apply zlen_zeros; lia).
  destruct (copy_bits_spec (Z.to_nat (h_count h)) (splice 0 bd buf) (h_bit h) (zeros (h_size h)) 0) as (nd & -> & Bn & Ln & Kn);
    [apply bytes_ok_zeros | lia | lia | lia | lia |]. cbn [rbind].
  replace (in_bounds 0 (h_size h) (zlen (splice 0 bd buf))) with true by (symmetry; apply in_bounds_iff; lia).
  assert (Bn2 : in_bounds 0 (zlen nd) (zlen (splice 0 bd buf)) = true) by (apply in_bounds_iff; lia).
  eexists; eexists. split; [reflexivity|]. split; [exact D1|]. split; [rewrite (zlen_splice _ _ _ Bn2); exact Lb|]. split.
  - intros k Hk. rewrite (splice_bit _ _ _ _ Bn2) by lia. replace ((8 * 0 <=? k) && (k <? 8 * (0 + zlen nd))) with true by lia.
    rewrite Kn by lia. rewrite bit_zeros. cbn [orb]. replace (k - 8 * 0) with k by lia.
    replace ((0 <=? k) && (k <? 0 + Z.of_nat (Z.to_nat (h_count h)))) with (k <? h_count h) by lia.
    destruct (k <? h_count h) eqn:C; [|reflexivity]. cbn [andb]. rewrite (splice_bit _ _ _ _ Bd) by lia.
    replace ((8 * 0 <=? h_bit h + (k - 0)) && (h_bit h + (k - 0) <? 8 * (0 + zlen bd))) with true by lia.
    unfold bd. rewrite slice_bit by (try (apply in_bounds_iff; lia); lia). f_equal. lia.
  - intros k Hk. rewrite (znth_splice _ _ _ _ Bn2), (znth_splice _ _ _ _ Bd) by lia.
    replace ((0 <=? k) && (k <? 0 + zlen nd)) with false by lia. replace ((0 <=? k) && (k <? 0 + zlen bd)) with false by lia. reflexivity.
Qed.

(** ** C47, C48 *)
(** the number of bytes the BOOL branch sends *)
Definition sent_size (h : handle) : Z := h_size h + (if negb (h_bit h =? 0) && (h_count h mod 8 =? 0) then 1 else 0).
(** the tag after the bits [d] were stored in the slice of [h] *)
Definition bits_stored (h : handle) (d b b' : list Z) : Prop :=
  zlen b' = zlen b /\ forall k, 0 <= k < 8 * zlen b ->
    bit b' k = if (8 * h_byte h + h_bit h <=? k) && (k <? 8 * h_byte h + h_bit h + h_count h) then bit d (k - (8 * h_byte h + h_bit h)) else bit b k.
Lemma write_bits_spec E cc fd lim s h d b s' e : 1 <= lim ->
  reachable E s -> stored s (h_index h) b -> no_mapping s (h_index h) -> zlen b < 2147483648 ->
  inside h b -> h_type h = T_BOOL -> 0 <= h_bit h < 8 -> 0 <= h_count h -> h_bit h + h_count h <= 8 * h_size h -> h_count h <= 8 * zlen d ->
  h_byte h + sent_size h <= zlen b ->
  write_bits E cc fd lim s h d = Done (s', e) ->
  (e = 0 /\ only_data s s' (h_index h) /\ exists b', stored s' (h_index h) b' /\ bits_stored h d b b') \/ (e < 0 /\ (e = E_2BIG -> sent_size h = 2041)).
Proof.
  intros Hlim R S N Hz (I1 & I2 & I3) T Hb Hc Hs Hd Hz2 H. unfold write_bits in H. fold (sent_size h) in H. cbv zeta in H.
  assert (Sz : h_size h <= sent_size h <= h_size h + 1) by (unfold sent_size; destruct (negb (h_bit h =? 0) && (h_count h mod 8 =? 0)); lia).
  assert (Lz : zlen (zeros (sent_size h)) = sent_size h) by (apply zlen_zeros; lia). rewrite (Z.mod_small (h_bit h)) in H by lia.
  destruct (copy_bits_spec (Z.to_nat (h_count h)) d 0 (zeros (sent_size h)) (h_bit h)) as (nd & E1 & Bn & Ln & Kn); [apply bytes_ok_zeros | lia..|].
  destruct (mark_bits_spec (Z.to_nat (h_count h)) (zeros (sent_size h)) (h_bit h)) as (m & E2 & Bm & Lm & Km); [apply bytes_ok_zeros | lia..|].
  rewrite E1 in H. cbn [rbind] in H. rewrite E2 in H. cbn [rbind] in H. rewrite Lz in *.
  assert (K : forall b', masked b b' nd m (h_byte h) (sent_size h) 0 -> bits_stored h d b b').
  { intros b' (L & M). split; [exact L|]. intros k Hk. rewrite (M k Hk).
    destruct ((8 * h_byte h <=? k) && (k <? 8 * (h_byte h + sent_size h))) eqn:C; cbn [andb].
    - rewrite Km, Kn by lia. rewrite !bit_zeros. cbn [orb].
      replace ((h_bit h <=? k - 8 * h_byte h + 8 * 0) && (k - 8 * h_byte h + 8 * 0 <? h_bit h + Z.of_nat (Z.to_nat (h_count h)))) with
        ((8 * h_byte h + h_bit h <=? k) && (k <? 8 * h_byte h + h_bit h + h_count h)) by lia.
      destruct ((8 * h_byte h + h_bit h <=? k) && (k <? 8 * h_byte h + h_bit h + h_count h)) eqn:C2; cbn [andb]; [|reflexivity]. f_equal. lia.
    - replace ((8 * h_byte h + h_bit h <=? k) && (k <? 8 * h_byte h + h_bit h + h_count h)) with false by lia. reflexivity. }
  destruct (2040 <? h_size h) eqn:Q.
  - rewrite (base_size _ _ _ 1) in H by (left; rewrite T; reflexivity). cbn [rbind snd] in H. cbv zeta in H. replace (lim <? 1) with false in H by lia.
    apply (mask_parts E fd (h_index h) (h_byte h) nd m 1 Bm _ _ _ _ b) in H; try assumption; try lia. rewrite Z.add_0_r in H. cbn [fst snd] in H.
    destruct H as [(-> & O1 & b' & S1 & M1) | (H1 & H2)]; [left; split; [reflexivity|]; split; [exact O1|]; exists b'; split; [exact S1 | apply K; exact M1]|].
    right. split; [exact H1 | congruence].
  - apply (mask_part _ _ _ _ _ _ _ _ _ b) in H; try assumption; try lia.
    destruct H as [(-> & _ & O1 & b' & S1 & M1) | (H1 & H2 & _)]; [left; split; [reflexivity|]; split; [exact O1|]; exists b'; split; [exact S1 | apply K; exact M1]|].
    right. split; [exact H1|]. intros H3. destruct (Z_le_gt_dec (sent_size h) 2040); [exfalso; apply H2; [lia | exact H3] | lia].
Qed.
(** A write through a BOOL handle (whole bytes or not) that lies in the tag together with the additional byte the
    library sends when the slice has an offset and a multiple of eight bits: if it succeeds, exactly the bits of
    the slice are stored and nothing else has changed; it is not refused as too big, unless 2041 bytes are sent. *)
Theorem C47_write_bits_partial : forall E cc fd s h d b s' e,
  reachable E s -> stored s (h_index h) b -> no_mapping s (h_index h) -> zlen b < 2147483648 ->
  inside h b -> h_type h = T_BOOL -> 0 <= h_bit h < 8 -> 0 <= h_count h -> h_bit h + h_count h <= 8 * h_size h -> h_count h <= 8 * zlen d ->
  h_bit h <> 0 \/ h_count h mod 8 <> 0 ->
  h_byte h + sent_size h <= zlen b ->
  dax_tag_write E cc fd s h d = Done (s', e) ->
  (e = 0 /\ only_data s s' (h_index h) /\ exists b', stored s' (h_index h) b' /\ bits_stored h d b b') \/
  (e < 0 /\ (e = E_2BIG -> sent_size h = 2041)).
Proof.
  intros E cc fd s h d b s' e R S N Hz I T Hb Hc Hs Hd Hu Hz2 H. unfold dax_tag_write in H.
  replace (bits_path h) with true in H by (unfold bits_path; lia).
  eapply (write_bits_spec E cc fd 2040); try eassumption. lia.
Qed.
(** whole bytes *)
Theorem C47_write_bytes : forall E cc fd s h d b s',
  reachable E s -> stored s (h_index h) b -> no_mapping s (h_index h) -> zlen b < 2147483648 ->
  inside h b -> h_type h = T_BOOL -> h_bit h = 0 -> h_count h mod 8 = 0 -> h_count h = 8 * h_size h ->
  dax_tag_write E cc fd s h d = Done (s', 0) ->
  only_data s s' (h_index h) /\ exists b', stored s' (h_index h) b' /\ bits_stored h d b b'.
Proof.
  intros E cc fd s h d b s' R S N Hz I T Hb Hc Hs H.
  destruct (C45_write _ _ _ _ _ _ _ _ R S N Hz I (or_intror (conj Hb Hc)) H) as (Hd & O1 & S1). split; [exact O1|].
  destruct I as (I1 & I2 & I3). assert (L : zlen (slice 0 (h_size h) d) = h_size h) by (apply zlen_slice, in_bounds_iff; lia).
  assert (B : in_bounds (h_byte h) (zlen (slice 0 (h_size h) d)) (zlen b) = true) by (apply in_bounds_iff; lia).
  eexists. split; [exact S1|]. split; [apply zlen_splice; exact B|]. intros k Hk. rewrite (splice_bit _ _ _ _ B Hk), L, Hb.
  replace ((8 * h_byte h <=? k) && (k <? 8 * (h_byte h + h_size h))) with ((8 * h_byte h + 0 <=? k) && (k <? 8 * h_byte h + 0 + h_count h)) by lia.
  destruct ((8 * h_byte h + 0 <=? k) && (k <? 8 * h_byte h + 0 + h_count h)) eqn:C; [|reflexivity].
  rewrite slice_bit by (try (apply in_bounds_iff; lia); lia). f_equal. lia.
Qed.
(** ** C48, data that is not a BOOL slice *)
Theorem C48_mask_partial : forall E cc fd s h d m b s',
  reachable E s -> stored s (h_index h) b -> no_mapping s (h_index h) -> bytes_ok m -> zlen b < 2147483648 ->
  inside h b -> h_type h <> T_BOOL \/ (h_bit h = 0 /\ h_count h mod 8 = 0) ->
  dax_tag_mask E cc fd s h d m = Done (s', 0) ->
  only_data s s' (h_index h) /\ exists b', stored s' (h_index h) b' /\ zlen b' = zlen b /\
    forall k, 0 <= k < 8 * zlen b ->
      bit b' k = if (8 * h_byte h <=? k) && (k <? 8 * (h_byte h + h_size h)) && bit m (k - 8 * h_byte h) then bit d (k - 8 * h_byte h) else bit b k.
Proof.
  intros E cc fd s h d m b s' R S N Bm Hz (I1 & I2 & I3) T H. unfold dax_tag_mask in H.
  replace (bits_path h) with false in H by (unfold bits_path; destruct T as [T|(T1 & T2)]; [|rewrite T1, T2; cbn]; lia).
  apply rbind_done in H as (e & _ & H). destruct (negb (e =? 0)) eqn:Qe; [assert (e = 0) by congruence; lia|].
  assert (K : only_data s s' (h_index h) /\ exists b', stored s' (h_index h) b' /\ masked b b' d m (h_byte h) (h_size h) 0).
  { destruct (2040 <? h_size h) eqn:Q.
    - apply rbind_done in H as ((cc' & tsz) & _ & H). cbn [snd] in H. cbv zeta in H. destruct (2040 <? tsz); [discriminate|].
      rewrite s32_small in H by lia. apply (mask_parts E fd (h_index h) (h_byte h) d m _ Bm _ _ _ _ b) in H; try assumption; try lia.
      rewrite Z.add_0_r in H. cbn [fst snd] in H. destruct H as [(_ & H) | (H & _)]; [exact H | lia].
    - apply (mask_part _ _ _ _ _ _ _ _ _ b) in H; try assumption; try lia. destruct H as [(_ & _ & H) | (H & _)]; [exact H | lia]. }
  destruct K as (O1 & b' & S1 & L & M). split; [exact O1|]. exists b'. split; [exact S1|]. split; [exact L|].
  intros k Hk. rewrite (M k Hk). replace (k - 8 * h_byte h + 8 * 0) with (k - 8 * h_byte h) by lia. reflexivity.
Qed.

(** ** where the claims fail *)
(** C47: eight bits starting at bit 4 of a tag of twelve bits: the library sends three bytes, the tag has two *)
Theorem C47_refuted : exists s h b,
  reachable env0 s /\ stored s (h_index h) b /\ no_mapping s (h_index h) /\ inside h b /\
  h_type h = T_BOOL /\ h_bit h = 4 /\ h_count h = 8 /\ h_bit h + h_count h <= 12 /\
  exists s', dax_tag_write env0 [] 5 s h [255] = Done (s', E_2BIG).
Proof.
  exists demo, (mk_h 14 0 4 8 2 T_BOOL). eexists. split; [exact demo_reachable|].
  split; [find_tag; split; vm_compute; reflexivity|]. split; [intros t A; vm_compute in A; injection A as <-; vm_compute; reflexivity|].
  split; [vm_compute; repeat split; congruence|]. do 3 (split; [reflexivity|]). split; [vm_compute; congruence|].
  eexists. vm_compute. reflexivity.
Qed.
(** ... and a slice of 2040 bytes with an offset and a multiple of eight bits is always refused by the library itself *)
Theorem C47_2040_refuted : forall E cc fd s h d,
  h_type h = T_BOOL -> h_size h = 2040 -> 0 < h_bit h < 8 -> 0 <= h_count h -> h_count h mod 8 = 0 -> h_bit h + h_count h <= 8 * 2040 -> h_count h <= 8 * zlen d ->
  dax_tag_write E cc fd s h d = Done (s, E_2BIG).
Proof.
  intros E cc fd s h d T Hz Hb Hc Hm Hs Hd. unfold dax_tag_write. replace (bits_path h) with true by (unfold bits_path; lia).
  unfold write_bits. rewrite Hz, Hm, (Z.mod_small (h_bit h)) by lia. replace (negb (h_bit h =? 0) && (0 =? 0)) with true by lia. cbv zeta.
  change (2040 + 1) with 2041. assert (Lz : zlen (zeros 2041) = 2041) by (apply zlen_zeros; lia).
  destruct (copy_bits_spec (Z.to_nat (h_count h)) d 0 (zeros 2041) (h_bit h)) as (nd & E1 & _); [apply bytes_ok_zeros | lia..|].
  destruct (mark_bits_spec (Z.to_nat (h_count h)) (zeros 2041) (h_bit h)) as (m & E2 & _); [apply bytes_ok_zeros | lia..|].
  rewrite E1. cbn [rbind]. rewrite E2. cbn [rbind]. change (2040 <? 2040) with false. cbv iota. reflexivity.
Qed.
Example C47_2040_ex : let h := mk_h 14 0 1 16312 2040 T_BOOL in
  h_type h = T_BOOL /\ h_size h = 2040 /\ 0 < h_bit h < 8 /\ h_count h mod 8 = 0 /\ h_bit h + h_count h <= 8 * 2040 /\ h_count h <= 8 * zlen (zeros 2039).
Proof. cbv zeta. cbn [h_type h_size h_bit h_count]. split; [reflexivity|]. split; [reflexivity|]. split; [lia|]. split; [reflexivity|]. split; [lia | vm_compute; congruence]. Qed.
(** C48: three bits of a BOOL tag written under a mask of zeros are stored all the same *)
Theorem C48_refuted : exists s h b s' b',
  reachable env0 s /\ stored s (h_index h) b /\ h_type h = T_BOOL /\ inside h b /\
  dax_tag_mask env0 [] 5 s h [255] [0] = Done (s', 0) /\ stored s' (h_index h) b' /\ b' <> b.
Proof.
  exists demo, (mk_h 14 0 2 3 1 T_BOOL). eexists. eexists. eexists. split; [exact demo_reachable|].
  split; [find_tag; split; vm_compute; reflexivity|]. split; [reflexivity|]. split; [vm_compute; repeat split; congruence|].
  split; [vm_compute; reflexivity|]. split; [find_tag; split; vm_compute; reflexivity | vm_compute; congruence].
Qed.
(** C45: a handle of one element of a type of more than 4088 bytes is refused, however it is used *)
Definition big_ops := demo_ops ++ [OpCdtCreate 5 (str "Big:a,BYTE,5000"); OpTagAdd 5 (str "big") (cdt_type 2) 1 0].
Definition big_server : server := after_ops env0 big_ops.
Lemma big_reachable : reachable env0 big_server.
Proof. apply after_reachable. vm_compute. reflexivity. Qed.
Theorem C45_type_refuted : exists b,
  reachable env0 big_server /\ stored big_server 16 b /\ zlen b = 5000 /\ inside (mk_h 16 0 0 1 5000 (cdt_type 2)) b /\
  (exists x, dax_tag_read env0 [] 5 big_server (mk_h 16 0 0 1 5000 (cdt_type 2)) (zeros 5000) = Done (big_server, x, E_2BIG)) /\
  (exists x cc, dax_cdt_get (s_types big_server) [] (ByType (cdt_type 2)) = Done (cc, 0) /\
     dax_tag_write env0 cc 5 big_server (mk_h 16 0 0 1 5000 (cdt_type 2)) (zeros 5000) = Done (x, E_2BIG)).
Proof.
  eexists. split; [exact big_reachable|]. split; [find_tag; split; vm_compute; reflexivity|]. split; [vm_compute; reflexivity|]. split; [vm_compute; repeat split; congruence|].
  split; [eexists; vm_compute; reflexivity|]. eexists. eexists. split; [vm_compute; reflexivity|]. vm_compute. reflexivity.
Qed.
(** C45: writing a compound value with a compound member that is not the first: the byte order conversion adds the
    member's offset twice and runs out of the caller's data *)
Definition nest_server : server := after_ops env0 (demo_ops ++
  [OpCdtCreate 5 (str "Inner:x,DINT,1"); OpCdtCreate 5 (str "Outer:a,DINT,4:b,Inner,1"); OpTagAdd 5 (str "nest") (cdt_type 3) 1 0]).
Lemma nest_reachable : reachable env0 nest_server.
Proof. apply after_reachable. vm_compute. reflexivity. Qed.
Theorem C45_nested_refuted : exists b cc,
  reachable env0 nest_server /\ stored nest_server 16 b /\ zlen b = 20 /\ inside (mk_h 16 0 0 1 20 (cdt_type 3)) b /\
  dax_get_typesize (s_types nest_server) [] (cdt_type 3) = Done (cc, 20) /\
  dax_tag_write env0 cc 5 nest_server (mk_h 16 0 0 1 20 (cdt_type 3)) (zeros 20) = Undef UOob.
Proof.
  eexists. eexists. split; [exact nest_reachable|]. split; [find_tag; split; vm_compute; reflexivity|]. split; [vm_compute; reflexivity|].
  split; [vm_compute; repeat split; congruence|]. split; [vm_compute; reflexivity|]. vm_compute. reflexivity.
Qed.

(** ** the hypotheses are met *)
(** 1000 LINT in 8000 bytes: two messages to read, two to write *)
Definition long_server : server := after_ops env0 (demo_ops ++ [OpTagAdd 5 (str "long") T_LINT 1000 0; OpWrite 5 16 4084 [1; 2; 3; 4; 5; 6; 7; 8]]).
Lemma long_reachable : reachable env0 long_server.
Proof. apply after_reachable. vm_compute. reflexivity. Qed.
Example C45_ex : let h := mk_h 16 0 0 1000 8000 T_LINT in exists b s' buf' s'',
  stored long_server 16 b /\ no_override long_server 16 /\ no_mapping long_server 16 /\ zlen b = 8000 /\ inside h b /\
  In (h_type h, 8) elementary /\ h_size h = 8 * h_count h /\
  dax_tag_read env0 [] 5 long_server h (zeros 8000) = Done (s', buf', 0) /\ nthb buf' 4088 = 5 /\ zlen (s_out s') = zlen (s_out long_server) + 2 /\
  dax_tag_write env0 [] 5 long_server h (repeat 7 (Z.to_nat 8000)) = Done (s'', 0) /\ stored s'' 16 (repeat 7 (Z.to_nat 8000)).
Proof.
  cbv zeta. eexists. eexists. eexists. eexists. split; [find_tag; split; vm_compute; reflexivity|].
  split; [intros t A; vm_compute in A; injection A as <-; vm_compute; reflexivity|].
  split; [intros t A; vm_compute in A; injection A as <-; vm_compute; reflexivity|].
  split; [vm_compute; reflexivity|]. split; [vm_compute; repeat split; congruence|]. split; [cbn; tauto|]. split; [reflexivity|].
  split; [vm_compute; reflexivity|]. split; [vm_compute; reflexivity|]. split; [vm_compute; reflexivity|]. split; [vm_compute; reflexivity|].
  find_tag; split; vm_compute; reflexivity.
Qed.
(** bits 3 to 9 of bar *)
Example C46_ex : let h := mk_h 14 0 3 7 2 T_BOOL in exists b s' s1,
  stored demo 14 b /\ no_override demo 14 /\ no_mapping demo 14 /\ inside h b /\ h_bit h + h_count h <= 8 * h_size h /\ h_byte h + sent_size h <= zlen b /\
  dax_tag_write env0 [] 5 demo h [90] = Done (s', 0) /\ stored s' 14 [208; 2] /\
  dax_tag_read env0 [] 5 s' h [9; 9; 9] = Done (s1, [90; 0; 9], 0).
Proof.
  cbv zeta. eexists. eexists. eexists. split; [find_tag; split; vm_compute; reflexivity|].
  split; [intros t A; vm_compute in A; injection A as <-; vm_compute; reflexivity|].
  split; [intros t A; vm_compute in A; injection A as <-; vm_compute; reflexivity|].
  split; [vm_compute; repeat split; congruence|]. split; [vm_compute; congruence|]. split; [vm_compute; congruence|].
  split; [vm_compute; reflexivity|]. split; [find_tag; split; vm_compute; reflexivity|]. vm_compute. reflexivity.
Qed.
Example C47_bytes_ex : let h := mk_h 14 0 0 8 1 T_BOOL in exists b s', stored demo 14 b /\ inside h b /\ h_count h = 8 * h_size h /\
  dax_tag_write env0 [] 5 demo h [90] = Done (s', 0).
Proof.
  cbv zeta. eexists. eexists. split; [find_tag; split; vm_compute; reflexivity|]. split; [vm_compute; repeat split; congruence|]. split; [reflexivity|].
  vm_compute. reflexivity.
Qed.
Example C48_ex : let h := mk_h 13 8 0 2 8 T_DINT in exists b s', stored demo 13 b /\ no_mapping demo 13 /\ inside h b /\
  dax_tag_mask env0 [] 5 demo h [1; 2; 3; 4; 5; 6; 7; 8] [255; 0; 15; 0; 0; 0; 0; 255] = Done (s', 0).
Proof.
  cbv zeta. eexists. eexists. split; [find_tag; split; vm_compute; reflexivity|].
  split; [intros t A; vm_compute in A; injection A as <-; vm_compute; reflexivity|]. split; [vm_compute; repeat split; congruence|].
  vm_compute. reflexivity.
Qed.
