(** * Prop_Concur: large transfers while other clients use the server (C109) *)
From Verif Require Import Base Const Types State Events Atomic Server Lib SearchProofs Shape Inv Reach Spec Frame Effects Out DataFrame
  Demo Prop_Data Prop_Tags Prop_Maps Prop_Atomic ClientTypes ClientData Prop_ClientData Concur.

Definition begin (s : server) (sched : list (list op)) : conc := mkQ s sched [].
(** the tag [i] is there, is not overridden, and holds [b], which covers the range of the handle *)
Definition holds (s : server) (h : handle) (b : list Z) : Prop :=
  stored s (h_index h) b /\ inside h b /\ zlen b < 2147483648.
(** the tag is there whenever a request of the call arrives *)
Definition there (h : handle) (q : conc) : Prop := Forall (fun m => exists b, holds (m_at m) h b /\ no_override (m_at m) (h_index h)) (q_seen q).

Lemma meanwhile_ok E q q1 : reachable E (q_srv q) -> meanwhile E q = Done q1 ->
  reachable E (q_srv q1) /\ exists m, q_seen q1 = q_seen q ++ [m] /\ m_at m = q_srv q1 /\ m_before m = q_srv q /\ exec E (m_before m) (m_others m) = Done (m_at m).
Proof.
  intros R H. unfold meanwhile in H. apply rbind_done in H as (s & X & H). injection H as <-. cbn [q_srv q_seen].
  split; [eapply reachable_exec; eassumption|]. eexists. split; [reflexivity|]. auto.
Qed.
(** one request of a read *)
Lemma q_read_ok E fd i off n at_ q buf q1 buf1 : reachable E (q_srv q) -> q_read E fd i off n at_ (q, buf) = Done (q1, buf1, 0) ->
  0 <= off -> 0 <= n <= MSG_DATA_SIZE -> 0 <= at_ -> at_ + n <= zlen buf ->
  exists m, q_seen q1 = q_seen q ++ [m] /\ reachable E (q_srv q1) /\
    forall b, stored (m_at m) i b -> no_override (m_at m) i -> off + n <= zlen b -> zlen b < 2147483648 -> buf1 = splice at_ (slice off n b) buf.
Proof.
  intros R H Ho Hn Ha Hl. unfold q_read in H. apply rbind_done in H as (q2 & M & H). apply rbind_done in H as (((s3 & b3) & e3) & C & H). injection H as <- <- ->.
  destruct (meanwhile_ok _ _ _ R M) as (R2 & m & S2 & A & B & X). exists m. cbn [q_seen q_srv]. split; [exact S2|].
  assert (RS : reachable E s3).
  { unfold c_read in C. destruct (MSG_DATA_SIZE <? n); [injection C as <- _ _; exact R2|]. apply rbind_done in C as ((s4 & z) & K & C).
    unfold ask in K. apply rbind_done in K as (s5 & K1 & K2). injection K2 as <- _. assert (R5 := reachable_step _ _ _ _ R2 K1).
    destruct z; [|injection C as <- _ _; exact R5]. destruct (in_bounds _ _ _); [injection C as <- _; exact R5 | discriminate]. }
  split; [exact RS|]. intros b S NO Hb Hz. rewrite A in S, NO.
  destruct (c_read_spec E (q_srv q2) fd i off n at_ buf b R2 S NO Ho Hn Hb Hz Ha Hl) as (s' & C' & _). congruence.
Qed.
(** all requests of a read: every element comes from one of the moments *)
Lemma q_read_parts E fd h tsz : 0 < tsz -> forall fuel tsize n q buf q1 buf1,
  reachable E (q_srv q) -> 0 <= h_byte h -> h_byte h + n + tsize < 2147483648 -> 0 <= n -> 0 <= tsize -> n + tsize <= h_size h -> n + tsize <= zlen buf -> (tsz | n) ->
  chunks (fun a n r => q_read E fd (h_index h) (u32 (h_byte h + n)) r n a) fuel MSG_DATA_SIZE tsz tsize n (q, buf) = Done (q1, buf1, 0) ->
  there h q1 ->
  exists new, q_seen q1 = q_seen q ++ new /\ zlen buf1 = zlen buf /\ (forall k, 0 <= k -> k < n \/ n + tsize <= k -> znth buf1 k = znth buf k) /\
    forall j, n <= tsz * j -> tsz * j + tsz <= n + tsize ->
      exists m b, In m new /\ holds (m_at m) h b /\ slice (tsz * j) tsz buf1 = slice (h_byte h + tsz * j) tsz b.
Proof.
  intros Ht. induction fuel as [|k IH]; intros tsize n q buf q1 buf1 R Hb Hm Hn Hs Hi Hl Hd H T; cbn [chunks] in H; destruct (tsize <=? 0) eqn:Q.
  1,3: injection H as <- <-; exists []; rewrite app_nil_r; split; [reflexivity|]; split; [reflexivity|]; split; [reflexivity|]; intros j J1 J2; lia.
  { discriminate. }
  replace (tsz =? 0) with false in H by lia. assert (P := part_size tsize MSG_DATA_SIZE tsz ltac:(lia) ltac:(reflexivity) ltac:(lia)). cbv zeta in P, H.
  assert (D : (tsz | Z.min tsize MSG_DATA_SIZE - Z.rem (Z.min tsize MSG_DATA_SIZE) tsz)).
  { exists (Z.quot (Z.min tsize MSG_DATA_SIZE) tsz). assert (Q2 := Z.quot_rem' (Z.min tsize MSG_DATA_SIZE) tsz). lia. }
  set (r := Z.min tsize MSG_DATA_SIZE - Z.rem (Z.min tsize MSG_DATA_SIZE) tsz) in *. clearbody r.
  replace (u32 (h_byte h + n)) with (h_byte h + n) in H by (unfold u32; rewrite Z.mod_small; lia).
  apply rbind_done in H as (((q2 & buf2) & e) & C & H). destruct (Z.eqb_spec e 0) as [-> | NE]; cbn [negb] in H; [|injection H as _ _ ->; congruence].
  destruct (q_read_ok _ _ _ _ _ _ _ _ _ _ R C) as (m & S2 & R2 & K); try lia.
  assert (T2 : there h q1) by exact T.
  assert (IN : exists new, q_seen q1 = q_seen q2 ++ new).
  { clear - H. revert H. generalize (tsize - r), (n + r), q2, buf2. clear. induction k as [|k IH]; intros ts n q buf H; cbn [chunks] in H; destruct (ts <=? 0); try discriminate; [injection H as <- _; exists []; rewrite app_nil_r; reflexivity .. |].
    destruct (tsz =? 0); [discriminate|]. cbv zeta in H. apply rbind_done in H as (((q2 & b2) & e) & C & H).
    assert (N : exists new, q_seen q2 = q_seen q ++ new).
    { unfold q_read in C. apply rbind_done in C as (q3 & M & C). apply rbind_done in C as (((s3 & b3) & e3) & _ & C). injection C as <- _ _. cbn [q_seen].
      unfold meanwhile in M. apply rbind_done in M as (s & _ & M). injection M as <-. cbn [q_seen]. eexists. reflexivity. }
    destruct N as (n1 & N1). destruct (Z.eqb_spec e 0) as [-> | NE]; cbn [negb] in H; [|injection H as <- _ _; exists n1; exact N1].
    apply IH in H as (n2 & N2). exists (n1 ++ n2). rewrite N2, N1, app_assoc. reflexivity. }
  assert (TM : exists b, holds (m_at m) h b /\ no_override (m_at m) (h_index h)).
  { destruct IN as (new & IN). unfold there in T. rewrite IN, S2 in T. rewrite Forall_forall in T. apply T. rewrite !in_app_iff. cbn [In]. tauto. }
  destruct TM as (b & (Sb & (I1 & I2 & I3) & Z1) & NO). assert (EB := K b Sb NO ltac:(lia) Z1).
  assert (L : zlen (slice (h_byte h + n) r b) = r) by (apply zlen_slice, in_bounds_iff; lia).
  assert (B : in_bounds n (zlen (slice (h_byte h + n) r b)) (zlen buf) = true) by (apply in_bounds_iff; lia).
  assert (L2 : zlen buf2 = zlen buf) by (rewrite EB; apply zlen_splice; exact B).
  apply IH in H; try assumption; try lia; [|apply Z.divide_add_r; assumption].
  destruct H as (new & N & L3 & F & J). exists (m :: new). split; [rewrite N, S2, <- app_assoc; reflexivity|]. split; [lia|]. split.
  - intros k0 K0 K1. rewrite (F k0 K0) by lia. rewrite EB, (znth_splice _ _ _ _ B) by lia.
    replace ((n <=? k0) && (k0 <? n + zlen (slice (h_byte h + n) r b))) with false by lia. reflexivity.
  - intros j J1 J2. destruct (Z_lt_le_dec (tsz * j) (n + r)) as [J3 | J3].
    2:{ destruct (J j) as (m2 & b2 & A1 & A2); [lia | lia|]. exists m2, b2. split; [right; exact A1 | exact A2]. }
    assert (J4 : tsz * j + tsz <= n + r).
    { destruct Hd as (x & ->). destruct D as (y & ->). assert (j < x + y) by nia. nia. }
    exists m, b. split; [left; reflexivity|]. split; [split; [exact Sb | split; [split; auto | exact Z1]]|].
    apply znth_ext. intros z Hz. destruct (Z_lt_le_dec z tsz).
    + rewrite !znth_slice by lia. rewrite F by lia. rewrite EB, (znth_splice _ _ _ _ B) by lia.
      replace ((n <=? tsz * j + z) && (tsz * j + z <? n + zlen (slice (h_byte h + n) r b))) with true by lia.
      rewrite znth_slice by lia. f_equal. lia.
    + assert (LL : forall a (x : list Z), zlen (slice a tsz x) <= tsz) by (intros a x; unfold slice; rewrite zlen_firstn; lia).
      rewrite !(proj2 (znth_none _ _)); [reflexivity | right; specialize (LL (h_byte h + tsz * j) b); lia | right; specialize (LL (tsz * j) buf1); lia].
Qed.

(** ** C109: reading *)
(** A read that fits one message is a copy of the tag at one moment. *)
Theorem C109_read_atomic : forall E cc fd s sched h buf q' buf',
  reachable E s -> 0 <= h_byte h -> 0 <= h_size h <= MSG_DATA_SIZE -> h_size h <= zlen buf ->
  q_tag_read E cc fd (begin s sched) h buf = Done (q', buf', 0) -> there h q' ->
  exists m b, q_seen q' = [m] /\ exec E s (hd [] sched) = Done (m_at m) /\ holds (m_at m) h b /\
    slice 0 (h_size h) buf' = slice (h_byte h) (h_size h) b.
Proof.
  intros E cc fd s sched h buf q' buf' R Hb Hs Hl H T. unfold q_tag_read in H. replace (MSG_DATA_SIZE <? h_size h) with false in H by lia.
  apply rbind_done in H as (((q2 & buf2) & e) & C & H). destruct (Z.eqb_spec e 0) as [-> | NE]; cbn [negb] in H; [|injection H as _ _ ->; congruence].
  apply rbind_done in H as (e & _ & H). injection H as <- <- _.
  assert (M : exists m, q_seen q2 = [m] /\ exec E s (hd [] sched) = Done (m_at m)).
  { unfold q_read in C. apply rbind_done in C as (q3 & M & C). apply rbind_done in C as (((s3 & b3) & e3) & _ & C). injection C as <- _ _. cbn [q_seen].
    unfold meanwhile in M. cbn [begin q_srv q_sched q_seen app] in M. apply rbind_done in M as (s1 & X & M). injection M as <-. cbn [q_seen]. eexists. split; [reflexivity | exact X]. }
  destruct M as (m & S2 & X). destruct (q_read_ok E fd _ _ _ _ (begin s sched) _ _ _ R C) as (m' & S2' & _ & K); try lia.
  cbn [begin q_seen app] in S2'. assert (m' = m) by congruence. subst m'.
  unfold there in T. rewrite S2 in T. inversion T as [|? ? (b & (Sb & (I1 & I2 & I3) & Z1) & NO) _]; subst.
  exists m, b. split; [exact S2|]. split; [exact X|]. split; [split; [exact Sb | split; [split; auto | exact Z1]]|].
  rewrite (K b Sb NO ltac:(lia) Z1). assert (L : zlen (slice (h_byte h) (h_size h) b) = h_size h) by (apply zlen_slice, in_bounds_iff; lia).
  rewrite <- L at 1. apply slice_splice_same, in_bounds_iff. lia.
Qed.
(** A larger one is not, but each element of the tag's type is. *)
Theorem C109_read_elements : forall E cc fd s sched h buf q' buf' cc' w,
  reachable E s -> 0 <= h_byte h -> 0 <= h_size h -> h_byte h + h_size h < 2147483648 -> h_size h <= zlen buf ->
  dax_get_typesize (s_types s) cc (h_type h) = Done (cc', w) -> 0 < w ->
  q_tag_read E cc fd (begin s sched) h buf = Done (q', buf', 0) -> there h q' ->
  forall j, 0 <= j -> w * j + w <= h_size h ->
    exists m b, In m (q_seen q') /\ holds (m_at m) h b /\ slice (w * j) w buf' = slice (h_byte h + w * j) w b.
Proof.
  intros E cc fd s sched h buf q' buf' cc' w R Hb Hs Hm Hl W Hw H T j Hj Hjs. unfold q_tag_read in H.
  destruct (MSG_DATA_SIZE <? h_size h) eqn:Q.
  - cbn [begin q_srv] in H. rewrite W in H. cbn [rbind snd] in H. cbv zeta in H. destruct (MSG_DATA_SIZE <? w); [discriminate|].
    apply rbind_done in H as (((q2 & buf2) & e) & C & H). destruct (Z.eqb_spec e 0) as [-> | NE]; cbn [negb] in H; [|injection H as _ _ ->; congruence].
    apply rbind_done in H as (e & _ & H). injection H as <- <- _. rewrite s32_small in C by lia.
    apply (q_read_parts E fd h w Hw) in C; try assumption; try lia; [|apply Z.divide_0_r].
    destruct C as (new & S2 & _ & _ & J). cbn [begin q_seen app] in S2. rewrite S2. apply J; lia.
  - destruct (C109_read_atomic E cc fd s sched h buf q' buf' R Hb) as (m & b & S2 & _ & Hh & SL); try assumption; try lia.
    { unfold q_tag_read. rewrite Q. exact H. }
    exists m, b. split; [rewrite S2; left; reflexivity|]. split; [exact Hh|].
    apply znth_ext. intros z Hz. destruct (Z_lt_le_dec z w).
    + rewrite !znth_slice by lia. assert (Y := f_equal (fun l => znth l (w * j + z)) SL). cbn beta in Y. rewrite !znth_slice in Y by lia.
      replace (0 + (w * j + z)) with (w * j + z) in Y by lia. rewrite Y. f_equal. lia.
    + assert (LL : forall a (x : list Z), zlen (slice a w x) <= w) by (intros a x; unfold slice; rewrite zlen_firstn; lia).
      rewrite !(proj2 (znth_none _ _)); [reflexivity | right; specialize (LL (h_byte h + w * j) b); lia | right; specialize (LL (w * j) buf'); lia].
Qed.

(** ** C109: writing *)
(** nobody else touches the range of the handle during the call, nor maps the tag onto itself *)
Definition undisturbed (E : env) (h : handle) (q : conc) : Prop :=
  Forall (fun m => left_alone E (h_index h) (h_byte h) (h_size h) (m_before m) (m_others m) (m_at m) /\ maps_avoid (m_at m) (h_index h) (h_index h)) (q_seen q).
(** the first [n] bytes of the range are the caller's, the others as they were in [b0] *)
Definition written (s : server) (h : handle) (d b0 : list Z) (n : Z) : Prop :=
  exists b, stored s (h_index h) b /\ zlen b = zlen b0 /\
    forall k, 0 <= k < h_size h -> znth b (h_byte h + k) = if k <? n then znth d k else znth b0 (h_byte h + k).
Lemma c_write_ok E fd i off size at_ d s b s' : reachable E s -> stored s i b -> maps_avoid s i i -> zlen b < 2147483648 -> 0 <= off -> 0 <= size -> off + size <= zlen b ->
  c_write E fd i off size at_ d s = Done (s', 0) ->
  in_bounds at_ size (zlen d) = true /\ reachable E s' /\ stored s' i (splice off (slice at_ size d) b).
Proof.
  intros R S N Hz Ho Hs Hb H. unfold c_write in H. destruct (MSG_DATA_SIZE <? size + 8) eqn:Q; [discriminate|].
  destruct (in_bounds at_ size (zlen d)) eqn:B; [|discriminate]. cbn [negb] in H. rewrite s32_small in H by lia.
  unfold ask in H. destruct (step E s (OpWrite fd i off (slice at_ size d))) as [s1|] eqn:St; [|discriminate]. cbn [rbind] in H.
  assert (R1 := reachable_step _ _ _ _ R St). split; [reflexivity|].
  destruct (write_outcome _ _ _ _ _ _ _ St) as [(code & Hc & ->) | (s2 & s3 & W1 & W2 & ->)]; cbn [s_out after set_step set_out] in H; rewrite rev_app_distr in H; cbn [rev app] in H; injection H as <-; [lia|].
  split; [exact R1|].
  assert (A : answered s (after s3 [OResp fd MSG_TAG_WRITE []]) (OResp fd MSG_TAG_WRITE [])).
  { unfold after. apply answered_step, answered_resp. eapply evout_trans; [eapply tag_write_evout; exact W1 | eapply map_check_evout; exact W2]. }
  apply (C04_write_stores _ _ _ _ _ _ _ _ R S N St A).
Qed.
Lemma left_alone_reach E i off n s os s' : left_alone E i off n s os s' -> reachable E s -> reachable E s'.
Proof. induction 1; intros R; [exact R | apply IHleft_alone; eapply reachable_step; eassumption]. Qed.
Lemma left_alone_slice E i off n s os s' b : left_alone E i off n s os s' -> reachable E s -> 9 <= i -> 0 <= off -> 0 <= n -> stored s i b ->
  exists b', stored s' i b' /\ zlen b' = zlen b /\ slice off n b' = slice off n b.
Proof.
  intros L. revert b. induction L as [s|s o s1 os s2 Lv St L IH]; intros b R Hi Ho Hn S; [exists b; auto|].
  destruct (leaves_step _ _ _ _ _ _ _ _ R Hi Ho Hn Lv St S) as (b1 & X1 & X2 & X3).
  destruct (IH b1 (reachable_step _ _ _ _ R St) Hi Ho Hn X1) as (b2 & Y1 & Y2 & Y3). exists b2. split; [exact Y1|]. split; congruence.
Qed.
Lemma written_alone E s os s' h d b0 n : left_alone E (h_index h) (h_byte h) (h_size h) s os s' -> reachable E s -> 9 <= h_index h -> 0 <= h_byte h -> 0 <= h_size h ->
  written s h d b0 n -> written s' h d b0 n.
Proof.
  intros L R Hi Ho Hn (b & S & Z1 & K). destruct (left_alone_slice _ _ _ _ _ _ _ _ L R Hi Ho Hn S) as (b' & S' & Z2 & SL).
  exists b'. split; [exact S'|]. split; [congruence|]. intros k Hk. rewrite <- (K k Hk).
  assert (Y := f_equal (fun l => znth l k) SL). cbn beta in Y. rewrite !znth_slice in Y by lia. exact Y.
Qed.
Lemma q_write_ok E fd h off n r d b0 q q1 : reachable E (q_srv q) -> off = h_byte h + n -> 0 <= n -> 0 <= r -> n + r <= h_size h -> 9 <= h_index h -> inside h b0 -> zlen b0 < 2147483648 ->
  written (q_srv q) h d b0 n -> q_write E fd (h_index h) off r n d q = Done (q1, 0) -> undisturbed E h q1 ->
  exists m, q_seen q1 = q_seen q ++ [m] /\ reachable E (q_srv q1) /\ written (m_at m) h d b0 n /\ written (q_srv q1) h d b0 (n + r) /\ n + r <= zlen d.
Proof.
  intros R -> Hn Hr Hs Hi (I1 & I2 & I3) Hz W H U. unfold q_write in H. apply rbind_done in H as (q2 & M & H). apply rbind_done in H as ((s3 & e3) & C & H). injection H as <- ->.
  destruct (meanwhile_ok _ _ _ R M) as (R2 & m & S2 & A & B & X). exists m. cbn [q_seen q_srv]. split; [exact S2|].
  unfold undisturbed in U. cbn [q_seen] in U. rewrite S2 in U. apply Forall_app in U as (_ & U). inversion U as [|? ? (LA & MA) _]; subst.
  rewrite B in LA. assert (W2 := written_alone _ _ _ _ _ _ _ _ LA R Hi I1 I2 W). rewrite A in MA. assert (W3 := W2). rewrite A in W3.
  destruct W3 as (b & S & Z1 & K). destruct (c_write_ok E fd (h_index h) (h_byte h + n) r n d (q_srv q2) b s3 R2 S MA) as (Bd & R3 & S3); try lia; [exact C|].
  split; [exact R3|]. split; [exact W2|]. apply in_bounds_iff in Bd. split; [|lia].
  assert (L : zlen (slice n r d) = r) by (apply zlen_slice, in_bounds_iff; lia).
  assert (BB : in_bounds (h_byte h + n) (zlen (slice n r d)) (zlen b) = true) by (apply in_bounds_iff; lia).
  exists (splice (h_byte h + n) (slice n r d) b). split; [exact S3|]. split; [rewrite (zlen_splice _ _ _ BB); exact Z1|].
  intros k Hk. rewrite (znth_splice _ _ _ _ BB) by lia. rewrite L.
  destruct ((h_byte h + n <=? h_byte h + k) && (h_byte h + k <? h_byte h + n + r)) eqn:Q.
  - replace (k <? n + r) with true by lia. rewrite znth_slice by lia. f_equal. lia.
  - rewrite (K k Hk). destruct (k <? n) eqn:Q1, (k <? n + r) eqn:Q2; try lia; reflexivity.
Qed.
Lemma q_write_more E fd h d tsz : forall fuel tsize n q q1 e,
  chunks (fun a n r => q_write E fd (h_index h) (u32 (h_byte h + n)) r n d a) fuel 4080 tsz tsize n q = Done (q1, e) -> exists new, q_seen q1 = q_seen q ++ new.
Proof.
  induction fuel as [|k IH]; intros ts n q q1 e H; cbn [chunks] in H; destruct (ts <=? 0); try discriminate; [injection H as <- _; exists []; rewrite app_nil_r; reflexivity .. |].
  destruct (tsz =? 0); [discriminate|]. cbv zeta in H. apply rbind_done in H as ((q2 & e2) & C & H).
  assert (N : exists new, q_seen q2 = q_seen q ++ new).
  { unfold q_write in C. apply rbind_done in C as (q3 & M & C). apply rbind_done in C as ((s3 & e3) & _ & C). injection C as <- _. cbn [q_seen].
    unfold meanwhile in M. apply rbind_done in M as (s & _ & M). injection M as <-. cbn [q_seen]. eexists. reflexivity. }
  destruct N as (n1 & N1). destruct (Z.eqb_spec e2 0) as [-> | NE]; cbn [negb] in H; [|injection H as <- _; exists n1; exact N1].
  apply IH in H as (n2 & N2). exists (n1 ++ n2). rewrite N2, N1, app_assoc. reflexivity.
Qed.
Lemma q_write_parts E fd h d b0 tsz : 0 < tsz -> 9 <= h_index h -> inside h b0 -> zlen b0 < 2147483648 -> forall fuel tsize n q q1,
  reachable E (q_srv q) -> 0 <= n -> 0 <= tsize -> n + tsize = h_size h -> (tsz | n) -> n = 0 \/ n <= zlen d ->
  written (q_srv q) h d b0 n ->
  chunks (fun a n r => q_write E fd (h_index h) (u32 (h_byte h + n)) r n d a) fuel 4080 tsz tsize n q = Done (q1, 0) -> undisturbed E h q1 ->
  written (q_srv q1) h d b0 (h_size h) /\ (h_size h = 0 \/ h_size h <= zlen d) /\
  exists new, q_seen q1 = q_seen q ++ new /\ Forall (fun m => exists k, (tsz | k) /\ 0 <= k <= h_size h /\ written (m_at m) h d b0 k) new.
Proof.
  intros Ht Hi I Hz. assert (I' := I). destruct I' as (I1 & I2 & I3). induction fuel as [|k IH]; intros tsize n q q1 R Hn Hs Hi0 Hd Hl W H U; cbn [chunks] in H; destruct (tsize <=? 0) eqn:Q.
  1,3: injection H as <-; assert (n = h_size h) by lia; subst n; split; [exact W|]; split; [exact Hl|]; exists []; rewrite app_nil_r; split; [reflexivity | constructor].
  { discriminate. }
  replace (tsz =? 0) with false in H by lia. assert (P := part_size tsize 4080 tsz ltac:(lia) ltac:(lia) ltac:(lia)). cbv zeta in P, H.
  assert (D : (tsz | Z.min tsize 4080 - Z.rem (Z.min tsize 4080) tsz)).
  { exists (Z.quot (Z.min tsize 4080) tsz). assert (Q2 := Z.quot_rem' (Z.min tsize 4080) tsz). lia. }
  set (r := Z.min tsize 4080 - Z.rem (Z.min tsize 4080) tsz) in *. clearbody r.
  replace (u32 (h_byte h + n)) with (h_byte h + n) in H by (unfold u32; rewrite Z.mod_small; lia).
  apply rbind_done in H as ((q2 & e) & C & H). destruct (Z.eqb_spec e 0) as [-> | NE]; cbn [negb] in H; [|injection H as _ ->; congruence].
  destruct (q_write_more _ _ _ _ _ _ _ _ _ _ _ H) as (nw & NW).
  assert (U2 : undisturbed E h q2) by (unfold undisturbed in *; rewrite NW in U; apply Forall_app in U; tauto).
  destruct (q_write_ok E fd h (h_byte h + n) n r d b0 q q2 R eq_refl) as (m & S2 & R2 & W1 & W2 & L2); try assumption; try lia.
  apply IH in H; try assumption; try lia; [|apply Z.divide_add_r; assumption].
  destruct H as (W3 & L3 & new & N & F). split; [exact W3|]. split; [exact L3|]. exists (m :: new).
  split; [rewrite N, S2, <- app_assoc; reflexivity|]. constructor; [|exact F]. exists n. split; [exact Hd|]. split; [lia | exact W1].
Qed.
(** Whatever other clients do elsewhere, the range holds the caller's data after the call; and at every moment in
    between (when others can look) each element is either the old or the new one, the new ones being the first. *)
Theorem C109_write : forall E cc fd s sched h d b0 q' cc' w,
  reachable E s -> 9 <= h_index h -> holds s h b0 ->
  dax_get_typesize (s_types s) cc (h_type h) = Done (cc', w) -> 0 < w ->
  q_tag_write E cc fd (begin s sched) h d = Done (q', 0) -> undisturbed E h q' ->
  written (q_srv q') h d b0 (h_size h) /\ h_size h <= zlen d /\
  Forall (fun m => exists n, (w | n) /\ 0 <= n <= h_size h /\ written (m_at m) h d b0 n) (q_seen q').
Proof.
  intros E cc fd s sched h d b0 q' cc' w R Hi (Sb & I & Hz) W Hw H U. assert (I' := I). destruct I' as (I1 & I2 & I3). assert (Zd := zlen_nonneg d).
  assert (W0 : written s h d b0 0). { exists b0. split; [exact Sb|]. split; [reflexivity|]. intros k Hk. replace (k <? 0) with false by lia. reflexivity. }
  unfold q_tag_write in H. apply rbind_done in H as (e & _ & H). destruct (negb (e =? 0)) eqn:NE; [assert (e = 0) by congruence; lia|].
  destruct (4080 <? h_size h) eqn:Q.
  - cbn [begin q_srv] in H. rewrite W in H. cbn [rbind snd] in H. cbv zeta in H. destruct (4080 <? w); [discriminate|]. rewrite s32_small in H by lia.
    apply (q_write_parts E fd h d b0 w Hw Hi I Hz) in H; try assumption; try lia; [|apply Z.divide_0_r].
    destruct H as (W3 & L3 & new & N & F). cbn [begin q_seen app] in N. rewrite N. split; [exact W3|]. split; [lia | exact F].
  - destruct (q_write_ok E fd h (h_byte h) 0 (h_size h) d b0 (begin s sched) q') as (m & S2 & R2 & W1 & W2 & L2); try assumption; try lia.
    cbn [begin q_seen app] in S2. split; [replace (h_size h) with (0 + h_size h) at 1 by lia; exact W2|]. split; [lia|]. rewrite S2. constructor; [|constructor].
    exists 0. split; [apply Z.divide_0_r|]. split; [lia | exact W1].
Qed.

(** ** a large transfer is not one step *)
Definition long_h : handle := mk_h 16 0 0 1000 8000 T_LINT.
Definition peek (s : server) (k : Z) : Z :=
  match znth (s_db s) 16 with Some t => match t_data t with DBytes b => nthb b k | _ => 0 end | None => 0 end.
Lemma peek_stored s b k : stored s 16 b -> nthb b k = peek s k.
Proof. intros (t & T & _ & D). unfold peek. rewrite T, D. reflexivity. Qed.
(** Client 6 writes the first byte and then the last one, between the two requests of a read: the reader gets the
    new last byte with the old first one, which the tag never held. *)
Theorem C109_torn_refuted : exists q' buf',
  let others := [OpWrite 6 16 0 [9]; OpWrite 6 16 7999 [9]] in
  let history := OpRead 5 16 0 4088 :: others ++ [OpRead 5 16 4088 3912] in
  q_tag_read env0 [] 5 (begin long_server [[]; others]) long_h (zeros 8000) = Done (q', buf', 0) /\
  there long_h q' /\ exec env0 long_server history = Done (q_srv q') /\
  forall k st b, exec env0 long_server (firstn k history) = Done st -> stored st 16 b -> b <> buf'.
Proof.
  eexists. eexists. cbv zeta. split; [vm_compute; reflexivity|]. split.
  { unfold there. cbn [q_seen].
    repeat (constructor; [eexists; split; [split; [find_tag; split; vm_compute; reflexivity | split; [vm_compute; repeat split; congruence | vm_compute; reflexivity]] | intros t A; vm_compute in A; injection A as <-; vm_compute; reflexivity]|]).
    constructor. }
  split; [vm_compute; reflexivity|].
  intros k st b X S ->. assert (P0 := peek_stored _ _ 0 S). assert (P1 := peek_stored _ _ 7999 S). clear S.
  match type of P0 with nthb ?l 0 = _ => assert (Q0 : nthb l 0 = 0) by (vm_compute; reflexivity); assert (Q1 : nthb l 7999 = 9) by (vm_compute; reflexivity) end.
  rewrite Q0 in P0. rewrite Q1 in P1. clear Q0 Q1.
  assert (C : match exec env0 long_server (firstn k (OpRead 5 16 0 4088 :: [OpWrite 6 16 0 [9]; OpWrite 6 16 7999 [9]] ++ [OpRead 5 16 4088 3912])) with
              | Done st => (peek st 0 =? 0) && (peek st 7999 =? 9) = false | Undef _ => True end).
  { do 5 (destruct k as [|k]; [vm_compute; reflexivity|]). cbn [firstn app]. destruct k; vm_compute; reflexivity. }
  rewrite X in C. rewrite <- P0, <- P1 in C. discriminate.
Qed.
(** Two clients write the whole tag at the same time, both calls succeed, and the tag ends with the first part of
    the one and the second part of the other. *)
Theorem C109_mixed_refuted : exists q' b,
  let sevens := repeat 7 (Z.to_nat 8000) in
  let nines := [OpWrite 6 16 0 (repeat 9 (Z.to_nat 4080)); OpWrite 6 16 4080 (repeat 9 (Z.to_nat 3920))] in
  q_tag_write env0 [] 5 (begin long_server [[]; nines]) long_h sevens = Done (q', 0) /\
  stored (q_srv q') 16 b /\ zlen b = 8000 /\ nthb b 0 = 9 /\ nthb b 7999 = 7 /\
  (exists s', q_tag_write env0 [] 6 (begin long_server []) long_h (repeat 9 (Z.to_nat 8000)) = Done (s', 0) /\ exec env0 long_server nines = Done (q_srv s')).
Proof.
  eexists. eexists. cbv zeta. split; [vm_compute; reflexivity|]. cbn [q_srv]. split; [find_tag; split; vm_compute; reflexivity|].
  split; [vm_compute; reflexivity|]. split; [vm_compute; reflexivity|]. split; [vm_compute; reflexivity|].
  eexists. split; [vm_compute; reflexivity|]. vm_compute. reflexivity.
Qed.

(** ** the hypotheses are met *)
Example C109_ex : exists b q' buf' q'',
  reachable env0 long_server /\ holds long_server long_h b /\ dax_get_typesize (s_types long_server) [] (h_type long_h) = Done ([], 8) /\
  q_tag_read env0 [] 5 (begin long_server [[OpWrite 6 16 0 [9]]; [OpWrite 6 13 0 [1]]]) long_h (zeros 8000) = Done (q', buf', 0) /\ there long_h q' /\
  nthb buf' 0 = 9 /\
  q_tag_write env0 [] 5 (begin long_server [[OpRead 6 16 0 8]; [OpRead 6 16 0 8]]) long_h (repeat 7 (Z.to_nat 8000)) = Done (q'', 0) /\ undisturbed env0 long_h q''.
Proof.
  eexists. eexists. eexists. eexists. split; [exact long_reachable|]. split.
  { split; [find_tag; split; vm_compute; reflexivity | split; [vm_compute; repeat split; congruence | vm_compute; reflexivity]]. }
  split; [reflexivity|]. split; [vm_compute; reflexivity|]. split.
  { unfold there. cbn [q_seen].
    repeat (constructor; [eexists; split; [split; [find_tag; split; vm_compute; reflexivity | split; [vm_compute; repeat split; congruence | vm_compute; reflexivity]] | intros t A; vm_compute in A; injection A as <-; vm_compute; reflexivity]|]).
    constructor. }
  split; [vm_compute; reflexivity|]. split; [vm_compute; reflexivity|].
  unfold undisturbed. cbn [q_seen].
  repeat (constructor; [split; [econstructor; [left; cbn; exact I | vm_compute; reflexivity | constructor] | intros t l A B; vm_compute in A; injection A as <-; vm_compute in B; injection B as <-; constructor]|]).
  constructor.
Qed.
