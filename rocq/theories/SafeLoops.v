(** * SafeLoops: the byte and bit loops of events.c, atomic.c and mapping.c stay inside their areas *)
From Verif Require Import Base Const Types State Events Atomic Server Lib SearchProofs Shape Inv WRel EvLoops Safe.

Lemma s32_id x : -2147483648 <= x < 2147483648 -> s32 x = x.
Proof. intros H. unfold s32. cbv zeta. destruct (x mod 4294967296 <? 2147483648) eqn:Q; lia. Qed.
Lemma u32_id x : 0 <= x < 4294967296 -> u32 x = x.
Proof. intros H. unfold u32. apply Z.mod_small. lia. Qed.
Lemma rd_ok l p w : 0 <= p -> 0 <= w -> p + w <= zlen l -> rd l p w = Done (slice p w l).
Proof. intros. unfold rd. replace (in_bounds p w (zlen l)) with true; [reflexivity|]. symmetry. apply in_bounds_iff. auto. Qed.
Lemma zlen_slice' p w l : 0 <= p -> 0 <= w -> p + w <= zlen l -> zlen (slice p w l) = w.
Proof. intros. apply zlen_slice. apply in_bounds_iff. auto. Qed.

Lemma bits_loop_ok f : forall n b i test data base hit, 0 <= b < 8 -> 0 <= i -> 0 <= base ->
  8 * i + b + Z.of_nat n <= 8 * zlen test -> 8 * (base + i) + b + Z.of_nat n <= 8 * zlen data ->
  exists t h, bits_loop f n b i test data base hit = Done (t, h) /\ zlen t = zlen test.
Proof.
  induction n as [|n IH]; intros b i test data base hit Hb Hi Hbase H1 H2; [exists test, hit; split; reflexivity|].
  cbn [bits_loop]. rewrite bmask_small by lia. cbn [rbind].
  destruct (znth_some test i ltac:(lia)) as [a ->]. destruct (znth_some data (base + i) ltac:(lia)) as [c ->].
  destruct (f (2 ^ b) a c) as [a' h']. cbv zeta. destruct (b + 1 =? 8) eqn:Q.
  - destruct (IH 0 (i + 1) (zset test i a') data base (hit || h')) as (t & h & A & B); rewrite ?zset_zlen; try lia.
    exists t, h. split; [exact A|]. rewrite B. apply zset_zlen.
  - destruct (IH (b + 1) i (zset test i a') data base (hit || h')) as (t & h & A & B); rewrite ?zset_zlen; try lia.
    exists t, h. split; [exact A|]. rewrite B. apply zset_zlen.
Qed.
Lemma change_loop_ok : forall n pt pd test data hit, 0 <= pt -> 0 <= pd -> pt + Z.of_nat n <= zlen test -> pd + Z.of_nat n <= zlen data ->
  exists t h, change_loop n pt pd test data hit = Done (t, h) /\ zlen t = zlen test.
Proof.
  induction n as [|n IH]; intros pt pd test data hit H1 H2 H3 H4; [exists test, hit; split; reflexivity|].
  cbn [change_loop]. destruct (znth_some test pt ltac:(lia)) as [a ->]. destruct (znth_some data pd ltac:(lia)) as [c ->].
  destruct (a =? c).
  - apply IH; lia.
  - destruct (IH (pt + 1) (pd + 1) (zset test pt c) data true) as (t & h & A & B); rewrite ?zset_zlen; try lia.
    exists t, h. split; [exact A|]. rewrite B. apply zset_zlen.
Qed.
Lemma vkind_inc t k : vkind_of t = Some k -> 1 <= kwidth k <= typesize_bits t / 8.
Proof.
  unfold vkind_of. intros H.
  repeat match type of H with (if ?c then _ else _) = _ => destruct c eqn:?; [injection H as <- | ] end; try discriminate;
    repeat match goal with Q : (_ || _) = true |- _ => apply orb_true_iff in Q as [Q|Q] end;
    match goal with Q : (t =? _) = true |- _ => apply Z.eqb_eq in Q; subst t end; vm_compute; split; discriminate.
Qed.
Lemma compare_loop_ok e cmp inc k : vkind_of (e_dtype e) = Some k -> kwidth k <= zlen (e_data e) -> 1 <= kwidth k <= inc ->
  forall n bit pd test data hit, 0 <= bit -> 0 <= pd -> bit + Z.of_nat n <= 8 * zlen test -> pd + Z.of_nat n * inc <= zlen data ->
  exists t h, compare_loop n e cmp inc bit pd test data hit = Done (t, h) /\ zlen t = zlen test.
Proof.
  intros V D W. induction n as [|n IH]; intros bit pd test data hit H1 H2 H3 H4; [exists test, hit; split; reflexivity|].
  cbn [compare_loop]. unfold generic_compare. rewrite V. assert (Hm : 0 <= Z.of_nat n * inc) by (apply Z.mul_nonneg_nonneg; lia).
  assert (Hs : Z.of_nat (S n) * inc = inc + Z.of_nat n * inc) by (rewrite Nat2Z.inj_succ, Z.mul_succ_l; lia).
  rewrite (rd_ok (e_data e)), (rd_ok data) by lia. cbn [rbind].
  assert (Y : exists c, (match kval k (slice 0 (kwidth k) (e_data e)) with
     | Some x => match kval k (slice pd (kwidth k) data) with Some y => Done (if x <? y then -1 else if y <? x then 1 else 0) | None => Done 0 end
     | None => Done 0 end) = Done c) by (destruct (kval k (slice 0 (kwidth k) (e_data e))), (kval k (slice pd (kwidth k) data)); eexists; reflexivity).
  destruct Y as [c ->]. cbn [rbind]. destruct (znth_some test (bit / 8) ltac:(lia)) as [a ->]. cbv zeta.
  destruct (c =? cmp); [destruct (Z.land a _ =? 0)|].
  - destruct (IH (bit + 1) (pd + inc) (zset test (bit / 8) (Z.lor a (2 ^ (bit mod 8)))) data true) as (t & h & A & B); rewrite ?zset_zlen; try lia.
    exists t, h. split; [exact A|]. rewrite B. apply zset_zlen.
  - apply IH; lia.
  - destruct (IH (bit + 1) (pd + inc) (zset test (bit / 8) (Z.ldiff a (2 ^ (bit mod 8)))) data hit) as (t & h & A & B); rewrite ?zset_zlen; try lia.
    exists t, h. split; [exact A|]. rewrite B. apply zset_zlen.
Qed.
(** the kinds whose deadband arithmetic cannot overflow *)
Definition calm (k : vkind) : Prop := match k with KU w => w <= 2 \/ w = 4 | KS w => w <= 2 | KF _ => True end.
Lemma db_arith_ok E k a b d : calm k -> exists h, db_arith E k a b d = Done h.
Proof.
  destruct k as [w|w|w]; cbn; intros H.
  - destruct (w <=? 2) eqn:Q; [eexists; reflexivity|]. replace (w =? 4) with true by lia. eexists; reflexivity.
  - replace (w <=? 2) with true by lia. eexists; reflexivity.
  - destruct (fkey w (en_fsub E w a b)), (fkey w d); eexists; reflexivity.
Qed.
Lemma deadband_loop_ok E e inc k : vkind_of (e_dtype e) = Some k -> calm k -> kwidth k <= zlen (e_data e) -> 1 <= kwidth k <= inc ->
  forall n pt pd test data hit, 0 <= pt -> 0 <= pd -> pt + Z.of_nat n * inc <= zlen test -> pd + Z.of_nat n * inc <= zlen data ->
  exists t h, deadband_loop E n e inc pt pd test data hit = Done (t, h) /\ zlen t = zlen test.
Proof.
  intros V C D W. induction n as [|n IH]; intros pt pd test data hit H1 H2 H3 H4; [exists test, hit; split; reflexivity|].
  cbn [deadband_loop]. unfold generic_deadband. rewrite V. assert (Hm : 0 <= Z.of_nat n * inc) by (apply Z.mul_nonneg_nonneg; lia).
  assert (Hs : Z.of_nat (S n) * inc = inc + Z.of_nat n * inc) by (rewrite Nat2Z.inj_succ, Z.mul_succ_l; lia).
  rewrite (rd_ok (e_data e)), (rd_ok test), (rd_ok data) by lia. cbn [rbind].
  destruct (db_arith_ok E k (kraw k (slice pt (kwidth k) test)) (kraw k (slice pd (kwidth k) data)) (kraw k (slice 0 (kwidth k) (e_data e))) C) as [h ->]. cbn [rbind].
  destruct h; [|apply IH; lia]. rewrite (rd_ok data) by lia. cbn [rbind].
  assert (B : in_bounds pt inc (zlen test) = true) by (apply in_bounds_iff; lia). rewrite B.
  assert (L : zlen (slice pd inc data) = inc) by (apply zlen_slice'; lia).
  assert (L2 : zlen (splice pt (slice pd inc data) test) = zlen test) by (apply zlen_splice; rewrite L; exact B).
  destruct (IH (pt + inc) (pd + inc) (splice pt (slice pd inc data) test) data true) as (t & h & X & Y); rewrite ?L2; try lia.
  exists t, h. split; [exact X|]. congruence.
Qed.

(** ** Events that stay inside a data block of [len] bytes *)
Definition comparing (ty : Z) : bool := (ty =? EV_EQUAL) || (ty =? EV_GREATER) || (ty =? EV_LESS).
Record ev_ok (len : Z) (e : event) : Prop := {
  eo_area : 0 <= e_byte e /\ 0 < e_size e /\ e_byte e + e_size e <= len;
  eo_small : e_size e < 2147483648;
  eo_bits : ((e_etype e = EV_CHANGE /\ e_dtype e = T_BOOL) \/ e_etype e = EV_SET \/ e_etype e = EV_RESET) ->
    0 <= e_bit e < 8 /\ 0 < e_count e /\ e_bit e + e_count e <= 8 * zlen (e_test e) /\ e_bit e + e_count e <= 8 * e_size e;
  eo_change : e_etype e = EV_CHANGE -> e_dtype e <> T_BOOL -> zlen (e_test e) = e_size e;
  eo_cmp : comparing (e_etype e) = true -> exists k n, vkind_of (e_dtype e) = Some k /\ kwidth k <= zlen (e_data e) /\
    e_size e = n * (typesize_bits (e_dtype e) / 8) /\ n <= 8 * zlen (e_test e);
  eo_dead : e_etype e = EV_DEADBAND -> exists k n, vkind_of (e_dtype e) = Some k /\ calm k /\ kwidth k <= zlen (e_data e) /\
    e_size e = n * (typesize_bits (e_dtype e) / 8) /\ zlen (e_test e) = e_size e }.
Lemma ev_ok_le len len' e : len <= len' -> ev_ok len e -> ev_ok len' e.
Proof. intros H [A S B C D F]. constructor; auto. lia. Qed.
Definition ekey (e : event) : event * Z := (stat e, zlen (e_test e)).
Lemma ekey_fields e e' : ekey e' = ekey e -> exists x, e' = set_test e x /\ zlen x = zlen (e_test e).
Proof. unfold ekey, stat, set_test. destruct e, e'; cbn. intros H. injection H as -> -> -> -> -> -> -> -> -> -> H. eexists. split; [reflexivity | exact H]. Qed.
Lemma ev_ok_key len e e' : ekey e' = ekey e -> ev_ok len e -> ev_ok len e'.
Proof.
  intros H. apply ekey_fields in H as (x & -> & L). intros [A B C D F]. constructor; cbn [set_test e_byte e_size e_etype e_dtype e_bit e_count e_test e_data] in *; rewrite ?L; auto.
Qed.

(** the part of the event's area that a write touches, in whole steps *)
Lemma steps_fit byte n inc off wsize : 0 <= byte -> 1 <= inc -> 0 <= off -> 0 <= wsize -> byte + n * inc < 2147483648 -> off + wsize < 2147483648 ->
  0 <= n -> (byte < off < byte + n * inc -> (off - byte) mod inc = 0) -> off < byte + n * inc ->
  let len := ov_len byte (n * inc) off wsize in
  exists q, 0 <= q /\ Z.max off byte = byte + q * inc /\ q + Z.of_nat (iters len inc) <= n.
Proof.
  intros H1 H2 H3 H4 H5 H6 H7 Ha Hlt. unfold ov_len. assert (Hn : 0 <= n * inc) by (apply Z.mul_nonneg_nonneg; lia).
  rewrite !u32_id by lia. rewrite s32_id by lia. cbv zeta.
  set (q := (Z.max off byte - byte) / inc). assert (Q0 : 0 <= q) by (apply Z.div_pos; lia).
  assert (Q : Z.max off byte = byte + q * inc).
  { destruct (Z_le_gt_dec off byte) as [L|L]; [unfold q; rewrite Z.max_r by lia; rewrite Z.sub_diag, Z.div_0_l by lia; lia|].
    specialize (Ha ltac:(lia)). unfold q. rewrite Z.max_l by lia. assert (D := Z.div_mod (off - byte) inc ltac:(lia)). rewrite Z.mul_comm. lia. }
  exists q. split; [exact Q0|]. split; [exact Q|]. unfold iters.
  set (len := Z.min (byte + n * inc) (off + wsize) - Z.max off byte).
  assert (Hq : q <= n). { apply Z.div_le_upper_bound; lia. }
  assert (L : len <= (n - q) * inc) by (unfold len; rewrite Z.mul_sub_distr_r; lia).
  assert (K : (len + inc - 1) / inc <= n - q).
  { replace (n - q) with (((n - q) * inc + (inc - 1)) / inc).
    - apply Z.div_le_mono; lia.
    - rewrite Z.div_add_l by lia. rewrite (Z.div_small (inc - 1) inc) by lia. lia. }
  lia.
Qed.
Lemma quot_step off byte inc q : 1 <= inc -> 0 <= q -> Z.max off byte = byte + q * inc -> Z.max 0 (Z.quot (off - byte) inc) = q.
Proof.
  intros H Hq E. destruct (Z_le_gt_dec off byte) as [L|L].
  - rewrite Z.max_r in E by lia. assert (q * inc = 0) by lia. assert (q = 0) by (apply Z.eq_mul_0 in H0; lia). subst q.
    assert (Z.quot (off - byte) inc <= 0). { replace (off - byte) with (- (byte - off)) by lia. rewrite Z.quot_opp_l by lia. assert (0 <= Z.quot (byte - off) inc) by (apply Z.quot_pos; lia). lia. }
    lia.
  - rewrite Z.max_l in E by lia. replace (off - byte) with (q * inc) by lia. rewrite Z.quot_mul by lia. lia.
Qed.
Lemma event_hit_ok E len e data off wsize : ev_ok len e -> zlen data = len -> len < 2147483648 -> 0 <= off -> 0 <= wsize -> off + wsize < 2147483648 ->
  ev_overlap e off wsize = true -> ev_aligned e off ->
  exists t h, event_hit E e data off wsize = Done (t, h) /\ zlen t = zlen (e_test e).
Proof.
  intros O L Ls H1 H2 H3 Ov Al. destruct (eo_area _ _ O) as (A1 & A2 & A3). unfold event_hit.
  unfold ev_overlap in Ov. rewrite !u32_id in Ov by lia. apply andb_true_iff in Ov as [O1 O2].
  destruct (e_etype e =? EV_WRITE) eqn:Q1; [eexists _, _; split; reflexivity|].
  destruct (e_etype e =? EV_CHANGE) eqn:Q2; [destruct (e_dtype e =? T_BOOL) eqn:Qb|].
  - destruct (eo_bits _ _ O) as (B1 & B2 & B3 & B4); [left; lia|]. apply bits_loop_ok; lia.
  - assert (C := eo_change _ _ O ltac:(lia) ltac:(lia)). unfold ov_len. rewrite !u32_id by lia. rewrite s32_id by lia. apply change_loop_ok; lia.
  - destruct (e_etype e =? EV_SET) eqn:Q3; [destruct (eo_bits _ _ O) as (B1 & B2 & B3 & B4); [lia|]; apply bits_loop_ok; lia|].
    destruct (e_etype e =? EV_RESET) eqn:Q4; [destruct (eo_bits _ _ O) as (B1 & B2 & B3 & B4); [lia|]; apply bits_loop_ok; lia|].
    destruct ((e_etype e =? EV_EQUAL) || (e_etype e =? EV_GREATER) || (e_etype e =? EV_LESS)) eqn:Q5.
    + destruct (eo_cmp _ _ O Q5) as (k & n & V & D & S & T). assert (I := vkind_inc _ _ V). set (inc := typesize_bits (e_dtype e) / 8) in *.
      replace (inc =? 0) with false by lia. rewrite S in *. assert (Hn : 0 <= n) by (destruct (Z_lt_le_dec n 0); [assert (n * inc < 0) by (apply Z.mul_neg_pos; lia); lia | lia]).
      destruct (steps_fit (e_byte e) n inc off wsize) as (q & Q & M & F); try lia; cbv zeta in *.
      { intros R. apply Al; [unfold stepping; lia | rewrite S; exact R]. }
      rewrite (quot_step off (e_byte e) inc q ltac:(lia) Q M), M. apply (compare_loop_ok e _ inc k V D I); try lia.
      assert ((q + Z.of_nat (iters (ov_len (e_byte e) (n * inc) off wsize) inc)) * inc <= n * inc) by (apply Z.mul_le_mono_nonneg_r; lia). lia.
    + destruct (e_etype e =? EV_DEADBAND) eqn:Q6; [|eexists _, _; split; reflexivity].
      destruct (eo_dead _ _ O ltac:(lia)) as (k & n & V & Cm & D & S & T). assert (I := vkind_inc _ _ V). set (inc := typesize_bits (e_dtype e) / 8) in *.
      replace (inc =? 0) with false by lia. rewrite S in *. assert (Hn : 0 <= n) by (destruct (Z_lt_le_dec n 0); [assert (n * inc < 0) by (apply Z.mul_neg_pos; lia); lia | lia]).
      destruct (steps_fit (e_byte e) n inc off wsize) as (q & Q & M & F); try lia; cbv zeta in *.
      { intros R. apply Al; [unfold stepping; lia | rewrite S; exact R]. }
      assert (0 <= q * inc) by (apply Z.mul_nonneg_nonneg; lia).
      assert ((q + Z.of_nat (iters (ov_len (e_byte e) (n * inc) off wsize) inc)) * inc <= n * inc) by (apply Z.mul_le_mono_nonneg_r; lia).
      replace (Z.max 0 (off - e_byte e)) with (q * inc) by lia. rewrite M. apply (deadband_loop_ok E e inc k V Cm D I); lia.
Qed.

(** ** All events of a tag *)
Lemma send_event_ok mods i b e len : (exists m, In m mods /\ m_uid m = e_mod e) -> ev_ok len e -> (forall x, b = Some x -> zlen x = len) -> b <> None ->
  exists o, send_event mods i b e = Done o.
Proof.
  intros (m & I & U) O L N. unfold send_event, mod_by_uid. destruct (find _ mods) as [m'|] eqn:F; [|exfalso; apply (find_none _ _ F) in I; lia].
  destruct (Z.testbit (e_opts e) 0); [|eexists; reflexivity]. destruct (DAX_MSGMAX <? _) eqn:Q; [eexists; reflexivity|].
  destruct b as [x|]; [|congruence]. destruct (eo_area _ _ O) as (A1 & A2 & A3). assert (A4 := eo_small _ _ O). specialize (L x eq_refl).
  unfold u32 in Q. rewrite Z.mod_small in Q by lia. replace (DAX_MSGMAX - 16 <? e_size e) with false by (unfold DAX_MSGMAX in *; lia). rewrite rd_ok by lia. eexists; reflexivity.
Qed.
Definition owned_live (mods : list module) (evs : list event) : Prop := forall e, In e evs -> exists m, In m mods /\ m_uid m = e_mod e.
Lemma check_events_ok E mods i data off n evs len : Forall (ev_ok len) evs -> owned_live mods evs -> zlen data = len -> len < 2147483648 ->
  0 <= off -> 0 <= n -> off + n < 2147483648 -> (forall e, In e evs -> ev_aligned e off) ->
  exists r, check_events E mods i data off n evs = Done r /\ map ekey (fst r) = map ekey evs.
Proof.
  intros F W L Ls H1 H2 H3. induction F as [|e evs O F IH]; intros Al; [eexists; split; reflexivity|].
  destruct IH as ([evs' o'] & C & K); [intros x I; apply W; right; exact I | intros x I; apply Al; right; exact I|].
  cbn [check_events]. destruct (ev_overlap e off n) eqn:Ov.
  - destruct (event_hit_ok E len e data off n O L Ls H1 H2 H3 Ov (Al e (or_introl eq_refl))) as (t & h & -> & T). cbn [rbind].
    assert (S : exists o, (if h then send_event mods i (Some data) e else Done []) = Done o).
    { destruct h; [|eexists; reflexivity]. eapply send_event_ok; [apply W; left; reflexivity | exact O | intros x Q; injection Q as <-; exact L | discriminate]. }
    destruct S as [o ->]. cbn [rbind]. rewrite C. cbn [rbind fst snd] in *. eexists. split; [reflexivity|]. cbn [fst map]. rewrite K. f_equal.
    unfold ekey, stat. cbn [set_test e_test]. rewrite T. reflexivity.
  - rewrite C. cbn [rbind fst snd] in *. eexists. split; [reflexivity|]. cbn [fst map]. rewrite K. reflexivity.
Qed.
Lemma del_events_ok mods i b evs len : Forall (ev_ok len) evs -> owned_live mods evs -> (evs <> [] -> exists x, b = Some x /\ zlen x = len) ->
  exists o, del_events mods i b evs = Done o.
Proof.
  intros F W. induction F as [|e evs O F IH]; intros B; [eexists; reflexivity|]. cbn [del_events].
  destruct (B ltac:(discriminate)) as (x & -> & L). assert (S : exists o, (if e_etype e =? EV_DELETED then send_event mods i (Some x) e else Done []) = Done o).
  { destruct (_ =? _); [|eexists; reflexivity]. eapply send_event_ok; [apply W; left; reflexivity | exact O | intros y Q; injection Q as <-; exact L | discriminate]. }
  destruct S as [o ->]. destruct IH as [o' ->]; [intros y I; apply W; right; exact I | intros _; exists x; auto | cbn [rbind]; eexists; reflexivity].
Qed.

(** ** A new event *)
Lemma base_kind t : In t base_types -> t <> T_BOOL -> exists k, vkind_of t = Some k /\ (~ wide t -> calm k).
Proof.
  intros H N. unfold base_types in H. cbn [In] in H.
  repeat (destruct H as [H|H]; [subst t; first [exfalso; apply N; reflexivity | eexists; split; [reflexivity|]; intros W; unfold calm; first [exact I | lia | exfalso; apply W; unfold wide; auto]]|]).
  destruct H.
Qed.
Lemma type_size_base ts t : In t base_types -> type_size ts t = Done (typesize_bits t / 8).
Proof. intros H. cbn in H. repeat (destruct H as [<-|H]; [reflexivity|]). destruct H. Qed.
Lemma base_small t : In t base_types -> t < T_CUSTOM.
Proof. intros H. cbn in H. repeat (destruct H as [<-|H]; [reflexivity|]). destruct H. Qed.
Lemma zlen_user E st n l : 0 <= n -> zlen (firstn (Z.to_nat n) (l ++ jbytes E st 0 n)) = n.
Proof. intros H. rewrite zlen_firstn, zlen_app, zlen_jbytes. assert (Z0 := zlen_nonneg l). lia. Qed.
Lemma event_new_ok E st ts h etype b ud id u o :
  (In (h_type h) base_types \/ T_CUSTOM <= h_type h) -> 0 <= h_byte h -> 0 <= h_bit h < 8 -> 0 < h_count h < 2147483648 ->
  h_byte h + h_size h <= zlen b -> zlen b < 2147483648 ->
  (if h_type h =? T_BOOL then h_size h = (h_bit h + h_count h - 1) / 8 + 1
   else exists n, type_size ts (h_type h) = Done n /\ 0 < n /\ h_size h = n * h_count h) ->
  (h_type h = T_BOOL -> bit_event etype -> bit_span h) -> (etype = EV_DEADBAND -> ~ wide (h_type h)) ->
  verify_event_type (h_type h) etype = true ->
  exists x, set_event_data E st ts etype (h_type h) (h_count h) (h_byte h) (DBytes b) ud = Done x /\
    ev_ok (zlen b) (mk_ev id (h_byte h) (h_bit h) (h_count h) (h_size h) o (h_type h) etype (fst x) (snd x) u).
Proof.
  intros Ty B0 Bit Cn Rg Ls Sz Sp Wd Vf. unfold set_event_data.
  replace (Z.quot (h_count h - 1) 8) with ((h_count h - 1) / 8) by (symmetry; apply Z.quot_div_nonneg; lia).
  assert (Area : 0 <= h_byte h /\ 0 < h_size h /\ h_byte h + h_size h <= zlen b).
  { destruct (h_type h =? T_BOOL); [lia|]. destruct Sz as (n & _ & N & Hs). assert (0 < n * h_count h) by (apply Z.mul_pos_pos; lia). lia. }
  assert (Small : h_size h < 2147483648) by lia.
  assert (Knd : etype = EV_DEADBAND \/ comparing etype = true -> exists k, vkind_of (h_type h) = Some k /\ (~ wide (h_type h) -> calm k) /\
     type_size ts (h_type h) = Done (typesize_bits (h_type h) / 8) /\ h_size h = h_count h * (typesize_bits (h_type h) / 8) /\ 1 <= typesize_bits (h_type h) / 8 /\ kwidth k <= typesize_bits (h_type h) / 8).
  { intros Q. assert (Nb : h_type h <> T_BOOL /\ h_type h < T_CUSTOM).
    { unfold verify_event_type in Vf. unfold comparing in Q. destruct ((etype =? EV_WRITE) || (etype =? EV_CHANGE)) eqn:Q1; [unfold EV_WRITE, EV_CHANGE, EV_DEADBAND, EV_EQUAL, EV_GREATER, EV_LESS in *; lia|].
      destruct ((etype =? EV_SET) || (etype =? EV_RESET)) eqn:Q2; [unfold EV_SET, EV_RESET, EV_DEADBAND, EV_EQUAL, EV_GREATER, EV_LESS in *; lia|].
      destruct (etype =? EV_EQUAL); lia. }
    destruct Nb as [Nb Nc]. destruct Ty as [Ty|Ty]; [|lia]. destruct (base_kind _ Ty Nb) as (k & V & C). exists k. split; [exact V|]. split; [exact C|].
    replace (h_type h =? T_BOOL) with false in Sz by lia. destruct Sz as (n & S & N & Hs). rewrite (type_size_base ts _ Ty) in S |- *. injection S as <-.
    assert (I := vkind_inc _ _ V). repeat split; lia. }
  destruct (etype =? EV_CHANGE) eqn:Q1.
  { assert (etype = EV_CHANGE) by lia. subst etype. destruct (h_type h =? T_BOOL) eqn:Qb.
    - assert (S := Sp ltac:(lia) (or_introl eq_refl)). unfold bit_span in S.
      replace ((h_count h - 1) / 8 + 1 <? 0) with false by lia. replace ((h_count h - 1) / 8 + 1 =? 0) with false by lia.
      rewrite rd_ok by lia. cbn [rbind]. eexists. split; [reflexivity|]. constructor; cbn [e_byte e_bit e_count e_size e_dtype e_etype e_data e_test fst snd]; try exact Area; try exact Small; try discriminate.
      + intros _. rewrite zlen_slice' by lia. lia.
      + lia.
    - destruct Sz as (n & S & N & Hs). rewrite S. cbn [rbind]. replace (fits32 (n * h_count h)) with true by (unfold fits32; lia). cbn [negb].
      replace (n * h_count h <? 0) with false by lia. replace (n * h_count h =? 0) with false by lia. rewrite rd_ok by lia. cbn [rbind].
      eexists. split; [reflexivity|]. constructor; cbn [e_byte e_bit e_count e_size e_dtype e_etype e_data e_test fst snd]; try exact Area; try exact Small; try discriminate.
      + intros [[_ K]|[K|K]]; [lia | discriminate | discriminate].
      + intros _ _. rewrite zlen_slice' by lia. lia. }
  destruct (etype =? EV_DEADBAND) eqn:Q2.
  { assert (etype = EV_DEADBAND) by lia. subst etype. destruct (Knd (or_introl eq_refl)) as (k & V & C & S & Hs & I & I2). rewrite S. cbn [rbind]. set (inc := typesize_bits (h_type h) / 8) in *.
    rewrite (Z.mul_comm inc), <- Hs. replace (fits32 (h_size h)) with true by (unfold fits32; lia). cbn [negb]. replace (inc <? 0) with false by lia. cbn [rbind].
    replace (h_size h <? 0) with false by lia. replace (h_size h =? 0) with false by lia. rewrite rd_ok by lia. cbn [rbind].
    eexists. split; [reflexivity|]. constructor; cbn [e_byte e_bit e_count e_size e_dtype e_etype e_data e_test fst snd]; try exact Area; try exact Small; try discriminate.
    - intros [[K _]|[K|K]]; discriminate.
    - intros _. exists k, (h_count h). rewrite zlen_user, zlen_slice' by lia. fold inc. repeat split; auto. }
  destruct ((etype =? EV_SET) || (etype =? EV_RESET)) eqn:Q3.
  { assert (Hb : h_type h = T_BOOL). { unfold verify_event_type in Vf. replace ((etype =? EV_WRITE) || (etype =? EV_CHANGE)) with false in Vf by (unfold EV_WRITE, EV_CHANGE, EV_SET, EV_RESET in *; lia). rewrite Q3 in Vf. lia. }
    assert (S := Sp Hb ltac:(unfold bit_event; lia)). unfold bit_span in S. replace (h_type h =? T_BOOL) with true in Sz by lia.
    replace ((h_count h - 1) / 8 + 1 <? 0) with false by lia. eexists. split; [reflexivity|].
    constructor; cbn [e_byte e_bit e_count e_size e_dtype e_etype e_data e_test fst snd]; try exact Area; try exact Small.
    - intros _. rewrite zlen_zeros by lia. lia.
    - intros; subst; discriminate.
    - unfold comparing, EV_EQUAL, EV_GREATER, EV_LESS, EV_SET, EV_RESET in *. lia.
    - intros; subst; discriminate. }
  destruct ((etype =? EV_EQUAL) || (etype =? EV_GREATER) || (etype =? EV_LESS)) eqn:Q4.
  { destruct (Knd (or_intror Q4)) as (k & V & C & S & Hs & I & I2). rewrite S. cbn [rbind]. set (inc := typesize_bits (h_type h) / 8) in *.
    replace (inc <? 0) with false by lia. cbn [rbind]. replace ((h_count h - 1) / 8 + 1 <? 0) with false by lia. eexists. split; [reflexivity|].
    constructor; cbn [e_byte e_bit e_count e_size e_dtype e_etype e_data e_test fst snd]; try exact Area; try exact Small.
    - lia.
    - lia.
    - intros _. exists k, (h_count h). rewrite zlen_user, zlen_zeros by lia. fold inc. repeat split; auto; lia.
    - lia. }
  eexists. split; [reflexivity|]. constructor; cbn [e_byte e_bit e_count e_size e_dtype e_etype e_data e_test fst snd]; try exact Area; try exact Small; try (unfold comparing; lia).
Qed.

(** ** Atomic operations *)
Lemma opnd_at_ok E st l i : 0 <= i -> i + 21 < 4088 -> exists x, opnd_at E st l i = Done x.
Proof. intros H1 H2. unfold opnd_at, MSG_DATA_SIZE. destruct (_ && _); [eexists; reflexivity|]. replace ((0 <=? i) && (i + 21 <? 4088)) with true by lia. eexists; reflexivity. Qed.
Lemma opnd_bytes_ok E st l : forall n i, 0 <= i -> i + Z.of_nat n + 21 <= 4088 -> exists o, opnd_bytes E st l i n = Done o /\ zlen o = Z.of_nat n.
Proof.
  induction n as [|n IH]; intros i H1 H2; [exists []; split; reflexivity|]. cbn [opnd_bytes]. destruct (opnd_at_ok E st l i ltac:(lia) ltac:(lia)) as [x ->]. cbn [rbind].
  destruct (IH (i + 1) ltac:(lia) ltac:(lia)) as (o & -> & L). cbn [rbind]. eexists. split; [reflexivity|]. rewrite zlen_cons. lia.
Qed.
Lemma byte_loop_ok f : forall n k base b, (forall j x, k <= j < k + Z.of_nat n -> exists y, f j x = Done y) -> 0 <= base + k -> base + k + Z.of_nat n <= zlen b ->
  exists b', byte_loop f n k base b = Done b' /\ zlen b' = zlen b.
Proof.
  induction n as [|n IH]; intros k base b F H1 H2; [exists b; split; reflexivity|]. cbn [byte_loop]. destruct (znth_some b (base + k) ltac:(lia)) as [x ->].
  destruct (F k x ltac:(lia)) as [y ->]. cbn [rbind]. destruct (IH (k + 1) base (zset b (base + k) y)) as (b' & A & B); rewrite ?zset_zlen; try lia.
  - intros j z Hj. apply F. lia.
  - exists b'. split; [exact A|]. rewrite B. apply zset_zlen.
Qed.
Lemma not_bits_ok : forall n bit byte b, 0 <= bit < 8 -> 0 <= byte -> 8 * byte + bit + Z.of_nat n <= 8 * zlen b -> exists b', not_bits n bit byte b = Done b'.
Proof.
  induction n as [|n IH]; intros bit byte b H1 H2 H3; [eexists; reflexivity|]. cbn [not_bits]. rewrite bmask_small by lia. cbn [rbind].
  destruct (znth_some b byte ltac:(lia)) as [x ->]. cbv zeta. destruct (bit + 1 =? 8) eqn:Q; apply IH; rewrite ?zset_zlen; lia.
Qed.
Lemma ks_cases t w : vkind_of t = Some (KS w) -> w = 1 \/ w = 2 \/ (w = 4 /\ t = T_DINT) \/ (w = 8 /\ t = T_LINT).
Proof.
  unfold vkind_of. intros H. repeat match type of H with (if ?c then _ else _) = _ => destruct c eqn:?; [injection H as <- || discriminate H | ] end; try discriminate; auto; lia.
Qed.
Lemma incdec_ok E s sub h opnd b : In (h_type h) base_types -> 0 <= h_byte h -> h_byte h + h_size h <= zlen b -> h_byte h + h_size h <= 4067 ->
  (h_type h <> T_BOOL -> h_size h = typesize_bits (h_type h) / 8 * h_count h) -> no_overflow E s h (if sub : bool then 2 else 1) opnd b ->
  exists r, atomic_incdec E (s_step s) sub h opnd b = Done r.
Proof.
  intros Ty B0 Rg Cap Sz No. unfold atomic_incdec. destruct (h_count h =? 1) eqn:C; cbn [negb]; [|eexists; reflexivity].
  destruct (vkind_of (h_type h)) as [k|] eqn:V; [|eexists; reflexivity]. assert (I := vkind_inc _ _ V).
  assert (Nb : h_type h <> T_BOOL) by (intros K; rewrite K in V; discriminate). specialize (Sz Nb). replace (h_count h) with 1 in Sz by lia. rewrite Z.mul_1_r in Sz. rewrite <- Sz in I.
  rewrite rd_ok by lia. cbn [rbind]. destruct (opnd_bytes_ok E (s_step s) opnd (Z.to_nat (kwidth k)) 0) as (o & Ho & Lo); [lia | lia|]. rewrite Ho. cbn [rbind]. cbv zeta.
  destruct k as [w|w|w]; cbn [kwidth kraw] in *; [eexists; reflexivity | | eexists; reflexivity].
  destruct (ks_cases _ _ V) as [-> |[-> |[[-> T]|[-> T]]]]; [eexists; reflexivity | eexists; reflexivity | | ].
  - assert (S4 : h_size h = 4) by (rewrite Sz, T; reflexivity). unfold no_overflow in No. rewrite S4 in No. specialize (No ltac:(destruct sub; auto) (or_introl T) o Ho). cbv zeta in No.
    replace (4 =? 4) with true in No by reflexivity. replace (if (if sub then 2 else 1) =? 2 then _ else _) with (if sub then wrap_s 4 (le_val (slice (h_byte h) 4 b)) - wrap_s 4 (le_val o) else wrap_s 4 (le_val (slice (h_byte h) 4 b)) + wrap_s 4 (le_val o)) in No by (destruct sub; reflexivity).
    rewrite No. eexists; reflexivity.
  - assert (S8 : h_size h = 8) by (rewrite Sz, T; reflexivity). unfold no_overflow in No. rewrite S8 in No. specialize (No ltac:(destruct sub; auto) (or_intror T) o Ho). cbv zeta in No.
    replace (8 =? 4) with false in No by reflexivity. replace (if (if sub then 2 else 1) =? 2 then _ else _) with (if sub then wrap_s 8 (le_val (slice (h_byte h) 8 b)) - wrap_s 8 (le_val o) else wrap_s 8 (le_val (slice (h_byte h) 8 b)) + wrap_s 8 (le_val o)) in No by (destruct sub; reflexivity).
    rewrite No. eexists; reflexivity.
Qed.
Lemma bin_ok E st op h opnd b : 0 <= h_byte h -> 0 <= h_bit h < 8 -> 0 < h_size h -> h_byte h + h_size h <= zlen b -> h_byte h + h_size h <= 4067 ->
  exists r, atomic_bin E st op h opnd b = Done r.
Proof.
  intros B0 Bit Sz Rg Cap. unfold atomic_bin. destruct (_ || _); [eexists; reflexivity|]. destruct (_ && _).
  - replace (8 <? h_bit h) with false by lia. replace (h_size h <=? 0) with false by lia.
    destruct (opnd_bytes_ok E st opnd (Z.to_nat (h_size h)) 0) as (o & -> & Lo); [lia | lia|]. cbn [rbind]. cbv zeta.
    match goal with |- context [byte_loop ?f _ _ _ b] => destruct (byte_loop_ok f (Z.to_nat (h_size h)) 0 (h_byte h) b) as (b1 & -> & L1); [intros; eexists; reflexivity | lia | lia |] end.
    cbn [rbind]. destruct (bop_neg op); [|eexists; reflexivity].
    match goal with |- context [byte_loop ?f _ _ _ b1] => destruct (byte_loop_ok f (Z.to_nat (h_size h - 2)) 1 (h_byte h) b1) as (b2 & Hb & L2) end.
    { intros; eexists; reflexivity. } { lia. }
    { destruct (Z_le_gt_dec 2 (h_size h)); [lia|]. replace (Z.of_nat (Z.to_nat (h_size h - 2))) with 0 by lia. lia. }
    rewrite Hb. cbn [rbind]. destruct (znth_some b2 (h_size h - 1) ltac:(lia)) as [x ->].
    match goal with |- context [znth ?l 0] => destruct (znth_some l 0) as [y ->]; [rewrite zset_zlen; lia|] end. eexists; reflexivity.
  - match goal with |- context [byte_loop ?f _ _ _ b] => destruct (byte_loop_ok f (Z.to_nat (h_size h)) 0 (h_byte h) b) as (b1 & -> & L1) end; [| lia | lia | cbn [rbind]; eexists; reflexivity].
    intros j x Hj. destruct (opnd_at_ok E st opnd (h_byte h + j) ltac:(lia) ltac:(lia)) as [y ->]. cbn [rbind]. eexists; reflexivity.
Qed.
Lemma switch_ok E s op h opnd b : In (h_type h) base_types -> 0 <= h_byte h -> 0 <= h_bit h < 8 -> 0 < h_count h -> h_byte h + h_size h <= zlen b -> h_byte h + h_size h <= 4067 ->
  (if h_type h =? T_BOOL then h_size h = (h_bit h + h_count h - 1) / 8 + 1 else h_size h = typesize_bits (h_type h) / 8 * h_count h /\ 0 < h_size h) ->
  no_overflow E s h op opnd b -> exists r, atomic_switch E (s_step s) op h opnd b = Done r.
Proof.
  intros Ty B0 Bit Cn Rg Cap Sz No. assert (P : 0 < h_size h) by (destruct (h_type h =? T_BOOL); lia).
  assert (Sz2 : h_type h <> T_BOOL -> h_size h = typesize_bits (h_type h) / 8 * h_count h) by (intros N; replace (h_type h =? T_BOOL) with false in Sz by lia; tauto).
  unfold atomic_switch.
  destruct (op =? 1) eqn:O1; [destruct (h_type h =? T_BOOL); [eexists; reflexivity | apply incdec_ok; auto; replace 1 with op by lia; exact No]|].
  destruct (op =? 2) eqn:O2; [destruct (h_type h =? T_BOOL); [eexists; reflexivity | apply incdec_ok; auto; replace 2 with op by lia; exact No]|].
  destruct (op =? 3).
  { unfold atomic_not. destruct (_ || _); [eexists; reflexivity|]. destruct (h_type h =? T_BOOL) eqn:Q.
    - destruct (not_bits_ok (Z.to_nat (h_count h)) (h_bit h) (h_byte h) b) as [r ->]; [lia | lia | lia | eexists; reflexivity].
    - destruct (byte_loop_ok (fun _ x => Done (bnot x)) (Z.to_nat (h_size h)) 0 (h_byte h) b) as (r & -> & _); [intros; eexists; reflexivity | lia | lia | eexists; reflexivity]. }
  repeat (match goal with |- context [if op =? ?n then _ else _] => destruct (op =? n) end; [apply bin_ok; lia|]). eexists; reflexivity.
Qed.

(** ** Mapped bits *)
Lemma mask_loop_ok : forall n bit off m, 0 <= bit < 8 -> 0 <= off -> 8 * off + bit + Z.of_nat n <= 8 * zlen m -> exists x, mask_loop n bit off m = Done x /\ zlen x = zlen m.
Proof.
  induction n as [|n IH]; intros bit off m H1 H2 H3; [eexists; split; reflexivity|]. cbn [mask_loop]. rewrite bmask_small by lia. cbn [rbind].
  destruct (znth_some m off ltac:(lia)) as [x ->]. cbv zeta. set (m' := zset m off (Z.lor x (2 ^ bit))). assert (L : zlen m' = zlen m) by apply zset_zlen.
  destruct (bit + 1 =? 8) eqn:Q; rewrite <- L; apply IH; rewrite ?L; lia.
Qed.
Lemma shift_bits_ok : forall n sb si db di src base acc, 0 <= si < 8 -> 0 <= di < 8 -> 0 <= sb -> 0 <= db -> 0 <= base ->
  8 * (base + sb) + si + Z.of_nat n <= 8 * zlen src -> 8 * db + di + Z.of_nat n <= 8 * zlen acc ->
  exists x, shift_bits n sb si db di src base acc = Done x /\ zlen x = zlen acc.
Proof.
  induction n as [|n IH]; intros sb si db di src base acc H1 H2 H3 H4 H5 H6 H7; [eexists; split; reflexivity|]. cbn [shift_bits]. rewrite !bmask_small by lia. cbn [rbind].
  destruct (znth_some src (base + sb) ltac:(lia)) as [x Hx]. rewrite Hx, (nthb_znth _ _ _ Hx). destruct (znth_some acc db ltac:(lia)) as [y Hy].
  set (acc' := fun z => if Z.land x (2 ^ si) =? 0 then acc else zset acc db (Z.lor z (2 ^ di))).
  assert (L : forall z, zlen (acc' z) = zlen acc) by (intros z; unfold acc'; destruct (_ =? 0); [reflexivity | apply zset_zlen]).
  assert (G : exists z, (if Z.land x (2 ^ si) =? 0 then Some 0 else znth acc db) = Some z) by (destruct (_ =? 0); [eexists; reflexivity | exists y; exact Hy]).
  destruct G as [z ->]. cbv zeta. fold (acc' z). rewrite <- (L z).
  destruct (si + 1 =? 8) eqn:Q1, (di + 1 =? 8) eqn:Q2; apply IH; rewrite ?L; lia.
Qed.
