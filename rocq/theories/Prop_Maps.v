(** * Prop_Maps: data mappings (C31, C32, C33) *)
From Verif Require Import Base Const Types State Events Atomic Server Lib SearchProofs Shape Inv Reach Spec Frame Effects Out DataFrame WRel ModInv IdInv Demo Prop_Tags Prop_Data EvSpec EvLoops.

(** ** bits of blocks *)
Lemma nthb_zset l i x j : 0 <= i < zlen l -> 0 <= j < zlen l -> nthb (zset l i x) j = if j =? i then x else nthb l j.
Proof.
  intros H Hj. destruct (Z.eqb_spec j i) as [->|N]; apply nthb_znth; [apply znth_zset_eq; exact H|].
  rewrite znth_zset_ne by congruence. apply znth_nthb. exact Hj.
Qed.
(** setting a bit of the byte at [i] with a mask byte [v] *)
Lemma bit_or l i y v k : znth l i = Some y -> 0 <= k < 8 * zlen l ->
  bit (zset l i (Z.lor y v)) k = bit l k || ((k / 8 =? i) && Z.testbit v (k mod 8)).
Proof.
  intros H Hk. assert (R := znth_range _ _ _ H). unfold bit. rewrite nthb_zset by lia.
  destruct (Z.eqb_spec (k / 8) i) as [->|N]; cbn [andb]; [|rewrite orb_false_r; reflexivity].
  rewrite Z.lor_spec. rewrite (nthb_znth _ _ _ H). reflexivity.
Qed.
Lemma bmask_cases b v : bmask b = Done v -> v = u8 (2 ^ b) /\ b < 31.
Proof. unfold bmask. destruct (b <? 31) eqn:L; [|discriminate]. intros H. split; [congruence | lia]. Qed.
Lemma u8_bit b k : 0 <= k < 8 -> Z.testbit (u8 (2 ^ b)) k = (k =? b).
Proof.
  intros Hk. unfold u8. change 256 with (2 ^ 8). rewrite Z.mod_pow2_bits_low by lia.
  destruct (Z_lt_le_dec b 0) as [N|P]; [rewrite Z.pow_neg_r by lia; rewrite Z.bits_0; lia|].
  rewrite Z.pow2_bits_eqb by lia. apply Z.eqb_sym.
Qed.
Lemma u8_byte x : 0 <= u8 x < 256.
Proof. unfold u8. apply Z.mod_pos_bound. lia. Qed.
Lemma lor_byte a b : 0 <= a < 256 -> 0 <= b < 256 -> 0 <= Z.lor a b < 256.
Proof.
  intros A B. split; [apply Z.lor_nonneg; lia|]. destruct (Z.eq_dec (Z.lor a b) 0) as [->|N]; [lia|]. change 256 with (2 ^ 8) in *.
  assert (0 < Z.lor a b) by (assert (0 <= Z.lor a b) by (apply Z.lor_nonneg; lia); lia).
  apply Z.log2_lt_pow2; [lia|]. rewrite Z.log2_lor by lia.
  apply Z.max_lub_lt; [destruct (Z.eq_dec a 0) as [->|]; [cbn; lia | apply Z.log2_lt_pow2; lia] | destruct (Z.eq_dec b 0) as [->|]; [cbn; lia | apply Z.log2_lt_pow2; lia]].
Qed.
Lemma bytes_ok_zset l i x : bytes_ok l -> 0 <= x < 256 -> bytes_ok (zset l i x).
Proof.
  intros H Hx. apply bytes_ok_znth. intros j y Q. rewrite znth_zset in Q. destruct ((i =? j) && (0 <=? i) && (i <? zlen l)); [congruence|].
  eapply bytes_ok_znth; eassumption.
Qed.

(** the mask of a mapping: bits [8*off+bit, .. + n) are set, provided bit < 8; otherwise none *)
Lemma mask_loop_spec n : forall b off mask m', mask_loop n b off mask = Done m' -> bytes_ok mask ->
  zlen m' = zlen mask /\ bytes_ok m' /\
  (forall k, 0 <= k < 8 * zlen mask -> bit m' k = true -> bit mask k = true \/ 8 * off + b <= k < 8 * off + b + Z.of_nat n) /\
  (0 <= b < 8 -> forall k, 0 <= k < 8 * zlen mask -> bit m' k = bit mask k || ((8 * off + b <=? k) && (k <? 8 * off + b + Z.of_nat n))).
Proof.
  induction n as [|n IH]; intros b off mask m' H Bm; cbn [mask_loop] in H.
  - injection H as <-. split; [reflexivity|]. split; [exact Bm|]. split; [auto|]. intros _ k _. replace ((_ <=? k) && (k <? _)) with false by lia. rewrite orb_false_r. reflexivity.
  - destruct (bmask b) as [v|] eqn:Bv; [|discriminate]. cbn [rbind] in H. apply bmask_cases in Bv as [-> Lb].
    destruct (znth mask off) as [x|] eqn:Z; [|discriminate]. assert (Bx := proj1 (bytes_ok_znth _) Bm _ _ Z).
    assert (Bm' : bytes_ok (zset mask off (Z.lor x (u8 (2 ^ b))))) by (apply bytes_ok_zset; [exact Bm | apply lor_byte; [exact Bx | apply u8_byte]]).
    assert (Hb : forall k, 0 <= k < 8 * zlen mask -> bit (zset mask off (Z.lor x (u8 (2 ^ b)))) k = bit mask k || (k =? 8 * off + b) && (b <? 8) && (0 <=? b)).
    { intros k Hk. rewrite (bit_or _ _ _ _ _ Z Hk). rewrite u8_bit by lia. f_equal. lia. }
    destruct (Z.eqb_spec (b + 1) 8) as [E8|N8].
    + destruct (IH _ _ _ _ H Bm') as (A1 & A2 & A3 & A4). rewrite zset_zlen in *. split; [exact A1|]. split; [exact A2|]. split.
      * intros k Hk Q. apply A3 in Q; [|exact Hk]. rewrite Hb in Q by exact Hk. destruct Q as [Q|Q]; [|right; lia].
        apply orb_true_iff in Q as [Q|Q]; [auto | right; lia].
      * intros _ k Hk. rewrite A4 by lia. rewrite Hb by lia. rewrite <- orb_assoc. f_equal. lia.
    + destruct (IH _ _ _ _ H Bm') as (A1 & A2 & A3 & A4). rewrite zset_zlen in *. split; [exact A1|]. split; [exact A2|]. split.
      * intros k Hk Q. apply A3 in Q; [|exact Hk]. rewrite Hb in Q by exact Hk. destruct Q as [Q|Q]; [|right; lia].
        apply orb_true_iff in Q as [Q|Q]; [auto | right; lia].
      * intros Hb8 k Hk. rewrite A4 by lia. rewrite Hb by lia. rewrite <- orb_assoc. f_equal. lia.
Qed.
Lemma mask_loop_fits n : forall b off mask m', mask_loop n b off mask = Done m' -> 0 <= b < 8 -> n = 0%nat \/ 8 * off + b + Z.of_nat n <= 8 * zlen mask.
Proof.
  induction n as [|n IH]; intros b off mask m' H Hb; [left; reflexivity|]. right. cbn [mask_loop] in H.
  destruct (bmask b) as [v|]; [|discriminate]. cbn [rbind] in H. destruct (znth mask off) as [x|] eqn:Z; [|discriminate]. apply znth_range in Z.
  destruct (Z.eqb_spec (b + 1) 8); (apply IH in H; [|lia]); rewrite zset_zlen in H; destruct H as [->|H]; lia.
Qed.
(** moving bits *)
Lemma land_bit x b : 0 <= b < 8 -> (Z.land x (u8 (2 ^ b)) =? 0) = negb (Z.testbit x b).
Proof.
  intros H. assert (T : Z.testbit (Z.land x (u8 (2 ^ b))) b = Z.testbit x b) by (rewrite Z.land_spec, u8_bit, Z.eqb_refl by lia; apply andb_true_r).
  destruct (Z.testbit x b) eqn:Q; cbn [negb].
  - destruct (Z.eqb_spec (Z.land x (u8 (2 ^ b))) 0) as [Z0|]; [|reflexivity]. rewrite Z0, Z.bits_0 in T. discriminate.
  - apply Z.eqb_eq. apply Z.bits_inj_0. intros j. rewrite Z.land_spec. destruct (Z_lt_le_dec j 0); [rewrite !Z.testbit_neg_r by lia; reflexivity|].
    destruct (Z_lt_le_dec j 8).
    + rewrite u8_bit by lia. destruct (Z.eqb_spec j b) as [->|]; [rewrite Q; reflexivity | apply andb_false_r].
    + unfold u8. change 256 with (2 ^ 8). rewrite Z.mod_pow2_bits_high by lia. apply andb_false_r.
Qed.
Lemma shift_bits_spec n : forall sb sbit db dbit src base acc acc', shift_bits n sb sbit db dbit src base acc = Done acc' -> 0 <= sbit < 8 -> 0 <= dbit < 8 ->
  zlen acc' = zlen acc /\
  forall k, 0 <= k < 8 * zlen acc ->
    bit acc' k = bit acc k || ((8 * db + dbit <=? k) && (k <? 8 * db + dbit + Z.of_nat n) && bit src (8 * (base + sb) + sbit + (k - (8 * db + dbit)))).
Proof.
  induction n as [|n IH]; intros sb sbit db dbit src base acc acc' H Hs Hd; cbn [shift_bits] in H.
  - injection H as <-. split; [reflexivity|]. intros k _. replace ((_ <=? k) && (k <? _)) with false by lia. cbn [andb]. rewrite orb_false_r. reflexivity.
  - destruct (bmask sbit) as [ms|] eqn:B1; [|discriminate]. destruct (bmask dbit) as [md|] eqn:B2; [|discriminate]. cbn [rbind] in H.
    apply bmask_cases in B1 as [-> _]. apply bmask_cases in B2 as [-> _].
    destruct (znth src (base + sb)) as [x|] eqn:Zs; [|discriminate]. rewrite (nthb_znth _ _ _ Zs) in H. rewrite land_bit in H by lia.
    set (bt := Z.testbit x sbit) in *.
    assert (Sb : bit src (8 * (base + sb) + sbit) = bt).
    { unfold bit. replace ((8 * (base + sb) + sbit) / 8) with (base + sb) by lia. replace ((8 * (base + sb) + sbit) mod 8) with sbit by lia. rewrite (nthb_znth _ _ _ Zs). reflexivity. }
    destruct (if negb bt then Some 0 else znth acc db) as [y|] eqn:Zy; [|discriminate].
    set (acc1 := if negb bt then acc else zset acc db (Z.lor y (u8 (2 ^ dbit)))) in *.
    assert (L1 : zlen acc1 = zlen acc) by (unfold acc1; destruct (negb bt); [reflexivity | apply zset_zlen]).
    assert (Hb : forall k, 0 <= k < 8 * zlen acc -> bit acc1 k = bit acc k || ((k =? 8 * db + dbit) && bt)).
    { intros k Hk. unfold acc1. destruct bt; cbn [negb] in *; [|rewrite andb_false_r, orb_false_r; reflexivity].
      rewrite (bit_or _ _ _ _ _ Zy Hk). rewrite u8_bit by lia. f_equal. lia. }
    assert (G : exists sb2 sbit2 db2 dbit2, shift_bits n sb2 sbit2 db2 dbit2 src base acc1 = Done acc' /\ 0 <= sbit2 < 8 /\ 0 <= dbit2 < 8 /\
                8 * sb2 + sbit2 = 8 * sb + sbit + 1 /\ 8 * db2 + dbit2 = 8 * db + dbit + 1).
    { destruct (Z.eqb_spec (sbit + 1) 8), (Z.eqb_spec (dbit + 1) 8); do 4 eexists; (split; [exact H|]); lia. }
    destruct G as (sb2 & sbit2 & db2 & dbit2 & G & G1 & G2 & G3 & G4). destruct (IH _ _ _ _ _ _ _ _ G G1 G2) as [A1 A2]. split; [lia|].
    intros k Hk. rewrite A2 by lia. rewrite Hb by lia. rewrite G4. replace (8 * (base + sb2) + sbit2) with (8 * (base + sb) + sbit + 1) by lia.
    replace (8 * (base + sb) + sbit + 1 + (k - (8 * db + dbit + 1))) with (8 * (base + sb) + sbit + (k - (8 * db + dbit))) by lia.
    rewrite <- orb_assoc. f_equal. destruct (Z.eqb_spec k (8 * db + dbit)) as [->|N].
    + rewrite Z.sub_diag, Z.add_0_r, Sb. destruct bt; cbn [andb orb]; rewrite ?andb_true_r, ?andb_false_r; lia.
    + cbn [andb orb]. f_equal. lia.
Qed.

(** ** one mapping *)
(** first source bit, first destination bit and number of bits copied; BOOL mappings copy single bits, all others whole bytes.
    [s32]: the destination offset is passed on as an int. *)
Definition src_pos (m : dmap) : Z := 8 * h_byte (m_src m) + (if h_type (m_src m) =? T_BOOL then h_bit (m_src m) else 0).
Definition dst_pos (m : dmap) : Z := 8 * s32 (h_byte (m_dst m)) + (if h_type (m_src m) =? T_BOOL then h_bit (m_dst m) else 0).
Definition width (m : dmap) : Z := if h_type (m_src m) =? T_BOOL then h_count (m_src m) else 8 * h_size (m_src m).
(** bit [k] of tag [j] is one the mapping writes *)
Definition writes (m : dmap) (j k : Z) : Prop := j = h_index (m_dst m) /\ dst_pos m <= k < dst_pos m + width m.
(** the bits of [s] that satisfy [P] are the same in [s'] *)
Definition keeps (P : Z -> Z -> Prop) (s s' : server) : Prop :=
  forall j b, stored s j b -> exists b', stored s' j b' /\ zlen b' = zlen b /\ forall k, 0 <= k < 8 * zlen b -> P j k -> bit b' k = bit b k.
Lemma keeps_refl P s : keeps P s s.
Proof. intros j b H. exists b. auto. Qed.
Lemma keeps_trans P a b c : keeps P a b -> keeps P b c -> keeps P a c.
Proof.
  intros H1 H2 j x S. destruct (H1 _ _ S) as (y & S1 & L1 & K1). destruct (H2 _ _ S1) as (z & S2 & L2 & K2). exists z. split; [exact S2|]. split; [lia|].
  intros k Hk Pk. rewrite K2, K1 by (auto; lia). reflexivity.
Qed.
Lemma keeps_weaken (P Q : Z -> Z -> Prop) s s' : (forall j k, Q j k -> P j k) -> keeps P s s' -> keeps Q s s'.
Proof. intros I H j b S. destruct (H _ _ S) as (b' & S' & L & K). exists b'. split; [exact S'|]. split; [exact L|]. auto. Qed.
Lemma committed_stored s i t b evs o r : znth (s_db s) i = Some t -> has (t_attr t) A_VIRTUAL = false -> stored (committed s i t b evs o r) i b.
Proof. intros H V. eexists. split; [cbn; apply znth_zset_eq; eapply znth_range; exact H|]. split; [exact V | reflexivity]. Qed.
Lemma committed_others s i t b evs o r j x : j <> i -> stored s j x -> stored (committed s i t b evs o r) j x.
Proof. intros N (u & A & B). exists u. split; [cbn; rewrite znth_zset_ne by congruence; exact A | exact B]. Qed.
Lemma tag_write_keeps E fd i off d s s' r : tag_write E fd i off d s = Done (s', r) ->
  keeps (fun j k => ~ (j = i /\ 8 * off <= k < 8 * (off + zlen d))) s s'.
Proof.
  intros H. apply tag_write_cases in H. destruct H as [r H | t q q' evs o H1 H2 H3 _ _ _ _ | t b evs o r H1 H2 H3 H4 H5 _ _ _]; [apply keeps_refl | |].
  - intros j b S. exists b. split; [|auto]. destruct S as (u & A & B & C). exists u. split; [|auto]. cbn. rewrite znth_zset_ne; [exact A|]. intros ->. congruence.
  - intros j x S. destruct (Z.eq_dec j i) as [->|N]; [|exists x; split; [apply committed_others; assumption | auto]].
    assert (x = b) by (destruct S as (u & A & B & C); congruence). subst x. exists (splice off d b). split; [apply committed_stored; assumption|].
    split; [apply zlen_splice; exact H5|]. intros k Hk Q. rewrite splice_bit by assumption. destruct ((8 * off <=? k) && (k <? 8 * (off + zlen d))) eqn:C; [|reflexivity].
    exfalso. apply Q. split; [reflexivity | lia].
Qed.
Lemma mask_write_keeps E fd i off d mk s s' r : tag_mask_write E fd i off d mk s = Done (s', r) -> bytes_ok mk ->
  keeps (fun j k => ~ (j = i /\ 8 * off <= k < 8 * (off + zlen d) /\ bit mk (k - 8 * off) = true)) s s'.
Proof.
  intros H Bm. apply tag_mask_write_cases in H. destruct H as [r H | t b evs o r H1 H2 H3 H4 H5 H6 _ _ _]; [apply keeps_refl|].
  intros j x S. destruct (Z.eq_dec j i) as [->|N]; [|exists x; split; [apply committed_others; assumption | auto]].
  assert (x = b) by (destruct S as (u & A & B & C); congruence). subst x.
  assert (Ls : zlen (slice off (zlen d) b) = zlen d) by (apply zlen_slice; exact H5).
  assert (Lm : zlen (mix (slice off (zlen d) b) d mk) = zlen d) by (rewrite zlen_mix; lia).
  eexists. split; [apply committed_stored; assumption|]. split; [apply zlen_splice; rewrite Lm; exact H5|].
  intros k Hk Q. rewrite splice_bit by (rewrite ?Lm; assumption). rewrite Lm. destruct ((8 * off <=? k) && (k <? 8 * (off + zlen d))) eqn:C; [|reflexivity].
  assert (Zd := zlen_nonneg d). rewrite mix_bit by (try assumption; lia).
  destruct (bit mk (k - 8 * off)) eqn:Bt; [exfalso; apply Q; repeat split; lia|]. rewrite slice_bit by (try assumption; lia). f_equal. lia.
Qed.
Lemma shift_bits_len n : forall sb sbit db dbit src base acc acc', shift_bits n sb sbit db dbit src base acc = Done acc' -> zlen acc' = zlen acc.
Proof.
  induction n as [|n IH]; intros sb sbit db dbit src base acc acc' H; cbn [shift_bits] in H; [congruence|].
  destruct (bmask sbit) as [ms|]; [|discriminate]. destruct (bmask dbit) as [md|]; [|discriminate]. cbn [rbind] in H.
  destruct (znth src (base + sb)) as [x|]; [|discriminate]. match type of H with match ?c with Some _ => _ | None => _ end = _ => destruct c as [y|]; [|discriminate] end.
  destruct (sbit + 1 =? 8), (dbit + 1 =? 8); apply IH in H; rewrite H; destruct (_ =? 0); rewrite ?zset_zlen; reflexivity.
Qed.
Lemma zeros_bit n k : bit (zeros n) k = false.
Proof.
  unfold bit, nthb, zeros. destruct (nth_in_or_default (Z.to_nat (k / 8)) (repeat 0 (Z.to_nat n)) 0) as [Q|Q]; [apply repeat_spec in Q|]; rewrite Q; apply Z.bits_0.
Qed.
Lemma map_del_keeps i id P s s' r : map_del i id s = Done (s', r) -> keeps P s s'.
Proof.
  intros H. assert (G : s' = s \/ exists t l, znth (s_db s) i = Some t /\ s' = set_tag s i (set_maps t l)).
  { unfold map_del in H. inv1 H. destruct (znth (s_db s) i) as [t|] eqn:Ht; [|inv_all; auto]. destruct (t_maps t) as [[|m l]|]; try discriminate.
    destruct (m_id m =? id); [inv_all; eauto|]. destruct (Server.after _ l); inv_all; eauto. }
  destruct G as [->|(t & l & Ht & ->)]; [apply keeps_refl|]. intros j b S. exists b. split; [|auto]. destruct S as (u & A & B & C).
  destruct (Z.eq_dec j i) as [->|N].
  - assert (u = t) by congruence. subst u. exists (set_maps t l). split; [cbn; apply znth_zset_eq; eapply znth_range; exact Ht | auto].
  - exists u. split; [cbn; rewrite znth_zset_ne by congruence; exact A | auto].
Qed.
(** a mapping changes no bit outside its destination range, whatever else happens *)
Lemma map_fire_keeps E m s s' u : mask_made m -> map_fire E m s = Done (s', u) -> keeps (fun j k => ~ writes m j k) s s'.
Proof.
  intros Mm H. unfold map_fire in H. inv1 H. destruct (t_data t) as [|b| | | |] eqn:Dt; try discriminate.
  apply bind_done in H as (s1 & r & Hw & H).
  assert (K2 : keeps (fun j k => ~ writes m j k) s1 s').
  { destruct (r =? E_DELETED); [|unfold ret in H; injection H as <- _; apply keeps_refl]. apply bind_done in H as (s2 & r2 & Hd & H).
    destruct (en_strict E); [discriminate|]. unfold ret in H. injection H as <- _. eapply map_del_keeps; exact Hd. }
  eapply keeps_trans; [|exact K2]. clear K2 H. unfold mask_made in Mm. unfold writes, dst_pos, width. destruct (h_type (m_src m) =? T_BOOL).
  - destruct Mm as (x & Mx & Lx). rewrite Mx in Hw. apply bind_done in Hw as (s2 & nd & Hn & Hw). unfold lift in Hn.
    destruct (shift_bits _ _ _ _ _ _ _ _) as [nd'|] eqn:Sh; [|discriminate]. injection Hn as <- <-.
    destruct (mask_loop_spec _ _ _ _ _ Lx (bytes_ok_zeros _)) as (L & Bx & Sub & _).
    eapply keeps_weaken; [|eapply mask_write_keeps; [exact Hw | exact Bx]]. cbn beta. intros j k Nw (-> & Hk & Bt). apply Nw. split; [reflexivity|].
    rewrite (shift_bits_len _ _ _ _ _ _ _ _ _ Sh) in Hk. destruct (Sub (k - 8 * s32 (h_byte (m_dst m)))) as [Z0|Z0]; [rewrite zlen_zeros' in *; lia | exact Bt | rewrite zeros_bit in Z0; discriminate|].
    destruct (Z_lt_le_dec (h_count (m_src m)) 0); lia.
  - rewrite Mm in Hw. apply bind_done in Hw as (s2 & d & Hn & Hw). unfold lift, rd in Hn. destruct (in_bounds _ _ _) eqn:Ib; [|discriminate]. injection Hn as <- <-.
    destruct (_ && _); [discriminate|]. eapply keeps_weaken; [|eapply tag_write_keeps; exact Hw]. cbn beta. intros j k Nw (-> & Hk). apply Nw. split; [reflexivity|].
    rewrite zlen_slice in Hk by exact Ib. lia.
Qed.
Lemma write_inside E fd j off d s s' r bd td : Inv s -> znth (s_db s) j = Some td -> has (t_attr td) A_VIRTUAL = false -> t_data td = DBytes bd ->
  has (t_attr td) A_SPECIAL = false -> zlen bd < 2147483648 -> 0 <= off -> off + zlen d <= zlen bd -> tag_write E fd j off d s = Done (s', r) ->
  r = 0 /\ stored s' j (splice off d bd).
Proof.
  intros I H1 H2 H3 H4 H5 H6 H7 H. assert (Zb := zlen_nonneg bd). assert (Sz := stored_size _ _ _ _ I H1 H3). rewrite s32_small in Sz by lia.
  assert (W := tag_write_cases _ _ _ _ _ _ _ _ H). inversion W as [r0 Hr0 | | t b evs o x K1 K2 K3]; subst; [|congruence|].
  - exfalso. unfold tag_write in H. rewrite H1, H2, Sz in H. cbn [rbind] in H. destruct (negb (fits32 (off + zlen d))); [discriminate|].
    replace (zlen bd <? off + zlen d) with false in H by lia. rewrite H3, H4 in H. cbv beta iota zeta in H. change (negb (0 =? 0)) with false in H. cbv iota in H.
    destruct (negb (in_bounds off (zlen d) (zlen bd))); [discriminate|]. destruct (commit _ _ _ _ _ _ _) as [[s1 u]|]; [|discriminate]. injection H as _ <-. lia.
  - split; [reflexivity|]. assert (t = td) by congruence. subst t. assert (b = bd) by congruence. subst b. apply committed_stored; assumption.
Qed.
Lemma mask_inside E fd j off d mk s s' r bd td : Inv s -> znth (s_db s) j = Some td -> has (t_attr td) A_VIRTUAL = false -> t_data td = DBytes bd ->
  has (t_attr td) A_SPECIAL = false -> zlen bd < 2147483648 -> 0 <= off -> off + zlen d <= zlen bd -> tag_mask_write E fd j off d mk s = Done (s', r) ->
  r = 0 /\ zlen d <= zlen mk /\ stored s' j (splice off (mix (slice off (zlen d) bd) d mk) bd).
Proof.
  intros I H1 H2 H3 H4 H5 H6 H7 H. assert (Zb := zlen_nonneg bd). assert (Sz := stored_size _ _ _ _ I H1 H3). rewrite s32_small in Sz by lia.
  assert (W := tag_mask_write_cases _ _ _ _ _ _ _ _ _ H). inversion W as [r0 Hr0 | t b evs o x K1 K2 K3]; subst.
  - exfalso. unfold tag_mask_write in H. rewrite (attr_at_znth _ _ _ _ H1) in H. cbn [rbind] in H. rewrite H2, H1, Sz in H. cbn [rbind] in H. destruct (negb (fits32 (off + zlen d))); [discriminate|].
    replace (zlen bd <? off + zlen d) with false in H by lia. rewrite H3, H4 in H. cbv beta iota zeta in H. change (negb (0 =? 0)) with false in H. cbv iota in H.
    destruct (_ || _); [discriminate|]. destruct (commit _ _ _ _ _ _ _) as [[s1 u]|]; [|discriminate]. injection H as _ <-. lia.
  - split; [reflexivity|]. assert (t = td) by congruence. subst t. assert (b = bd) by congruence. subst b. split; [assumption|]. apply committed_stored; assumption.
Qed.
(** what a mapping does to its destination, if the destination range is inside an ordinary tag *)
Record target (s : server) (m : dmap) (bs bd : list Z) : Prop := {
  tg_src : stored s (h_index (m_src m)) bs;
  tg_dst : stored s (h_index (m_dst m)) bd;
  tg_room : 0 <= h_byte (m_dst m) /\ 0 <= h_size (m_src m) /\ h_byte (m_dst m) + h_size (m_src m) <= zlen bd;
  tg_from : 0 <= h_byte (m_src m) /\ 0 <= src_pos m /\ src_pos m + width m <= 8 * zlen bs;
  tg_small : zlen bd < 2147483648;
  tg_plain : forall t, znth (s_db s) (h_index (m_dst m)) = Some t -> has (t_attr t) A_SPECIAL = false;
  tg_bits : 0 <= h_bit (m_src m) < 8 /\ 0 <= h_bit (m_dst m) < 8 }.
Lemma map_fire_copies E m s s' u bs bd : Inv s -> mask_made m -> target s m bs bd -> map_fire E m s = Done (s', u) ->
  exists bd', stored s' (h_index (m_dst m)) bd' /\ zlen bd' = zlen bd /\
    forall k, 0 <= k < width m -> bit bd' (dst_pos m + k) = bit bs (src_pos m + k).
Proof.
  intros I Mm [T1 T2 T3 _ T4 T5 [T6 T7]] H. unfold map_fire in H. inv1 H. destruct T1 as (ts & A1 & A2 & A3). assert (t = ts) by congruence. subst t.
  rewrite A3 in H. apply bind_done in H as (s1 & r & Hw & H). destruct T2 as (td & B1 & B2 & B3).
  assert (Sp := T5 _ B1). assert (Zb := zlen_nonneg bd). assert (Ds : s32 (h_byte (m_dst m)) = h_byte (m_dst m)) by (apply s32_small; lia).
  unfold mask_made in Mm. unfold dst_pos, src_pos, width. rewrite Ds in *.
  destruct (h_type (m_src m) =? T_BOOL).
  - destruct Mm as (x & Mx & Lx). rewrite Mx in Hw. apply bind_done in Hw as (s2 & nd & Hn & Hw). unfold lift in Hn.
    destruct (shift_bits _ _ _ _ _ _ _ _) as [nd'|] eqn:Sh; [|discriminate]. injection Hn as <- <-.
    destruct (mask_loop_spec _ _ _ _ _ Lx (bytes_ok_zeros _)) as (L & Bx & _ & Ex). specialize (Ex T7).
    destruct (shift_bits_spec _ _ _ _ _ _ _ _ _ Sh T6 T7) as (L2 & Ey). rewrite zlen_zeros in * by lia.
    eapply mask_inside in Hw; [|eassumption..|lia|lia]. destruct Hw as (-> & Lm & S1). cbn [Z.eqb E_DELETED] in H. unfold ret in H. injection H as <- _.
    set (off := h_byte (m_dst m)) in *. rewrite L2 in *. assert (Ib : in_bounds off (h_size (m_src m)) (zlen bd) = true) by (apply in_bounds_iff; lia).
    assert (Ls : zlen (slice off (h_size (m_src m)) bd) = h_size (m_src m)) by (apply zlen_slice; exact Ib).
    assert (Lx2 : zlen (mix (slice off (h_size (m_src m)) bd) nd' x) = h_size (m_src m)) by (rewrite zlen_mix; lia).
    eexists. split; [exact S1|]. split; [apply zlen_splice; rewrite Lx2; exact Ib|].
    intros k Hk. assert (Hfit : h_bit (m_dst m) + h_count (m_src m) <= 8 * h_size (m_src m)).
    { destruct (mask_loop_fits _ _ _ _ _ Lx T7) as [F|F]; [lia|]. rewrite zlen_zeros in F by lia. lia. }
    rewrite splice_bit by (rewrite ?Lx2; try assumption; lia). rewrite Lx2. replace ((_ <=? _) && _) with true by lia.
    rewrite mix_bit by (try assumption; lia). rewrite Ex by lia. rewrite zeros_bit. cbn [orb]. replace ((_ <=? _) && _) with true by lia.
    rewrite Ey by lia. rewrite zeros_bit. cbn [orb]. replace ((_ <=? _) && _) with true by lia. cbn [andb]. f_equal. lia.
  - rewrite Mm in Hw. apply bind_done in Hw as (s2 & d & Hn & Hw). unfold lift, rd in Hn. destruct (in_bounds _ _ _) eqn:Ib; [|discriminate]. injection Hn as <- <-.
    destruct (_ && _); [discriminate|]. assert (Ls := zlen_slice _ _ _ Ib). eapply write_inside in Hw; [|eassumption..|lia|lia]. destruct Hw as (-> & S1).
    cbn [Z.eqb E_DELETED] in H. unfold ret in H. injection H as <- _.
    assert (Id : in_bounds (h_byte (m_dst m)) (zlen (slice (h_byte (m_src m)) (h_size (m_src m)) bs)) (zlen bd) = true) by (apply in_bounds_iff; lia).
    eexists. split; [exact S1|]. split; [apply zlen_splice; exact Id|]. intros k Hk. rewrite splice_bit by (try assumption; lia). rewrite Ls. replace ((_ <=? _) && _) with true by lia.
    rewrite slice_bit by (try assumption; lia). f_equal. lia.
Qed.

(** ** all mappings of a tag *)
Lemma map_fire_shape' E m s s' u : map_fire E m s = Done (s', u) -> shape s s'.
Proof. intros H. eapply map_fire_shape; exact H. Qed.
Lemma shape_special s s' j : shape s s' -> (forall t, znth (s_db s) j = Some t -> has (t_attr t) A_SPECIAL = false) ->
  forall t, znth (s_db s') j = Some t -> has (t_attr t) A_SPECIAL = false.
Proof.
  intros Sh H t Ht. assert (C := shape_core _ _ j Sh). unfold core_at in C. rewrite Ht in C. destruct (znth (s_db s) j) as [t0|] eqn:Z; [|discriminate].
  cbn in C. assert (Q := H _ eq_refl). unfold tcore in C. congruence.
Qed.
Lemma target_keeps P s s' m bs bd : keeps P s s' -> shape s s' -> target s m bs bd ->
  exists bs' bd', target s' m bs' bd' /\ zlen bs' = zlen bs /\ zlen bd' = zlen bd /\
    (forall k, 0 <= k < 8 * zlen bs -> P (h_index (m_src m)) k -> bit bs' k = bit bs k).
Proof.
  intros K Sh [A B C D F G H]. destruct (K _ _ A) as (bs' & A1 & A2 & A3). destruct (K _ _ B) as (bd' & B1 & B2 & _). exists bs', bd'.
  split; [constructor; rewrite ?A2, ?B2; try assumption; eapply shape_special; eassumption|]. auto.
Qed.
Lemma map_loop_app E l1 l2 off w s s' u : map_loop E (l1 ++ l2) off w s = Done (s', u) ->
  exists s1 v, map_loop E l1 off w s = Done (s1, v) /\ map_loop E l2 off w s1 = Done (s', u).
Proof.
  revert s. induction l1 as [|m l1 IH]; intros s H; cbn [app map_loop] in *; [exists s, tt; auto|].
  apply bind_done in H as (s2 & v & H1 & H). destruct (IH _ H) as (s3 & v3 & G1 & G2). exists s3, v3. split; [|exact G2]. unfold bind. rewrite H1. exact G1.
Qed.
Lemma map_loop_keeps E l off w : Forall mask_made l -> forall s s' u, map_loop E l off w s = Done (s', u) ->
  keeps (fun j k => forall m, In m l -> map_overlap m off w = true -> ~ writes m j k) s s'.
Proof.
  induction 1 as [|m l Mm F IH]; intros s s' u H; cbn [map_loop] in H; [unfold ret in H; injection H as <- _; apply keeps_refl|].
  apply bind_done in H as (s1 & v & H1 & H). eapply keeps_trans; [|eapply keeps_weaken; [|eapply IH; exact H]; cbn beta; intros j k Q m' Hm; apply Q; right; exact Hm].
  destruct (map_overlap m off w) eqn:Ov; [|unfold ret in H1; injection H1 as <- _; apply keeps_refl].
  eapply keeps_weaken; [|eapply map_fire_keeps; eassumption]. cbn beta. intros j k Q. apply Q; [left; reflexivity | exact Ov].
Qed.
(** [m'] writes no bit that [m] writes / reads *)
Definition clear_of (m' m : dmap) : Prop := forall k, 0 <= k < width m -> ~ writes m' (h_index (m_dst m)) (dst_pos m + k).
Definition leaves_source (m' m : dmap) : Prop := forall k, 0 <= k < width m -> ~ writes m' (h_index (m_src m)) (src_pos m + k).
Lemma map_loop_copies E l1 m l2 off w s s' u bs bd : Inv s -> Forall mask_made (l1 ++ m :: l2) -> map_overlap m off w = true -> target s m bs bd ->
  (forall m', In m' (l1 ++ l2) -> clear_of m' m) -> (forall m', In m' (l1 ++ m :: l2) -> leaves_source m' m) ->
  map_loop E (l1 ++ m :: l2) off w s = Done (s', u) ->
  exists bs' bd', stored s' (h_index (m_src m)) bs' /\ stored s' (h_index (m_dst m)) bd' /\
    forall k, 0 <= k < width m -> bit bd' (dst_pos m + k) = bit bs' (src_pos m + k).
Proof.
  intros I Mm Ov T C L H. apply Forall_app in Mm as [M1 M2]. assert (M3 := Forall_inv_tail M2). apply Forall_inv in M2.
  apply map_loop_app in H as (s1 & v & H1 & H). cbn [map_loop] in H. rewrite Ov in H. apply bind_done in H as (s2 & v2 & H2 & H).
  assert (Sh1 : shape s s1) by (eapply map_loop_shape; exact H1). assert (I1 := Inv_shape _ _ I Sh1).
  assert (K1 := map_loop_keeps _ _ _ _ M1 _ _ _ H1). assert (K3 := map_loop_keeps _ _ _ _ M3 _ _ _ H). assert (K2 := map_fire_keeps _ _ _ _ _ M2 H2).
  destruct (target_keeps _ _ _ _ _ _ K1 Sh1 T) as (bs1 & bd1 & T1 & Ls & Ld & _).
  destruct (map_fire_copies _ _ _ _ _ _ _ I1 M2 T1 H2) as (bd2 & S2 & L2 & Cp).
  destruct (K2 _ _ (tg_src _ _ _ _ T1)) as (bs2 & Z1 & Z2 & Z3). destruct (K3 _ _ Z1) as (bs3 & Y1 & Y2 & Y3). destruct (K3 _ _ S2) as (bd3 & X1 & X2 & X3).
  exists bs3, bd3. split; [exact Y1|]. split; [exact X1|]. intros k Hk. destruct (tg_from _ _ _ _ T) as (Fr1 & Fr2 & Fr3). destruct (tg_room _ _ _ _ T1) as (Rm1 & Rm2 & Rm3).
  assert (Dr : 0 <= dst_pos m + k < 8 * zlen bd2).
  { destruct (tg_bits _ _ _ _ T) as [_ Hb]. assert (Sm := tg_small _ _ _ _ T1). unfold dst_pos, width, mask_made in *. rewrite s32_small by lia.
    destruct (h_type (m_src m) =? T_BOOL); [|lia]. destruct M2 as (x & _ & Lx). destruct (mask_loop_fits _ _ _ _ _ Lx Hb) as [F|F]; [lia|]. rewrite zlen_zeros in F by lia. lia. }
  rewrite X3; [|exact Dr|intros m' Hm' _; apply C; [apply in_or_app; right; exact Hm' | exact Hk]].
  rewrite Y3; [|lia|intros m' Hm' _; apply L; [apply in_or_app; right; right; exact Hm' | exact Hk]].
  rewrite Z3; [|lia|apply L; [apply in_or_app; right; left; reflexivity | exact Hk]].
  apply Cp. exact Hk.
Qed.
Lemma overlap_touches m off n : 0 <= h_byte (m_src m) -> h_byte (m_src m) < off + n -> off < h_byte (m_src m) + h_size (m_src m) ->
  0 <= off -> off + n < 4294967296 -> h_byte (m_src m) + h_size (m_src m) <= 4294967296 -> map_overlap m off n = true.
Proof. intros. unfold map_overlap, u32. rewrite !Z.mod_small by lia. lia. Qed.
Lemma map_check_copies E s i off n s' u t l m bs bd : Inv s -> IdInv s -> znth (s_db s) i = Some t -> t_maps t = Some l -> In m l -> map_overlap m off n = true -> target s m bs bd ->
  (forall m', In m' l -> m' <> m -> clear_of m' m) -> (forall m', In m' l -> leaves_source m' m) -> map_check E i off n s = Done (s', u) ->
  exists bs' bd', stored s' (h_index (m_src m)) bs' /\ stored s' (h_index (m_dst m)) bd' /\
    forall k, 0 <= k < width m -> bit bd' (dst_pos m + k) = bit bs' (src_pos m + k).
Proof.
  intros I W Ht Hl Hm Ov T C L H. unfold map_check in H. inv1 H. assert (t0 = t) by congruence. subst t0. rewrite Hl in H.
  destruct (wf_maps _ _ _ (W _ _ Ht) _ Hl) as (D1 & D2 & D3). apply in_split in Hm as (l1 & l2 & ->).
  eapply map_loop_copies; [exact I | | exact Ov | exact T | | exact L | exact H].
  - apply Forall_forall. intros x Hx. apply D3. exact Hx.
  - intros m' Hm'. apply C; [apply in_app_or in Hm'; apply in_or_app; cbn; tauto|]. intros ->. apply desc_NoDup in D1. rewrite map_app in D1. cbn [map] in D1.
    apply NoDup_remove_2 in D1. apply D1. rewrite <- map_app. apply in_map. exact Hm'.
Qed.
Lemma maps_kept i s s' t l : fk t_maps i s s' -> znth (s_db s) i = Some t -> t_maps t = Some l -> exists t', znth (s_db s') i = Some t' /\ t_maps t' = Some l.
Proof. intros F Ht Hl. destruct (F _ Ht) as (t' & A & B). exists t'. split; [exact A | congruence]. Qed.

(** ** C31 *)
(** After a write to tag [i] that is answered with success and touches the source bytes of a mapping [m] of tag [i], the
    destination bits of [m] are equal to the source bits: provided that the ranges lie inside ordinary tags and that no other
    mapping of tag [i] writes to the destination of [m] and none writes to the source of [m]. *)
Definition touches (off n : Z) (m : dmap) : Prop := h_byte (m_src m) < off + n /\ off < h_byte (m_src m) + h_size (m_src m).
Theorem C31_write_copies : forall E s fd i off d s' t l m bs bd,
  reachable E s -> znth (s_db s) i = Some t -> t_maps t = Some l -> In m l -> target s m bs bd -> h_byte (m_src m) + h_size (m_src m) <= 4294967296 ->
  (forall m', In m' l -> m' <> m -> clear_of m' m) -> (forall m', In m' l -> leaves_source m' m) ->
  step E s (OpWrite fd i off d) = Done s' -> answered s s' (OResp fd MSG_TAG_WRITE []) -> touches off (zlen d) m ->
  exists bs' bd', stored s' i bs' /\ stored s' (h_index (m_dst m)) bd' /\
    forall k, 0 <= k < width m -> bit bd' (dst_pos m + k) = bit bs' (src_pos m + k).
Proof.
  intros E s fd i off d s' t l m bs bd R Ht Hl Hm T Hu C L H A [To1 To2]. apply write_ok in H as (s1 & s2 & H1 & H2 & ->); [|exact A].
  assert (W := reachable_ids _ _ R). assert (Hi : h_index (m_src m) = i) by (apply (wf_maps _ _ _ (W _ _ Ht) _ Hl); exact Hm).
  assert (Sh := tag_write_shape _ _ _ _ _ _ _ _ H1). assert (I1 := Inv_shape _ _ (reachable_Inv _ _ R) Sh).
  assert (W1 : IdInv s1) by (eapply (IdInv_er (fun _ _ => True)); [apply er_wrel; eapply tag_write_wrel; exact H1 | exact W]).
  destruct (maps_kept _ _ _ _ _ (tag_write_maps _ _ _ _ _ _ _ _ i H1) Ht Hl) as (t1 & Ht1 & Hl1).
  destruct (target_keeps _ _ _ _ _ _ (tag_write_keeps _ _ _ _ _ _ _ _ H1) Sh T) as (bs1 & bd1 & T1 & _).
  assert (B : 0 <= off /\ off + zlen d < 4294967296).
  { assert (X := tag_write_cases _ _ _ _ _ _ _ _ H1). destruct (tg_src _ _ _ _ T) as (u & U1 & U2 & U3). rewrite Hi in U1.
    inversion X as [| |t0 b0 evs o x K1 K2 K3 K4 K5]; subst; [lia | congruence|]. apply in_bounds_iff in K5. unfold fits32 in K4. lia. }
  destruct (map_check_copies E s1 i off (zlen d) s2 tt t1 l m bs1 bd1) as (bs' & bd' & S1 & S2 & S3); try assumption.
  - apply overlap_touches; try lia. apply (tg_from _ _ _ _ T).
  - exists bs', bd'. rewrite Hi in S1. auto.
Qed.
Theorem C31_mask_copies : forall E s fd i off d mk s' t l m bs bd,
  reachable E s -> znth (s_db s) i = Some t -> t_maps t = Some l -> In m l -> target s m bs bd -> h_byte (m_src m) + h_size (m_src m) <= 4294967296 -> bytes_ok mk ->
  (forall m', In m' l -> m' <> m -> clear_of m' m) -> (forall m', In m' l -> leaves_source m' m) ->
  step E s (OpMask fd i off d mk) = Done s' -> answered s s' (OResp fd MSG_TAG_MWRITE []) -> touches off (zlen d) m ->
  exists bs' bd', stored s' i bs' /\ stored s' (h_index (m_dst m)) bd' /\
    forall k, 0 <= k < width m -> bit bd' (dst_pos m + k) = bit bs' (src_pos m + k).
Proof.
  intros E s fd i off d mk s' t l m bs bd R Ht Hl Hm T Hu Bk C L H A [To1 To2]. apply mask_ok in H as (s1 & s2 & H1 & H2 & ->); [|exact A].
  assert (W := reachable_ids _ _ R). assert (Hi : h_index (m_src m) = i) by (apply (wf_maps _ _ _ (W _ _ Ht) _ Hl); exact Hm).
  assert (Sh := tag_mask_write_shape _ _ _ _ _ _ _ _ _ H1). assert (I1 := Inv_shape _ _ (reachable_Inv _ _ R) Sh).
  assert (W1 : IdInv s1) by (eapply (IdInv_er (fun _ _ => True)); [apply er_wrel; eapply tag_mask_write_wrel; exact H1 | exact W]).
  destruct (maps_kept _ _ _ _ _ (tag_mask_write_maps _ _ _ _ _ _ _ _ _ i H1) Ht Hl) as (t1 & Ht1 & Hl1).
  destruct (target_keeps _ _ _ _ _ _ (mask_write_keeps _ _ _ _ _ _ _ _ _ H1 Bk) Sh T) as (bs1 & bd1 & T1 & _).
  assert (B : 0 <= off /\ off + zlen d < 4294967296).
  { assert (X := tag_mask_write_cases _ _ _ _ _ _ _ _ _ H1). inversion X as [|t0 b0 evs o x K1 K2 K3 K4 K5]; subst; [lia|]. apply in_bounds_iff in K5. unfold fits32 in K4. lia. }
  destruct (map_check_copies E s1 i off (zlen d) s2 tt t1 l m bs1 bd1) as (bs' & bd' & S1 & S2 & S3); try assumption.
  - apply overlap_touches; try lia. apply (tg_from _ _ _ _ T).
  - exists bs', bd'. rewrite Hi in S1. auto.
Qed.
(** Nothing else changes: a bit that the write itself does not address and that is not a destination bit of a mapping
    whose source is touched keeps its value. *)
Theorem C31_nothing_else : forall E s fd i off d s' t l bi,
  reachable E s -> znth (s_db s) i = Some t -> t_maps t = Some l -> stored s i bi -> d <> [] ->
  (forall m, In m l -> 0 <= h_byte (m_src m) /\ 0 < h_size (m_src m) /\ h_byte (m_src m) + h_size (m_src m) <= 4294967296) ->
  step E s (OpWrite fd i off d) = Done s' -> answered s s' (OResp fd MSG_TAG_WRITE []) ->
  forall j b, stored s j b -> exists b', stored s' j b' /\ zlen b' = zlen b /\
    forall k, 0 <= k < 8 * zlen b -> ~ (j = i /\ 8 * off <= k < 8 * (off + zlen d)) ->
      (forall m, In m l -> touches off (zlen d) m -> ~ writes m j k) -> bit b' k = bit b k.
Proof.
  intros E s fd i off d s' t l bi R Ht Hl (ti & I1 & I2 & I3) Hd Sane H A j b S. apply write_ok in H as (s1 & s2 & H1 & H2 & ->); [|exact A].
  assert (W := reachable_ids _ _ R).
  assert (W1 : IdInv s1) by (eapply (IdInv_er (fun _ _ => True)); [apply er_wrel; eapply tag_write_wrel; exact H1 | exact W]).
  destruct (maps_kept _ _ _ _ _ (tag_write_maps _ _ _ _ _ _ _ _ i H1) Ht Hl) as (t1 & Ht1 & Hl1).
  destruct (tag_write_keeps _ _ _ _ _ _ _ _ H1 _ _ S) as (b1 & S1 & L1 & K1).
  unfold map_check in H2. inv1 H2. assert (t0 = t1) by congruence. subst t0. rewrite Hl1 in H2.
  assert (Fm : Forall mask_made l) by (apply Forall_forall; intros x Hx; apply (wf_maps _ _ _ (W _ _ Ht) _ Hl); exact Hx).
  destruct (map_loop_keeps _ _ _ _ Fm _ _ _ H2 _ _ S1) as (b2 & S2 & L2 & K2). exists b2. split; [exact S2|]. split; [lia|].
  intros k Hk N1 N2. assert (X := tag_write_cases _ _ _ _ _ _ _ _ H1).
  rewrite K2; [apply K1; assumption | lia|]. intros m Hm Ov. destruct (Sane _ Hm) as (Q1 & Q2 & Q3).
  apply N2; [exact Hm|]. unfold touches. unfold map_overlap, u32 in Ov. assert (0 < zlen d) by (destruct d; [congruence|]; rewrite zlen_cons; assert (Q := zlen_nonneg d); lia).
  inversion X as [| |t0 b0 evs o x K4 K5 K6 K7 K8]; subst; [lia | congruence|]. apply in_bounds_iff in K8. unfold fits32 in K7. rewrite !Z.mod_small in Ov by lia. lia.
Qed.

(** ** C32 *)
Lemma reply_int_done fd cmd r s s' u : reply_int fd cmd r s = Done (s', u) ->
  s' = set_out s (s_out s ++ [if r <? 0 then OErr fd cmd r else OResp fd cmd (le_bytes 4 r)]).
Proof.
  unfold reply_int, reply_err, respond, emit, modify. destruct (r <? 0); [intros H; injection H as <- _; reflexivity|].
  rewrite zlen_le_bytes. cbn. intros H; injection H as <- _; reflexivity.
Qed.
Lemma after_in {A} (p : A -> bool) l r : Server.after p l = Some r -> exists l1 x, l = l1 ++ x :: r /\ p x = true.
Proof.
  revert r; induction l as [|x l IH]; intros r H; cbn in H; [discriminate|]. destruct (p x) eqn:P.
  - injection H as <-. exists [], x. auto.
  - destruct (IH _ H) as (l1 & y & -> & Q). exists (x :: l1), y. auto.
Qed.
Lemma after_none {A} (p : A -> bool) l : Server.after p l = None -> forall x, In x l -> p x = false.
Proof. induction l as [|x l IH]; cbn; intros H y; [intros []|]. destruct (p x) eqn:P; [discriminate|]. intros [<-|Hy]; auto. Qed.
Lemma map_del_outcome E s fd i id s' t m l : step E s (OpMapDel fd i id) = Done s' -> znth (s_db s) i = Some t -> t_maps t = Some (m :: l) ->
  (exists l', s' = Spec.after (set_tag s i (set_maps t (Some l'))) [OResp fd MSG_MAP_DEL (le_bytes 4 0)] /\
     ((m_id m = id /\ l' = l) \/ exists l1 x r, m_id m <> id /\ l = l1 ++ x :: r /\ m_id x = id /\ l' = m :: r)) \/
  (s' = Spec.after s [OErr fd MSG_MAP_DEL E_NOTFOUND] /\ forall x, In x (m :: l) -> m_id x <> id).
Proof.
  intros H Ht Hm. apply step_inv in H as (s1 & u & H & ->). cbn [handle_op] in H. apply bind_done in H as (s2 & r & H1 & H). apply reply_int_done in H. subst s1.
  unfold map_del in H1. inv1 H1. rewrite Ht, Hm in H1. destruct (Z.eqb_spec (m_id m) id) as [E1|N1].
  - inv_all. left. exists l. split; [reflexivity | auto].
  - destruct (Server.after (fun x => m_id x =? id) l) as [rest|] eqn:Q.
    + inv_all. left. exists (m :: rest). split; [reflexivity|]. right. apply after_in in Q as (l1 & x & -> & Hx). exists l1, x, rest. repeat split; try assumption. lia.
    + inv_all. right. split; [reflexivity|]. intros x [<-|Hx]; [exact N1|]. assert (Z := after_none _ _ Q _ Hx). cbn in Z. lia.
Qed.
(** C32 (partial): on a tag that has mappings, deleting succeeds exactly when the id is in use; the deleted mapping is gone and none
    appears; and if it was the newest or the second newest mapping of the tag, all others stay in place. *)
Theorem C32_partial : forall E s fd i id s' t l,
  reachable E s -> znth (s_db s) i = Some t -> t_maps t = Some l -> l <> [] -> step E s (OpMapDel fd i id) = Done s' ->
  ((exists m, In m l /\ m_id m = id) ->
     answered s s' (OResp fd MSG_MAP_DEL (le_bytes 4 0)) /\
     exists t' l', znth (s_db s') i = Some t' /\ t_maps t' = Some l' /\
       (forall m, In m l' -> In m l /\ m_id m <> id) /\
       (forall m, (znth l 0 = Some m \/ znth l 1 = Some m) -> m_id m = id -> forall x, In x l -> m_id x <> id -> In x l')) /\
  ((forall m, In m l -> m_id m <> id) -> s' = Spec.after s [OErr fd MSG_MAP_DEL E_NOTFOUND]).
Proof.
  intros E s fd i id s' t l R Ht Hl Hn H. destruct l as [|m l]; [congruence|].
  destruct (wf_maps _ _ _ (reachable_ids _ _ R _ _ Ht) _ Hl) as (D & _ & _). apply desc_NoDup in D.
  destruct (map_del_outcome _ _ _ _ _ _ _ _ _ H Ht Hl) as [(l' & -> & Q)|[-> Q]].
  2:{ split; [|reflexivity]. intros (x & X1 & X2). exfalso. exact (Q _ X1 X2). }
  split.
  2:{ intros Nn. exfalso. destruct Q as [[Q _]|(l1 & x & r & _ & -> & Q & _)]; [exact (Nn m (or_introl eq_refl) Q)|].
      apply (Nn x); [right; apply in_or_app; right; left; reflexivity | exact Q]. }
  intros _. split; [apply answered_step; exists []; split; [reflexivity | constructor]|].
  exists (set_maps t (Some l')), l'. split; [cbn; apply znth_zset_eq; eapply znth_range; exact Ht|]. split; [reflexivity|].
  cbn [map] in D. apply NoDup_cons_iff in D as [D1 D2]. destruct Q as [[Q ->]|(l1 & x & r & Q1 & -> & Q2 & ->)].
  - split.
    + intros y Hy. split; [right; exact Hy|]. intros Z. apply D1. rewrite Q, <- Z. apply in_map. exact Hy.
    + intros y _ _ z [<-|Hz] Nz; [congruence | exact Hz].
  - rewrite map_app in D2. cbn [map] in D2. apply NoDup_remove_2 in D2. rewrite Q2 in D2. split.
    + intros y [<-|Hy]; [split; [left; reflexivity | exact Q1]|]. split; [right; apply in_or_app; right; right; exact Hy|]. intros Z. apply D2. apply in_or_app. right. rewrite <- Z. apply in_map. exact Hy.
    + intros y [Z|Z] Ye z Hz Nz; [rewrite znth_0 in Z; congruence|].
      destruct l1 as [|a l1].
      * cbn [app] in *. destruct Hz as [<-|[<-|Hz]]; [left; reflexivity | congruence | right; exact Hz].
      * exfalso. change 1 with (0 + 1) in Z. cbn [app] in Z. rewrite znth_S, znth_0 in Z by lia. injection Z as ->. apply D2. cbn [map app]. left. exact Ye.
Qed.
(** C32 fails for older mappings: the mappings in between are lost as well ... *)
Definition whole (i : Z) (ty n sz : Z) : handle := mk_h i 0 0 n sz ty.
Definition part (i byte : Z) : handle := mk_h i byte 0 1 2 T_INT.
Definition map_ops : list op :=
  [ OpTagAdd 5 (str "src") T_INT 4 0; OpTagAdd 5 (str "dst") T_INT 8 0;
    OpMapAdd 5 (part 11 0) (part 12 0); OpMapAdd 5 (part 11 2) (part 12 4); OpMapAdd 5 (part 11 4) (part 12 8) ].
Definition mapdemo : server := after_ops env0 map_ops.
Lemma mapdemo_reachable : reachable env0 mapdemo.
Proof. apply after_reachable. vm_compute. reflexivity. Qed.
Definition ids_of (s : server) (i : Z) : list Z := match znth (s_db s) i with Some t => match t_maps t with Some l => map m_id l | None => [] end | None => [] end.
Theorem C32_refuted : exists E s i s', reachable E s /\ ids_of s i = [3; 2; 1] /\ step E s (OpMapDel 5 i 1) = Done s' /\
  answered s s' (OResp 5 MSG_MAP_DEL (le_bytes 4 0)) /\ ids_of s' i = [3].
Proof.
  exists env0, mapdemo, 11, (match step env0 mapdemo (OpMapDel 5 11 1) with Done x => x | Undef _ => mapdemo end).
  split; [exact mapdemo_reachable|]. split; [vm_compute; reflexivity|]. split; [vm_compute; reflexivity|]. split; [exists []; split; [vm_compute; reflexivity | constructor] | vm_compute; reflexivity].
Qed.
(** ... and deleting from a tag without mappings follows a null pointer *)
Theorem C32_crash_refuted : forall E s fd i id t, znth (s_db s) i = Some t -> t_maps t = Some [] -> step E s (OpMapDel fd i id) = Undef UNull.
Proof. intros E s fd i id t H1 H2. unfold step. cbn [handle_op]. unfold map_del, bind, get. rewrite H1, H2. reflexivity. Qed.
Example C32_ex : exists t l s', znth (s_db mapdemo) 11 = Some t /\ t_maps t = Some l /\ l <> [] /\ step env0 mapdemo (OpMapDel 5 11 2) = Done s' /\ ids_of s' 11 = [3; 1].
Proof.
  eexists; eexists; exists (match step env0 mapdemo (OpMapDel 5 11 2) with Done x => x | Undef _ => mapdemo end).
  split; [vm_compute; reflexivity|]. split; [vm_compute; reflexivity|]. split; [discriminate|]. split; vm_compute; reflexivity.
Qed.

(** ** C33 *)
(** what [map_add] does: refuse, find the mapping that is there, or add a new one *)
Inductive madd (s : server) (src dst : handle) : server -> Z -> Prop :=
| ma_err e : e < 0 -> madd s src dst s e
| ma_old t l m : znth (s_db s) (h_index src) = Some t -> t_maps t = Some l -> In m l -> m_src m = src -> m_dst m = dst -> madd s src dst s (m_id m)
| ma_new t l k a : znth (s_db s) (h_index src) = Some t -> t_maps t = Some l -> (forall m, In m l -> ends m <> (src, dst)) ->
    madd s src dst (set_tag s (h_index src) (set_attr (set_nextmap (set_maps t (Some (mk_map (t_nextmap t) src dst k :: l))) (t_nextmap t + 1)) a)) (t_nextmap t).
Lemma map_add_cases src dst s s' r : map_add src dst s = Done (s', r) -> madd s src dst s' r.
Proof.
  intros H. unfold map_add in H. inv1 H. destruct (znth (s_db s) (h_index src)) as [t|] eqn:Ht; [|inv_all; apply ma_err; reflexivity].
  destruct (znth (s_db s) (h_index dst)) as [td|]; [|inv_all; apply ma_err; reflexivity].
  destruct (_ || _); [inv_all; apply ma_err; reflexivity|]. destruct (has (t_attr td) A_READONLY); [inv_all; apply ma_err; reflexivity|].
  inv1 H. destruct (_ <? _); [inv_all; apply ma_err; reflexivity|]. inv1 H. destruct (_ <? _); [inv_all; apply ma_err; reflexivity|].
  destruct (_ <? _); [inv_all; apply ma_err; reflexivity|].
  destruct (t_maps t) as [l|] eqn:Ml; [|discriminate]. destruct (find _ l) as [m|] eqn:Fn.
  - apply ret_done in H as [-> ->]. apply find_some in Fn as [F1 F2]. apply andb_prop in F2 as [F2 F3]. apply handle_eqb_iff in F2, F3.
    eapply ma_old; eauto.
  - inv1 H. inv1 H. apply ret_done in H as [-> ->]. eapply ma_new; [exact Ht | exact Ml|].
    intros m Hm Q. assert (N := find_none _ _ Fn _ Hm). cbn in N. unfold ends in Q. injection Q as <- <-.
    rewrite (proj2 (handle_eqb_iff _ _) eq_refl), (proj2 (handle_eqb_iff _ _) eq_refl) in N. discriminate.
Qed.
Lemma map_add_answered E s fd src dst s' p : step E s (OpMapAdd fd src dst) = Done s' -> answered s s' (OResp fd MSG_MAP_ADD p) ->
  exists s1 r, madd s src dst s1 r /\ 0 <= r /\ p = le_bytes 4 r /\ s' = Spec.after s1 [OResp fd MSG_MAP_ADD p].
Proof.
  intros H A. apply step_inv in H as (sx & u & H & ->). cbn [handle_op] in H. apply bind_done in H as (s1 & r & H1 & H). apply reply_int_done in H. subst sx.
  assert (Ev : s_out s1 = s_out s).
  { apply map_add_cases in H1. inversion H1; reflexivity. }
  assert (Q : answered s (set_step (set_out s1 (s_out s1 ++ [if r <? 0 then OErr fd MSG_MAP_ADD r else OResp fd MSG_MAP_ADD (le_bytes 4 r)]))
     (s_step (set_out s1 (s_out s1 ++ [if r <? 0 then OErr fd MSG_MAP_ADD r else OResp fd MSG_MAP_ADD (le_bytes 4 r)])) + 1))
     (if r <? 0 then OErr fd MSG_MAP_ADD r else OResp fd MSG_MAP_ADD (le_bytes 4 r))).
  { exists []. split; [cbn; rewrite Ev; reflexivity | constructor]. }
  assert (Z := answered_fun _ _ _ _ A Q). destruct (Z.ltb_spec r 0); [discriminate|]. injection Z as ->.
  exists s1, r. split; [apply map_add_cases; exact H1|]. split; [assumption|]. split; reflexivity.
Qed.
(** an accepted mapping is in the list of its source tag afterwards, with the requested ends and under the answered id *)
Theorem C33_registered : forall E s fd src dst s' p,
  step E s (OpMapAdd fd src dst) = Done s' -> answered s s' (OResp fd MSG_MAP_ADD p) ->
  exists t l m, znth (s_db s') (h_index src) = Some t /\ t_maps t = Some l /\ In m l /\ m_src m = src /\ m_dst m = dst /\ p = le_bytes 4 (m_id m).
Proof.
  intros E s fd src dst s' p H A. destruct (map_add_answered _ _ _ _ _ _ _ H A) as (s1 & r & M & Pos & -> & ->).
  inversion M as [e He|t l m Ht Hl Hm Hs Hd|t l k a Ht Hl Hn]; subst; [lia| |].
  - exists t, l, m. repeat split; auto.
  - eexists _, _, _. split; [cbn; apply znth_zset_eq; eapply znth_range; exact Ht|]. split; [reflexivity|]. split; [left; reflexivity|]. repeat split.
Qed.
(** in every reachable state the mappings of a tag have different ids, and no two of them have the same ends *)
Theorem C33_distinct : forall E s i t l, reachable E s -> znth (s_db s) i = Some t -> t_maps t = Some l ->
  NoDup (map m_id l) /\ NoDup (map (fun m => (m_src m, m_dst m)) l) /\ forall m, In m l -> h_index (m_src m) = i.
Proof.
  intros E s i t l R Ht Hl. destruct (wf_maps _ _ _ (reachable_ids _ _ R _ _ Ht) _ Hl) as (D & N & M).
  split; [apply desc_NoDup in D; exact D|]. split; [exact N | intros m Hm; apply M; exact Hm].
Qed.
(** adding a mapping that is there already (unchanged in between) answers the id of the one that is there and changes nothing *)
Theorem C33_same_twice : forall E s fd src dst s' p t l m, reachable E s ->
  znth (s_db s) (h_index src) = Some t -> t_maps t = Some l -> In m l -> m_src m = src -> m_dst m = dst ->
  step E s (OpMapAdd fd src dst) = Done s' -> answered s s' (OResp fd MSG_MAP_ADD p) ->
  p = le_bytes 4 (m_id m) /\ s' = Spec.after s [OResp fd MSG_MAP_ADD p].
Proof.
  intros E s fd src dst s' p t l m R Ht Hl Hm Hs Hd H A. destruct (map_add_answered _ _ _ _ _ _ _ H A) as (s1 & r & M & Pos & -> & ->).
  inversion M as [e He|t' l' m' Ht' Hl' Hm' Hs' Hd'|t' l' k a Ht' Hl' Hn]; subst; [lia| |].
  - rewrite Ht in Ht'. injection Ht' as <-. rewrite Hl in Hl'. injection Hl' as <-.
    destruct (C33_distinct _ _ _ _ _ R Ht Hl) as (_ & N & _).
    assert (Q : m' = m).
    { assert (G : forall l, NoDup (map (fun m => (m_src m, m_dst m)) l) -> In m l -> In m' l -> m' = m).
      { induction l0 as [|x l0 IH]; intros Nd I1 I2; [destruct I1|]. cbn in Nd. apply NoDup_cons_iff in Nd as [N1 N2].
        destruct I1 as [->|I1], I2 as [->|I2]; auto.
        - exfalso. apply N1. apply in_map_iff. exists m'. split; [congruence | exact I2].
        - exfalso. apply N1. apply in_map_iff. exists m. split; [congruence | exact I1]. }
      apply (G l); assumption. }
    subst m'. split; reflexivity.
  - exfalso. rewrite Ht in Ht'. injection Ht' as <-. rewrite Hl in Hl'. injection Hl' as <-. exact (Hn _ Hm eq_refl).
Qed.
(** different mappings of a tag get different ids, and an id is never given out again: whatever happened in between, a mapping that is
    not yet there gets an id larger than every earlier one *)
Lemma exec_nextmap E os : forall s s' i t, reachable E s -> exec E s os = Done s' -> znth (s_db s) i = Some t ->
  exists t', znth (s_db s') i = Some t' /\ t_nextmap t <= t_nextmap t'.
Proof.
  induction os as [|o os IH]; intros s s' i t R H Ht; cbn in H; [injection H as <-; exists t; split; [exact Ht | lia]|].
  apply rbind_done in H as [s1 [H1 H2]]. destruct (er_tag _ _ _ (reachable_er _ _ _ _ R H1) _ _ Ht) as (t1 & T1 & T2).
  destruct (IH s1 s' i t1 (reachable_step _ _ _ _ R H1) H2 T1) as (t' & T3 & T4). exists t'. split; [exact T3|]. assert (Q := tv_map _ _ _ _ _ _ T2). lia.
Qed.
Theorem C33_never_reused : forall E s i t l m os s2 fd src dst s3 p t2 l2,
  reachable E s -> znth (s_db s) i = Some t -> t_maps t = Some l -> In m l ->
  exec E s os = Done s2 -> h_index src = i -> znth (s_db s2) i = Some t2 -> t_maps t2 = Some l2 -> (forall x, In x l2 -> ~ (m_src x = src /\ m_dst x = dst)) ->
  step E s2 (OpMapAdd fd src dst) = Done s3 -> answered s2 s3 (OResp fd MSG_MAP_ADD p) ->
  exists id, m_id m < id /\ p = le_bytes 4 id.
Proof.
  intros E s i t l m os s2 fd src dst s3 p t2 l2 R Ht Hl Hm X Hi Ht2 Hl2 Nw H A.
  destruct (map_add_answered _ _ _ _ _ _ _ H A) as (s1 & r & M & Pos & -> & _). rewrite <- Hi in *.
  inversion M as [e He|t' l' m' Ht' Hl' Hm' Hs' Hd'|t' l' k a Ht' Hl' Hn]; subst; [lia| |].
  - exfalso. rewrite Ht2 in Ht'. injection Ht' as <-. rewrite Hl2 in Hl'. injection Hl' as <-. apply (Nw m'); auto.
  - exists (t_nextmap t'). split; [|reflexivity]. rewrite Ht2 in Ht'. injection Ht' as <-.
    destruct (exec_nextmap _ _ _ _ _ _ R X Ht) as (t3 & V1 & V2). assert (t3 = t2) by congruence. subst t3.
    destruct (wf_maps _ _ _ (reachable_ids _ _ R _ _ Ht) _ Hl) as (D & _ & _).
    assert (G : forall l k, desc (map m_id l) k -> In m l -> m_id m < k).
    { induction l0 as [|x l0 IH]; intros k0 D0 I0; [destruct I0|]. cbn in D0. destruct D0 as [D0 D1]. destruct I0 as [->|I0]; [lia|]. specialize (IH _ D1 I0). lia. }
    specialize (G _ _ D Hm). lia.
Qed.
(** a mapping queried by its id is answered with the ends it was created with; other ids are refused *)
Theorem C33_query : forall E s fd i id s' t l, reachable E s -> znth (s_db s) i = Some t -> t_maps t = Some l ->
  step E s (OpMapGet fd i id) = Done s' ->
  (forall m, In m l -> m_id m = id -> exists pad, zlen pad = 6 /\ s' = Spec.after s [OResp fd MSG_MAP_GET (handle_bytes (m_src m) ++ handle_bytes (m_dst m) ++ pad)]) /\
  ((forall m, In m l -> m_id m <> id) -> s' = Spec.after s [OErr fd MSG_MAP_GET E_NOTFOUND]).
Proof.
  intros E s fd i id s' t l R Ht Hl H. apply step_inv in H as (sx & u & H & ->). cbn [handle_op] in H. inv1 H. inv1 H.
  unfold map_get in Hr. rewrite Ht, Hl in Hr. destruct (C33_distinct _ _ _ _ _ R Ht Hl) as (N & _ & _).
  destruct (find _ l) as [m|] eqn:F; injection Hr as <-.
  - apply find_some in F as [F1 F2]. apply Z.eqb_eq in F2. split; [|intros Q; exfalso; exact (Q _ F1 F2)].
    intros m' I1 I2. assert (m' = m).
    { assert (G : forall l, NoDup (map m_id l) -> In m l -> In m' l -> m' = m).
      { induction l0 as [|x l0 IH]; intros Nd J1 J2; [destruct J1|]. cbn in Nd. apply NoDup_cons_iff in Nd as [N1 N2].
        destruct J1 as [->|J1], J2 as [->|J2]; auto.
        - exfalso. apply N1. rewrite F2, <- I2. apply in_map. exact J2.
        - exfalso. apply N1. rewrite I2, <- F2. apply in_map. exact J1. }
      apply (G l); assumption. }
    subst m'. unfold respond in H.
    assert (L : zlen (handle_bytes (m_src m) ++ handle_bytes (m_dst m) ++ jbytes E (s_step s) 42 6) <= MSG_DATA_SIZE).
    { rewrite !zlen_app. unfold handle_bytes. rewrite !zlen_app, !zlen_le_bytes, zlen_jbytes. unfold MSG_DATA_SIZE, zlen. cbn. lia. }
    replace (MSG_DATA_SIZE <? _) with false in H by lia. unfold emit, modify in H. injection H as <- _.
    exists (jbytes E (s_step s) 42 6). split; [rewrite zlen_jbytes; lia | reflexivity].
  - split; [|intros _; unfold reply_err, emit, modify in H; injection H as <- _; reflexivity].
    intros m' I1 I2. assert (Z := find_none _ _ F _ I1). cbn in Z. lia.
Qed.

(** *** examples *)
Definition maps_of (s : server) (i : Z) : list dmap := match znth (s_db s) i with Some t => match t_maps t with Some l => l | None => [] end | None => [] end.
Definition dat (s : server) (i : Z) : list Z := match znth (s_db s) i with Some t => match t_data t with DBytes b => b | _ => [] end | None => [] end.
Definition mnext (s : server) (o : op) : server := match step env0 s o with Done s' => s' | Undef _ => s end.
(** the hypotheses of [C31_write_copies] hold for mapping [m] of tag [i] *)
Definition c31_case (s : server) (i off : Z) (d : list Z) (m : dmap) : Prop :=
  exists t l, reachable env0 s /\ znth (s_db s) i = Some t /\ t_maps t = Some l /\ In m l /\ target s m (dat s i) (dat s (h_index (m_dst m))) /\
    h_byte (m_src m) + h_size (m_src m) <= 4294967296 /\ (forall m', In m' l -> m' <> m -> clear_of m' m) /\ (forall m', In m' l -> leaves_source m' m) /\
    step env0 s (OpWrite 5 i off d) = Done (mnext s (OpWrite 5 i off d)) /\
    answered s (mnext s (OpWrite 5 i off d)) (OResp 5 MSG_TAG_WRITE []) /\ touches off (zlen d) m.
Definition bool_ops : list op :=
  [ OpTagAdd 5 (str "b1") T_BOOL 16 0; OpTagAdd 5 (str "b2") T_BOOL 16 0; OpMapAdd 5 (mk_h 11 0 5 5 2 T_BOOL) (mk_h 12 0 6 5 2 T_BOOL) ].
Definition booldemo : server := after_ops env0 bool_ops.
Lemma booldemo_reachable : reachable env0 booldemo.
Proof. apply after_reachable. vm_compute. reflexivity. Qed.
Lemma plain_of s i : (match znth (s_db s) i with Some t => has (t_attr t) A_SPECIAL | None => false end) = false ->
  forall t, znth (s_db s) i = Some t -> has (t_attr t) A_SPECIAL = false.
Proof. intros H t Q. rewrite Q in H. exact H. Qed.
Definition m2 : dmap := mk_map 2 (part 11 2) (part 12 4) None.
Definition mb : dmap := mk_map 1 (mk_h 11 0 5 5 2 T_BOOL) (mk_h 12 0 6 5 2 T_BOOL) (Some [192; 7]).
Ltac known_pos := repeat match goal with
  | H : context [dst_pos ?m] |- _ => let v := eval vm_compute in (dst_pos m) in change (dst_pos m) with v in H
  | H : context [width ?m] |- _ => let v := eval vm_compute in (width m) in change (width m) with v in H end.
Ltac c31_tac :=
  unfold c31_case; eexists; eexists; split; [first [exact mapdemo_reachable | exact booldemo_reachable]|]; split; [vm_compute; reflexivity|]; split; [vm_compute; reflexivity|];
  split; [cbn; auto|];
  split; [constructor; [eexists; split; [vm_compute; reflexivity|]; split; vm_compute; reflexivity | eexists; split; [vm_compute; reflexivity|]; split; vm_compute; reflexivity
     | vm_compute; repeat split; discriminate | vm_compute; repeat split; discriminate | vm_compute; reflexivity
     | apply plain_of; vm_compute; reflexivity
     | vm_compute; repeat split; discriminate]|];
  split; [vm_compute; discriminate|];
  split; [intros m' Hm' Ne b Hb; cbn in Hm'; repeat (destruct Hm' as [<-|Hm']; [first [exfalso; apply Ne; reflexivity | intros [_ Q2]; known_pos; lia]|]); destruct Hm'|];
  split; [intros m' Hm' b Hb; cbn in Hm'; repeat (destruct Hm' as [<-|Hm']; [intros [Q _]; vm_compute in Q; discriminate|]); destruct Hm'|];
  split; [vm_compute; reflexivity|]; split; [exists []; split; [vm_compute; reflexivity | constructor] | vm_compute; split; reflexivity].
Example C31_ex : c31_case mapdemo 11 3 [7; 9] m2 /\ dat (mnext mapdemo (OpWrite 5 11 3 [7; 9])) 12 = [0;0;0;0;0;7;0;0;9;0;0;0;0;0;0;0].
Proof. split; [c31_tac|vm_compute; reflexivity]. Qed.
Example C31_bool_ex : c31_case booldemo 11 0 [160; 2] mb /\ dat (mnext booldemo (OpWrite 5 11 0 [160; 2])) 12 = [64; 5; 0].
Proof. split; [c31_tac|vm_compute; reflexivity]. Qed.
(** registering, adding again, querying and re-adding after a deletion *)
Example C33_ex : let d := mapdemo in let add := OpMapAdd 5 (part 11 4) (part 12 8) in
  reachable env0 d /\ step env0 d add = Done (Spec.after d [OResp 5 MSG_MAP_ADD (le_bytes 4 3)]) /\
  ids_of d 11 = [3; 2; 1] /\ ids_of (mnext (mnext d (OpMapDel 5 11 3)) add) 11 = [4; 2; 1] /\
  step env0 d (OpMapGet 5 11 2) = Done (Spec.after d [OResp 5 MSG_MAP_GET (handle_bytes (part 11 2) ++ handle_bytes (part 12 4) ++ [0;0;0;0;0;0])]).
Proof. cbv zeta. split; [exact mapdemo_reachable|]. split; [vm_compute; reflexivity|]. split; [vm_compute; reflexivity|]. split; vm_compute; reflexivity. Qed.
