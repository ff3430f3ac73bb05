(** * C58: no request makes a slave with small register files leave its buffers *)
From Verif Require Import Base Const Types State Events Atomic Server Lib Frame Shape Inv Reach Spec Out Demo Prop_Tags Prop_Data ClientTypes ClientData Prop_ClientData Crc Prop_Crc Modbus Prop_Atomic Prop_Maps Prop_Modbus Prop_ModbusWrite.

(** ** reads of any number of registers *)
Lemma c_read_any E fd i off size at_ reg s b : reachable E s -> plain s i b -> bytes_ok reg -> 0 <= off -> 0 <= size <= 4088 -> off + size < 2147483648 -> 0 <= at_ -> at_ + zlen b <= zlen reg ->
  exists s' reg' e, c_read E fd i off size at_ (s, reg) = Done (s', reg', e) /\ s_db s' = s_db s /\ reachable E s' /\ bytes_ok reg' /\ zlen reg' = zlen reg /\ (e = 0 -> off + size <= zlen b).
Proof.
  intros R (S & NO & Bb & Zb) Br Ho Hs Hz Ha Hr. unfold c_read. replace (MSG_DATA_SIZE <? size) with false by (unfold MSG_DATA_SIZE, DAX_MSGMAX; lia). rewrite s32_small by lia.
  assert (T := C09_nonneg_read_partial E s fd i off size b R S Zb NO Ho ltac:(unfold MSG_DATA_SIZE, DAX_MSGMAX; lia) Hz). assert (R' := reachable_step _ _ _ _ R T). rewrite (ask_after _ _ _ _ T). cbn [rbind].
  destruct (off + size <=? zlen b) eqn:Q.
  - assert (L : zlen (slice off size b) = size) by (apply zlen_slice; unfold in_bounds; lia). assert (I : in_bounds at_ (zlen (slice off size b)) (zlen reg) = true) by (rewrite L; unfold in_bounds; lia). rewrite I.
    eexists. eexists. eexists. split; [reflexivity|]. split; [reflexivity|]. split; [exact R'|]. split; [apply bytes_ok_splice; [apply bytes_ok_slice; exact Bb | exact Br]|]. split; [apply zlen_splice; exact I | lia].
  - eexists. eexists. eexists. split; [reflexivity|]. split; [reflexivity|]. split; [exact R'|]. split; [exact Br|]. split; [reflexivity | discriminate].
Qed.
(** the first step of a split read *)
Lemma fetch_any E cc fd h w reg s b : reachable E s -> plain s (h_index h) b -> bytes_ok reg -> 0 <= h_byte h -> 0 <= h_size h -> h_byte h + h_size h < 300000 -> zlen b <= zlen reg -> zlen b <= 300 -> In (h_type h, w) [(T_BOOL, 1); (T_UINT, 2)] ->
  exists s' reg' e, fetched E cc fd s h reg = Done (s', reg', e) /\ s_db s' = s_db s /\ reachable E s' /\ bytes_ok reg' /\ zlen reg' = zlen reg /\ (e = 0 -> h_byte h + h_size h <= zlen b).
Proof.
  destruct h as [i off bt cnt size t]. cbn [h_index h_byte h_size h_type]. intros R P Br Ho Hs Hz Hr Hb Ht. unfold fetched. cbn [h_index h_byte h_size h_type]. destruct (MSG_DATA_SIZE <? size) eqn:Q.
  - assert (Dt : dax_get_typesize (s_types s) cc t = Done (cc, w)) by (destruct Ht as [[= <- <-]|[[= <- <-]|[]]]; reflexivity). rewrite Dt. cbn [rbind snd]. cbv zeta.
    assert (w = 1 \/ w = 2) as Hw by (destruct Ht as [[= <- <-]|[[= <- <-]|[]]]; lia).
    replace (MSG_DATA_SIZE <? w) with false by (unfold MSG_DATA_SIZE, DAX_MSGMAX; lia). rewrite s32_small by lia. unfold fuel_of. cbn [chunks]. unfold MSG_DATA_SIZE, DAX_MSGMAX in *. change (4096 - 8) with 4088 in *.
    replace (size <=? 0) with false by lia. replace (w =? 0) with false by lia. replace (Z.min size 4088) with 4088 by lia. cbv zeta.
    replace (4088 - Z.rem 4088 w) with 4088 by (destruct Hw as [-> | ->]; reflexivity). replace (u32 (off + 0)) with off by (unfold u32; rewrite Z.mod_small; lia).
    destruct (c_read_any E fd i off 4088 0 reg s b R P Br Ho ltac:(lia) ltac:(lia) ltac:(lia) ltac:(lia)) as (s' & reg' & e & -> & D & R' & B' & L' & K). cbn [rbind].
    replace (negb (e =? 0)) with true by (destruct (Z.eqb_spec e 0); [lia | reflexivity]). exists s', reg', e. split; [reflexivity|]. split; [exact D|]. split; [exact R'|]. split; [exact B'|]. split; [exact L' | lia].
  - unfold MSG_DATA_SIZE, DAX_MSGMAX in Q. apply c_read_any; try assumption; lia.
Qed.
Lemma bits_size_any a c : 0 <= a -> 0 <= c -> bits_size a c = if 1 <=? c then (a mod 8 + c - 1) / 8 + 1 else 1.
Proof.
  intros Ha Hc. destruct (Z.leb_spec 1 c); [apply bits_size_pos; lia|]. unfold bits_size. assert (c = 0) by lia. subst c. rewrite Z.rem_mod_nonneg by lia. assert (0 <= a mod 8 < 8) by lia. set (r := a mod 8) in *. clearbody r.
  assert (r = 0 \/ r = 1 \/ r = 2 \/ r = 3 \/ r = 4 \/ r = 5 \/ r = 6 \/ r = 7) as D by lia. repeat (destruct D as [->|D]; [reflexivity|]). subst r. reflexivity.
Qed.
Lemma slave_read_any E cc fd w i a c reg s b : reachable E s -> plain s i b -> bytes_ok reg -> 0 <= a < 65536 -> 0 <= c < 65536 -> zlen b <= 300 -> zlen reg = 300 ->
  exists s' reg', slave_read E cc fd w i a c reg s = Done (s', reg') /\ s_db s' = s_db s /\ reachable E s' /\ bytes_ok reg' /\ zlen reg' = 300.
Proof.
  intros R P Br Ha Hc Hb Hr. unfold slave_read. rewrite tag_read_fetched. destruct w; unfold slave_handle.
  - destruct (fetch_any E cc fd (mk_h i (a * 2) 0 c (c * 2) T_UINT) 2 reg s b R P Br ltac:(cbn [h_byte]; lia) ltac:(cbn [h_size]; lia) ltac:(cbn [h_byte h_size]; lia) ltac:(lia) ltac:(lia) ltac:(cbn; tauto)) as (s' & reg' & e & -> & D & R' & B' & L' & K).
    cbn [rbind h_size h_type h_byte h_index h_count h_bit]. cbn [h_byte h_size] in K. destruct (Z.eqb_spec e 0) as [->|N]; cbn [negb]; [|cbn [rbind]; exists s', reg'; split; [reflexivity|]; split; [exact D|]; split; [exact R'|]; split; [exact B' | lia]].
    change (T_UINT =? T_BOOL) with false. cbv iota. unfold read_format. specialize (K eq_refl). rewrite (base_fmt false _ _ _ 2) by (first [lia | cbn; tauto]). cbn [rbind].
    exists s', reg'. split; [reflexivity|]. split; [exact D|]. split; [exact R'|]. split; [exact B' | lia].
  - fold (bits_size a c). rewrite Z.rem_mod_nonneg, Z.quot_div_nonneg by lia. cbv zeta.
    assert (Sz := bits_size_any a c ltac:(lia) ltac:(lia)). assert (Sb : 1 <= bits_size a c <= 8193 /\ a mod 8 + c <= 8 * bits_size a c) by (rewrite Sz; destruct (1 <=? c) eqn:?; lia).
    destruct (fetch_any E cc fd (mk_h i (a / 8) (a mod 8) c (bits_size a c) T_BOOL) 1 reg s b R P Br ltac:(cbn [h_byte]; lia) ltac:(cbn [h_size]; lia) ltac:(cbn [h_byte h_size]; lia) ltac:(lia) ltac:(lia) ltac:(cbn; tauto)) as (s' & reg' & e & -> & D & R' & B' & L' & K).
    cbn [rbind h_size h_type h_byte h_index h_count h_bit]. cbn [h_byte h_size] in K. destruct (Z.eqb_spec e 0) as [->|N]; cbn [negb]; [|cbn [rbind]; exists s', reg'; split; [reflexivity|]; split; [exact D|]; split; [exact R'|]; split; [exact B' | lia]].
    change (T_BOOL =? T_BOOL) with true. cbv iota. specialize (K eq_refl). assert (Lz : zlen (zeros (bits_size a c)) = bits_size a c) by (apply zlen_zeros; lia).
    destruct (copy_bits_spec (Z.to_nat c) reg' (a mod 8) (zeros (bits_size a c)) 0) as (nd & -> & Bn & Ln & _); [apply bytes_ok_zeros | lia..|]. cbn [rbind].
    assert (I : in_bounds 0 (bits_size a c) (zlen reg') = true) by (unfold in_bounds; lia). rewrite I. cbn [rbind].
    eexists. eexists. split; [reflexivity|]. split; [exact D|]. split; [exact R'|]. split; [apply bytes_ok_splice; assumption|]. rewrite zlen_splice by (rewrite Ln, Lz; exact I). lia.
Qed.
(** ** slaves with small register files *)
Definition sound_tag (s : server) (i n : Z) : Prop := n <> 0 -> exists b, plain s i b /\ quiet s i /\ zlen b <= 300.
Definition small_slave (p : mbport) (s : server) : Prop := forall u nd, mp_nodes p u = Some nd ->
  (sound_tag s (nd_hold nd) (nd_hold_size nd) /\ sound_tag s (nd_input nd) (nd_input_size nd) /\ sound_tag s (nd_coil nd) (nd_coil_size nd) /\ sound_tag s (nd_disc nd) (nd_disc_size nd)) /\
  (nd_hold_size nd <= 121 /\ nd_input_size nd <= 125 /\ nd_coil_size nd <= 1944 /\ nd_disc_size nd <= 2000).
Lemma sound_same s s' i n : s_db s' = s_db s -> sound_tag s i n -> sound_tag s' i n.
Proof.
  intros D S N. destruct (S N) as (b & ((t & T & X) & NO & Y) & Q & L). exists b. split; [|split; [|exact L]].
  - split; [exists t; rewrite D; split; assumption|]. split; [|exact Y]. intros t' T'. rewrite D in T'. apply NO. exact T'.
  - intros t' T'. rewrite D in T'. apply Q. exact T'.
Qed.
Lemma small_same p s s' : s_db s' = s_db s -> small_slave p s -> small_slave p s'.
Proof. intros D S u nd H. destruct (S u nd H) as ((A1 & A2 & A3 & A4) & B). split; [|exact B]. repeat split; eapply sound_same; eassumption. Qed.
Lemma sound_changed s s' i b b' j n : plain s i b -> only_data s s' i -> stored s' i b' -> bytes_ok b' -> zlen b' = zlen b -> zlen b <= 300 -> quiet s i -> sound_tag s j n -> sound_tag s' j n.
Proof.
  intros P O S' B' L' Lb Q S N. destruct (Z.eq_dec j i) as [->|Ne].
  - exists b'. split; [eapply plain_only; eassumption|]. split; [eapply quiet_only; [exact (proj1 P) | exact O | exact Q] | lia].
  - destruct (S N) as (bj & ((t & T & X) & NO & Y) & Qj & L). destruct O as (O & _). exists bj. split; [|split; [|exact L]].
    + split; [exists t; rewrite O by exact Ne; split; assumption|]. split; [|exact Y]. intros t' T'. rewrite O in T' by exact Ne. apply NO. exact T'.
    + intros t' T'. rewrite O in T' by exact Ne. apply Qj. exact T'.
Qed.
Lemma small_changed p s s' i b b' : plain s i b -> only_data s s' i -> stored s' i b' -> bytes_ok b' -> zlen b' = zlen b -> zlen b <= 300 -> quiet s i -> small_slave p s -> small_slave p s'.
Proof. intros P O S' B' L' Lb Q S u nd H. destruct (S u nd H) as ((A1 & A2 & A3 & A4) & B). split; [|exact B]. repeat split; eapply sound_changed; eassumption. Qed.

(** the outcome of a request *)
Definition fine (E : env) (p : mbport) (buff : list Z) (r : run (server * list Z * Z)) : Prop :=
  exists s' buff' n, r = Done (s', buff', n) /\ reachable E s' /\ small_slave p s' /\ bytes_ok buff' /\ zlen buff' = zlen buff /\ n <= Z.min 253 (zlen buff).
Lemma fine_exception E p s buff e : reachable E s -> small_slave p s -> bytes_ok buff -> 3 <= zlen buff -> fine E p buff (create_exception s buff e).
Proof.
  intros R S B L. unfold create_exception. destruct (znth buff 1) as [f|] eqn:X; [|apply znth_none in X; lia]. rewrite put_byte_ok by lia. cbn [rbind]. rewrite put_byte_ok by (rewrite zset_zlen; lia). cbn [rbind].
  eexists. eexists. eexists. split; [reflexivity|]. split; [exact R|]. split; [exact S|]. split; [repeat apply bytes_ok_zset; try assumption; apply u8_byte|]. split; [rewrite !zset_zlen; reflexivity | lia].
Qed.
Lemma fine_done E p s buff n : reachable E s -> small_slave p s -> bytes_ok buff -> n <= Z.min 253 (zlen buff) -> fine E p buff (Done (s, buff, n)).
Proof. intros R S B L. exists s, buff, n. split; [reflexivity|]. split; [exact R|]. split; [exact S|]. split; [exact B|]. split; [reflexivity | exact L]. Qed.
Lemma word_any buff i : bytes_ok buff -> 0 <= i -> i + 2 <= zlen buff -> exists w, word_at buff i = Done w /\ 0 <= w < 65536.
Proof. intros B Hi Hl. rewrite word_at_ok by assumption. eexists. split; [reflexivity|]. assert (X := nthb_byte buff i B). assert (Y := nthb_byte buff (i + 1) B). lia. Qed.
Lemma fine_words E cc fd p jk i n buff size s : reachable E s -> small_slave p s -> locals jk -> bytes_ok buff -> zlen buff = size -> 250 <= size <= 256 ->
  sound_tag s i n -> n <> 0 -> n <= 125 -> fine E p buff (read_words_response E cc fd jk i n buff size s).
Proof.
  intros R S (J1 & J2 & _) B L Hs T N Hn. destruct (T N) as (b & P & Q & Lb). unfold read_words_response.
  destruct (word_any buff 2 B ltac:(lia) ltac:(lia)) as (a & -> & Ha). destruct (word_any buff 4 B ltac:(lia) ltac:(lia)) as (c & -> & Hc). cbn [rbind].
  destruct (slave_read_any E cc fd true i a c (jk_reg jk) s b R P J1 Ha Hc Lb J2) as (s' & reg & -> & D & R' & Br & Lr). cbn [rbind]. assert (S' := small_same p _ _ D S).
  destruct (size - 3 <? c * 2) eqn:Q1; [apply fine_done; try assumption; unfold MB_ERR_OVERFLOW; lia|]. destruct (n <? a + c) eqn:Q2; [apply fine_exception; try assumption; lia|].
  rewrite put_byte_ok by lia. cbn [rbind]. set (b1 := zset buff 2 (u8 (c * 2))). assert (L1 : zlen b1 = zlen buff) by apply zset_zlen.
  destruct (copy_words_spec (Z.to_nat c) 0 reg b1 Br ltac:(apply bytes_ok_zset; [exact B | apply u8_byte]) ltac:(lia) ltac:(lia) ltac:(lia)) as (b2 & -> & B2 & L2 & _). cbn [rbind].
  eexists. eexists. eexists. split; [reflexivity|]. split; [exact R'|]. split; [exact S'|]. split; [exact B2|]. split; lia.
Qed.
Lemma fine_bits E cc fd p jk i n buff size s : reachable E s -> small_slave p s -> locals jk -> bytes_ok buff -> zlen buff = size -> 250 <= size <= 256 ->
  sound_tag s i n -> n <> 0 -> n <= 2000 -> fine E p buff (read_bits_response E cc fd jk i n buff size s).
Proof.
  intros R S (J1 & J2 & _) B L Hs T N Hn. destruct (T N) as (b & P & Q & Lb). unfold read_bits_response.
  destruct (word_any buff 2 B ltac:(lia) ltac:(lia)) as (a & -> & Ha). destruct (word_any buff 4 B ltac:(lia) ltac:(lia)) as (c & -> & Hc). cbn [rbind].
  destruct (slave_read_any E cc fd false i a c (jk_reg jk) s b R P J1 Ha Hc Lb J2) as (s' & reg & -> & D & R' & Br & Lr). cbn [rbind]. assert (S' := small_same p _ _ D S).
  assert (Hq : (c = 0 /\ Z.quot (c - 1) 8 = 0) \/ (1 <= c /\ Z.quot (c - 1) 8 = (c - 1) / 8)).
  { destruct (Z.eq_dec c 0) as [->|]; [left; split; reflexivity | right; split; [lia | apply Z.quot_div_nonneg; lia]]. }
  destruct (size - 3 <? Z.quot (c - 1) 8 + 1) eqn:Q1; [apply fine_done; try assumption; unfold MB_ERR_OVERFLOW; lia|]. destruct (n <? a + c) eqn:Q2; [apply fine_exception; try assumption; lia|].
  rewrite put_byte_ok by lia. cbn [rbind]. set (b1 := zset buff 2 (u8 (Z.quot (c - 1) 8 + 1))). assert (L1 : zlen b1 = zlen buff) by apply zset_zlen.
  destruct (copy_coils_spec (Z.to_nat c) 0 reg b1 ltac:(apply bytes_ok_zset; [exact B | apply u8_byte]) ltac:(lia) ltac:(lia) ltac:(lia)) as (b2 & -> & B2 & L2 & _). cbn [rbind].
  eexists. eexists. eexists. split; [reflexivity|]. split; [exact R'|]. split; [exact S'|]. split; [exact B2|]. split; lia.
Qed.
Lemma fine_finish E p nd node f a m buff s : reachable E s -> small_slave p s -> bytes_ok buff -> 6 <= zlen buff ->
  fine E p buff (let r := call (nd_write_cb nd) node f a m 0 in if negb (r =? 0) then create_exception s buff r else Done (s, buff, 6)).
Proof. intros R S B L. cbv zeta. destruct (negb (call (nd_write_cb nd) node f a m 0 =? 0)); [apply fine_exception | apply fine_done]; try assumption; lia. Qed.
(** writing is safe too *)
Lemma small_words_write E cc fd p i a c d s b : reachable E s -> small_slave p s -> plain s i b -> quiet s i -> zlen b <= 300 -> bytes_ok d -> 0 <= a < 65536 -> 0 <= c -> 2 * c <= zlen d -> zlen d <= 256 ->
  exists s', slave_write E cc fd true i a c d s = Done s' /\ reachable E s' /\ small_slave p s'.
Proof.
  intros R S P Q Lb Bd Ha Hc Hd Hd2. destruct (words_write E cc fd i a c d s b R P Q Ha Hc Hd ltac:(lia)) as (s' & -> & R' & [(K1 & O1 & S1)|(K1 & D)]); exists s'; (split; [reflexivity|]; split; [exact R'|]).
  - destruct (splice_regs a c d b Bd (proj1 (proj2 (proj2 P))) ltac:(lia) ltac:(lia) ltac:(lia) ltac:(lia)) as (Bs & (W0 & _)). eapply small_changed; eassumption.
  - eapply small_same; eassumption.
Qed.
Lemma small_bits_write E cc fd p i a c d s b : reachable E s -> small_slave p s -> plain s i b -> quiet s i -> zlen b <= 300 -> bytes_ok d -> 0 <= a < 65536 -> 0 <= c <= 2048 -> zlen d = 256 ->
  exists s', slave_write E cc fd false i a c d s = Done s' /\ reachable E s' /\ small_slave p s'.
Proof.
  intros R S P Q Lb Bd Ha Hc Hd. destruct (bits_write E cc fd i a c d s b R P Q Bd Ha Hc ltac:(lia) ltac:(lia)) as (s' & -> & R' & [(O1 & b' & S1 & B' & L' & _)|(D & _)]); exists s'; (split; [reflexivity|]; split; [exact R'|]).
  - eapply small_changed; eassumption.
  - eapply small_same; eassumption.
Qed.
(** C58: whatever the request, the answer is made without leaving any buffer *)
Theorem C58_response_partial : forall E cc fd p jk buff size s,
  reachable E s -> small_slave p s -> locals jk -> bytes_ok buff -> zlen buff = size -> 250 <= size <= 256 ->
  exists s' buff' n, create_response E cc fd p jk buff size s = Done (s', buff', n) /\ reachable E s' /\ small_slave p s' /\ bytes_ok buff' /\ zlen buff' = zlen buff /\ n <= Z.min 253 (zlen buff).
Proof.
  intros E cc fd p jk buff size s R S J B L Hs. fold (fine E p buff (create_response E cc fd p jk buff size s)).
  destruct (znth buff 0) as [node|] eqn:A0; [|apply znth_none in A0; lia]. destruct (znth buff 1) as [f|] eqn:A1; [|apply znth_none in A1; lia].
  destruct (word_any buff 2 B ltac:(lia) ltac:(lia)) as (a & A2 & Ha). destruct (word_any buff 4 B ltac:(lia) ltac:(lia)) as (c & A3 & Hc).
  assert (Sel : (exists node' nd, serves p node node' nd) \/ create_response E cc fd p jk buff size s = Done (s, buff, 0)).
  { unfold create_response. rewrite A0, A1. cbv zeta. destruct (mp_nodes p node) as [nd|] eqn:N; [left; exists node, nd; left; split; [exact N | reflexivity]|].
    destruct (mp_nodes p 0) as [nd|] eqn:N0; [left; exists 0, nd; right; split; [exact N|]; split; [exact N0 | reflexivity] | right; reflexivity]. }
  destruct Sel as [(node' & nd & Sv)| ->]; [|apply fine_done; try assumption; lia].
  assert (K : match mp_nodes p node with Some nd => Some (node, nd) | None => match mp_nodes p 0 with Some nd => Some (0, nd) | None => None end end = Some (node', nd)).
  { destruct Sv as [(-> & ->)|(-> & -> & ->)]; reflexivity. }
  assert (Sm : exists u, mp_nodes p u = Some nd) by (destruct Sv as [(X & _)|(_ & X & _)]; eexists; exact X). destruct Sm as (u & Hu). destruct (S u nd Hu) as ((T1 & T2 & T3 & T4) & (Z1 & Z2 & Z3 & Z4)).
  assert (J' := J). destruct J' as (J1 & J2 & J3 & J4).
  unfold create_response. rewrite A0, A1, A2, A3. cbv zeta. rewrite K. cbn [rbind].
  set (res := if (f =? 1) || (f =? 2) || (f =? 3) || (f =? 4) then call (nd_read_cb nd) node' f a c (jk_result jk) else jk_result jk). destruct (Z.eqb_spec res 0) as [E0|E0]; cbn [negb]; [|apply fine_exception; try assumption; lia].
  destruct (function_ok p nd f) eqn:F; cbn [negb]; [|apply fine_exception; try assumption; lia]. unfold function_ok in F.
  destruct (Z.eqb_spec f 1) as [->|N1]. { cbn [Z.eqb Pos.eqb orb] in F. apply fine_bits; try assumption; lia. }
  destruct (Z.eqb_spec f 2) as [->|N2]. { cbn [Z.eqb Pos.eqb orb] in F. apply fine_bits; try assumption; lia. }
  destruct (Z.eqb_spec f 3) as [->|N3]. { cbn [Z.eqb Pos.eqb orb] in F. apply fine_words; try assumption; lia. }
  destruct (Z.eqb_spec f 4) as [->|N4]. { cbn [Z.eqb Pos.eqb orb] in F. apply fine_words; try assumption; lia. }
  destruct (Z.eqb_spec f 8) as [->|N8]. { apply fine_done; try assumption. rewrite Z.quot_div_nonneg; lia. }
  cbn [orb] in F, res. rewrite E0.
  destruct (Z.eqb_spec f 5) as [->|N5].
  { cbn [Z.eqb Pos.eqb orb] in F. destruct (T3 ltac:(lia)) as (b & P & Q & Lb). destruct (nd_coil_size nd <=? a); [apply fine_exception; try assumption; lia|].
    rewrite put_byte_ok by lia. cbn [rbind]. rewrite put_byte_ok by (rewrite zset_zlen; lia). cbn [rbind].
    match goal with |- context [slave_write _ _ _ _ _ _ _ ?d _] => destruct (small_bits_write E cc fd p (nd_coil nd) a 1 d s b R S P Q Lb ltac:(repeat apply bytes_ok_zset; try apply u8_byte; exact J3) Ha ltac:(lia) ltac:(rewrite !zset_zlen; lia)) as (s' & -> & R' & S') end.
    cbn [rbind]. apply fine_finish; try assumption; lia. }
  destruct (Z.eqb_spec f 6) as [->|N6].
  { cbn [Z.eqb Pos.eqb orb] in F. destruct (T1 ltac:(lia)) as (b & P & Q & Lb). destruct (nd_hold_size nd <=? a); [apply fine_exception; try assumption; lia|].
    rewrite put_byte_ok by lia. cbn [rbind]. rewrite put_byte_ok by (rewrite zset_zlen; lia). cbn [rbind].
    match goal with |- context [slave_write _ _ _ _ _ _ _ ?d _] => destruct (small_words_write E cc fd p (nd_hold nd) a 1 d s b R S P Q Lb ltac:(repeat apply bytes_ok_zset; try apply u8_byte; exact J3) Ha ltac:(lia) ltac:(rewrite !zset_zlen; lia) ltac:(rewrite !zset_zlen; lia)) as (s' & -> & R' & S') end.
    cbn [rbind]. apply fine_finish; try assumption; lia. }
  destruct (Z.eqb_spec f 15) as [->|N15].
  { cbn [Z.eqb Pos.eqb orb] in F. destruct (T3 ltac:(lia)) as (b & P & Q & Lb). destruct (nd_coil_size nd <? a + c) eqn:Q1; [apply fine_exception; try assumption; lia|].
    destruct (take_coils_spec (Z.to_nat c) 0 buff (jk_data jk) J3 ltac:(lia) ltac:(lia) ltac:(lia)) as (d & -> & Bd & Ld & _). cbn [rbind].
    destruct (small_bits_write E cc fd p (nd_coil nd) a c d s b R S P Q Lb Bd Ha ltac:(lia) ltac:(lia)) as (s' & -> & R' & S'). cbn [rbind]. apply fine_finish; try assumption; lia. }
  destruct (Z.eqb_spec f 16) as [->|N16]; [|discriminate].
  cbn [Z.eqb Pos.eqb orb] in F. destruct (T1 ltac:(lia)) as (b & P & Q & Lb). destruct (nd_hold_size nd <? a + c) eqn:Q1; [apply fine_exception; try assumption; lia|].
  destruct (take_words_spec (Z.to_nat c) 0 buff (jk_data jk) B J3 ltac:(lia) ltac:(lia) ltac:(lia)) as (d & -> & Bd & Ld & _). cbn [rbind].
  destruct (small_words_write E cc fd p (nd_hold nd) a c d s b R S P Q Lb Bd Ha ltac:(lia) ltac:(lia) ltac:(lia)) as (s' & -> & R' & S'). cbn [rbind]. apply fine_finish; try assumption; lia.
Qed.
Lemma put_word_ok b i v : bytes_ok b -> 0 <= i -> i + 2 <= zlen b -> exists b', put_word b i v = Done b' /\ bytes_ok b' /\ zlen b' = zlen b.
Proof.
  intros B Hi Hl. unfold put_word. rewrite put_byte_ok by lia. cbn [rbind]. rewrite put_byte_ok by (rewrite zset_zlen; lia). eexists. split; [reflexivity|].
  split; [repeat apply bytes_ok_zset; try apply u8_byte; exact B | rewrite !zset_zlen; reflexivity].
Qed.
Lemma zlen_skip6 (l : list Z) : 6 <= zlen l -> zlen (skipn 6 l) = zlen l - 6 /\ zlen (firstn 6 l) = 6.
Proof. unfold zlen. intros H. rewrite skipn_length, firstn_length. lia. Qed.
Lemma bytes_part n (l : list Z) : bytes_ok l -> bytes_ok (firstn n l) /\ bytes_ok (skipn n l).
Proof. intros B. unfold bytes_ok in *. rewrite <- (firstn_skipn n l) in B. apply Forall_app in B. exact B. Qed.
(** ** TCP connections *)
Definition good_conn (c : mbconn) : Prop := bytes_ok (cn_buff c) /\ zlen (cn_buff c) = 256 /\ 0 <= cn_index c.
Lemma mb_read_fine E cc fd p jk c rx s : reachable E s -> small_slave p s -> locals jk -> good_conn c -> bytes_ok rx ->
  exists s' c' o, mb_read E cc fd p jk c rx s = Done (s', c', o) /\ reachable E s' /\ small_slave p s' /\ good_conn c' /\ zlen (fst o) <= 256.
Proof.
  intros R S J (B & L & I) Brx. destruct c as [buff bi]. cbn [cn_buff cn_index] in *. unfold mb_read. assert (Lr := zlen_nonneg rx).
  assert (Done1 : forall e : Z, exists s' c' o, Done (s, mk_mbconn buff bi, (@nil Z, e)) = Done (s', c', o) /\ reachable E s' /\ small_slave p s' /\ good_conn c' /\ zlen (fst o) <= 256).
  { intros e. eexists. eexists. eexists. split; [reflexivity|]. split; [exact R|]. split; [exact S|]. split; [split; [exact B|]; split; [exact L | exact I] | cbn [fst]; change (zlen (@nil Z)) with 0; lia]. }
  destruct (MB_BUFF_SIZE <? zlen rx + bi) eqn:Q; [apply Done1|]. unfold MB_BUFF_SIZE in Q. assert (Ib : in_bounds bi (zlen rx) (zlen buff) = true) by (unfold in_bounds; lia). rewrite Ib. cbn [negb]. cbv zeta.
  set (b1 := splice bi rx buff). assert (B1 : bytes_ok b1) by (apply bytes_ok_splice; assumption). assert (L1 : zlen b1 = 256) by (unfold b1; rewrite zlen_splice by exact Ib; exact L). clearbody b1.
  assert (Done2 : forall s0 (e : Z), reachable E s0 -> small_slave p s0 -> exists s' c' o, Done (s0, mk_mbconn b1 (bi + zlen rx), (@nil Z, e)) = Done (s', c', o) /\ reachable E s' /\ small_slave p s' /\ good_conn c' /\ zlen (fst o) <= 256).
  { intros s0 e R0 S0. eexists. eexists. eexists. split; [reflexivity|]. split; [exact R0|]. split; [exact S0|]. split; [split; [exact B1|]; split; [exact L1 | cbn [cn_index]; lia] | cbn [fst]; change (zlen (@nil Z)) with 0; lia]. }
  destruct (bi + zlen rx <=? 5); [apply Done2; assumption|]. destruct (word_any b1 4 B1 ltac:(lia) ltac:(lia)) as (m & -> & Hm). cbn [rbind]. destruct (bi + zlen rx <? m + 6); [apply Done2; assumption|].
  destruct (zlen_skip6 b1 ltac:(lia)) as (L6 & F6). destruct (bytes_part 6 b1 B1) as (Bf & Bs).
  destruct (C58_response_partial E cc fd p jk (skipn 6 b1) (MB_BUFF_SIZE - 6) s R S J Bs ltac:(unfold MB_BUFF_SIZE; lia) ltac:(unfold MB_BUFF_SIZE; lia)) as (s' & b2 & n & -> & R' & S' & B2 & L2 & Hn). cbn [rbind].
  assert (B3 : bytes_ok (firstn 6 b1 ++ b2)) by (apply Forall_app; split; assumption). assert (L3 : zlen (firstn 6 b1 ++ b2) = 256) by (rewrite zlen_app; lia).
  destruct (0 <? n) eqn:Hp.
  - destruct (put_word_ok (firstn 6 b1 ++ b2) 4 n B3 ltac:(lia) ltac:(lia)) as (b4 & -> & B4 & L4). cbn [rbind]. 
    assert (I6 : in_bounds 0 (n + 6) (zlen b4) = true) by (unfold in_bounds; lia). rewrite I6. eexists. eexists. eexists. split; [reflexivity|]. split; [exact R'|]. split; [exact S'|].
    split; [split; [exact B4|]; split; [cbn [cn_buff]; lia | cbn [cn_index]; lia]|]. cbn [fst]. rewrite zlen_slice by exact I6. lia.
  - eexists. eexists. eexists. split; [reflexivity|]. split; [exact R'|]. split; [exact S'|]. split; [split; [exact B3|]; split; [exact L3 | cbn [cn_index]; lia]|]. cbn [fst]. change (zlen (@nil Z)) with 0. lia.
Qed.
(** C58: nor does any stream of bytes, however it is cut, on any number of reads *)
Theorem C58_stream_partial : forall E cc fd p jk rxs c s,
  reachable E s -> small_slave p s -> locals jk -> good_conn c -> Forall bytes_ok rxs ->
  exists s' c' os, mb_serve E cc fd p jk c rxs s = Done (s', c', os) /\ reachable E s' /\ small_slave p s' /\ good_conn c' /\ Forall (fun o => zlen (fst o) <= 256) os.
Proof.
  intros E cc fd p jk rxs. induction rxs as [|rx rest IH]; intros c s R S J G F; cbn [mb_serve].
  - eexists. eexists. eexists. split; [reflexivity|]. split; [exact R|]. split; [exact S|]. split; [exact G | constructor].
  - destruct (mb_read_fine E cc fd p jk c rx s R S J G (Forall_inv F)) as (s1 & c1 & o & -> & R1 & S1 & G1 & O1). cbn [rbind].
    destruct (IH c1 s1 R1 S1 J G1 (Forall_inv_tail F)) as (s2 & c2 & os & -> & R2 & S2 & G2 & O2). cbn [rbind].
    eexists. eexists. eexists. split; [reflexivity|]. split; [exact R2|]. split; [exact S2|]. split; [exact G2 | constructor; assumption].
Qed.
(** C58: the same on a serial line *)
Theorem C58_serial_partial : forall E cc fd p jk junk rx s,
  reachable E s -> small_slave p s -> locals jk -> bytes_ok junk -> zlen junk = 256 -> bytes_ok rx -> zlen rx <= 256 ->
  exists s' o, serial_frame E cc fd p jk junk rx s = Done (s', o) /\ reachable E s' /\ small_slave p s' /\ zlen (fst o) <= 256.
Proof.
  intros E cc fd p jk junk rx s R S J Bj Lj Brx Lrx. assert (Ln := zlen_nonneg rx). unfold serial_frame. cbv zeta. assert (Ib : in_bounds 0 (zlen rx) (zlen junk) = true) by (unfold in_bounds; lia).
  set (buff := splice 0 rx junk). assert (B : bytes_ok buff) by (apply bytes_ok_splice; assumption). assert (L : zlen buff = 256) by (unfold buff; rewrite zlen_splice by exact Ib; exact Lj). clearbody buff.
  assert (Ck : exists ok, crc16check buff (zlen rx) = Done ok).
  { unfold crc16check. destruct (zlen rx <? 2) eqn:Q; [eexists; reflexivity|]. destruct (C55_value buff (zlen rx - 2) B ltac:(lia) ltac:(lia)) as (v & -> & _). cbn [rbind].
    destruct (word_any buff (zlen rx - 2) B ltac:(lia) ltac:(lia)) as (w & -> & _). cbn [rbind]. eexists. reflexivity. }
  destruct Ck as (ok & ->). cbn [rbind]. destruct (ok =? 0).
  { eexists. eexists. split; [reflexivity|]. split; [exact R|]. split; [exact S|]. cbn [fst]. change (zlen (@nil Z)) with 0. lia. }
  destruct (C58_response_partial E cc fd p jk buff MB_BUFF_SIZE s R S J B L ltac:(unfold MB_BUFF_SIZE; lia)) as (s' & b2 & n & -> & R' & S' & B2 & L2 & Hn). cbn [rbind].
  destruct (0 <? n) eqn:Q.
  - destruct (C55_value b2 n B2 ltac:(lia) ltac:(lia)) as (v & -> & _). cbn [rbind]. destruct (put_word_ok b2 n v B2 ltac:(lia) ltac:(lia)) as (b3 & -> & B3 & L3). cbn [rbind].
    assert (I2 : in_bounds 0 (n + 2) (zlen b3) = true) by (unfold in_bounds; lia). rewrite I2. eexists. eexists. split; [reflexivity|]. split; [exact R'|]. split; [exact S'|]. cbn [fst]. rewrite zlen_slice by exact I2. lia.
  - eexists. eexists. split; [reflexivity|]. split; [exact R'|]. split; [exact S'|]. cbn [fst]. change (zlen (@nil Z)) with 0. lia.
Qed.
(** a slave that meets the hypotheses, and a stream of cut frames *)
Definition small_port : mbport := mk_port (fun n => if n =? 1 then Some (mk_node 15 4 15 4 14 12 14 12 None None) else None) true.
Lemma small_ex : small_slave small_port demo.
Proof.
  intros u nd H. unfold small_port, mp_nodes in H. destruct (u =? 1); [|discriminate]. injection H as <-. cbn [nd_hold nd_hold_size nd_input nd_input_size nd_coil nd_coil_size nd_disc nd_disc_size].
  assert (T15 : sound_tag demo 15 4) by (intros _; eexists; split; [plain_tag|]; split; [quiet_tag | vm_compute; congruence]).
  assert (T14 : sound_tag demo 14 12) by (intros _; eexists; split; [plain_tag|]; split; [quiet_tag | vm_compute; congruence]).
  split; [repeat split; assumption | lia].
Qed.
Example C58_ex : reachable env0 demo /\ small_slave small_port demo /\ locals no_junk /\ good_conn (mk_mbconn (zeros 256) 0) /\
  talk small_port demo [[0; 1; 0]; [0; 0; 6; 1; 6; 0; 2]; [18; 52]; [0; 2; 0; 0; 0; 6; 1; 3; 255; 255; 255; 255]; [7; 7; 7; 7; 7]] =
    Done [([], 0); ([], 0); ([0; 1; 0; 0; 0; 6; 1; 6; 0; 2; 18; 52], 0); ([], MB_ERR_OVERFLOW); ([], MB_ERR_OVERFLOW)].
Proof.
  split; [exact demo_reachable|]. split; [exact small_ex|]. split; [exact no_junk_locals|]. split; [split; [apply bytes_ok_zeros|]; split; [vm_compute; reflexivity | cbn [cn_index]; lia]|]. vm_compute. reflexivity.
Qed.
(** C58 fails: a slave with more than 150 registers copies as many as it is asked for to an array of 150, before it looks at the number *)
Theorem C58_read_refuted : talk mb_slave mb_server [[0; 1; 0; 0; 0; 6; 1; 3; 0; 0; 0; 151]] = Undef UOob.
Proof. vm_compute. reflexivity. Qed.
(** C58 fails: as many registers as the frame says are taken from it, also from behind the end of the connection's buffer *)
Theorem C58_write_refuted : talk mb_slave mb_server [[0; 1; 0; 0; 0; 6; 1; 16; 0; 0; 0; 122]] = Undef UOob.
Proof. vm_compute. reflexivity. Qed.
(** C58 fails: an answer with 126 registers on a serial line leaves no room for the checksum *)
Definition serial_slave : mbport := mk_port (mp_nodes mb_slave) false.
Theorem C58_checksum_refuted : exists hi lo, serial_frame env0 [] 7 serial_slave no_junk (zeros 256) [1; 3; 0; 0; 0; 126; hi; lo] mb_server = Undef UOob /\
  exists r, create_response env0 [] 7 serial_slave no_junk (splice 0 [1; 3; 0; 0; 0; 126; hi; lo] (zeros 256)) 256 mb_server = Done r /\ snd r = 255.
Proof.
  exists 197, 234. split; [vm_compute; reflexivity|].
  set (x := create_response env0 [] 7 serial_slave no_junk (splice 0 [1; 3; 0; 0; 0; 126; 197; 234] (zeros 256)) 256 mb_server).
  assert (H : match x with Done r => snd r = 255 | Undef _ => False end) by (vm_compute; reflexivity). destruct x as [r|]; [|contradiction]. exists r. split; [reflexivity | exact H].
Qed.
