(** * LuaApiProofs: bytes stay bytes, through Lua values and through the server *)
From Verif Require Import Base Const Types State Events Atomic Server Lib SearchProofs Shape Inv Reach Spec Frame Effects Out DataFrame WRel Prop_Tags Prop_Data ClientTypes ClientData Prop_ClientData LuaConv LuaConvProofs.

(** ** the strings of a Lua value are made of bytes *)
Fixpoint lbytes (v : lval) : Prop :=
  match v with
  | LStr s => bytes_ok s
  | LTab t => (fix all t := match t with [] => True | (_, v) :: r => lbytes v /\ all r end) t
  | _ => True
  end.
Lemma lbytes_cons k v t : lbytes (LTab ((k, v) :: t)) <-> lbytes v /\ lbytes (LTab t).
Proof. reflexivity. Qed.
Lemma rawget_lbytes k : forall t, lbytes (LTab t) -> lbytes (rawget k t).
Proof.
  induction t as [|(j, v) t IH]; intros H; [exact I|]. apply lbytes_cons in H as [H1 H2]. cbn [rawget]. destruct (key_eqb k j); [exact H1|apply IH, H2].
Qed.
Lemma before_nul_ok l : bytes_ok l -> bytes_ok (before_nul l).
Proof. induction 1 as [|b l B _ IH]; cbn [before_nul]; [constructor|]. destruct (b =? 0); [constructor|constructor; assumption]. Qed.
Lemma fill_lbytes f : (forall n v, f n = Done v -> lbytes v) -> forall k n acc tb, lbytes (LTab acc) -> fill k n f acc = Done tb -> lbytes (LTab tb).
Proof.
  intros F. induction k as [|k IH]; intros n acc tb A H; cbn [fill] in H; [injection H as <-; exact A|].
  apply rbind_done in H as (v & H1 & H). apply (IH _ _ _ (proj2 (lbytes_cons _ _ _) (conj (F _ _ H1) A)) H).
Qed.
Lemma read_to_stack_lbytes t off l v : read_to_stack t off l = Done v -> lbytes v.
Proof.
  unfold read_to_stack. intros H.
  repeat match type of H with
  | context [if ?c then _ else _] => destruct c
  | rbind _ _ = Done _ => apply rbind_done in H as (? & _ & H)
  | context [match fp_trunc ?a ?b ?c with _ => _ end] => destruct (fp_trunc a b c)
  end; try discriminate; injection H as <-; exact I.
Qed.
Lemma push_base_lbytes t count bt off l v : bytes_ok l -> push_base t count bt off l = Done v -> lbytes v.
Proof.
  intros B H. unfold push_base in H. assert (RB : forall o k x, read_bit o k l = Done x -> lbytes x).
  { intros o k x Hx. unfold read_bit in Hx. destruct (in_bounds _ _ _); [injection Hx as <-; exact I|discriminate]. }
  destruct (t =? T_BOOL).
  - destruct (1 <? count); [|eapply RB; exact H]. apply rbind_done in H as (tb & F & H). injection H as <-.
    eapply (fill_lbytes _ (fun n x => RB _ _ _) _ _ [] tb I F).
  - destruct (1 <? count); [|eapply read_to_stack_lbytes; exact H]. destruct (t =? T_CHAR).
    + unfold push_string in H. destruct (in_bounds off count (zlen l)); [|discriminate]. injection H as <-. apply before_nul_ok, bytes_ok_slice, B.
    + apply rbind_done in H as (tb & F & H). injection H as <-. eapply (fill_lbytes _ (fun n x => read_to_stack_lbytes _ _ _ _) _ _ [] tb I F).
Qed.
Lemma read_lbytes l : bytes_ok l ->
  (forall ty count bt off v, read_ty l ty count bt off = Done v -> lbytes v) /\
  (forall ms byte bt off acc tb, lbytes (LTab acc) -> read_ms l ms byte bt off acc = Done tb -> lbytes (LTab tb)).
Proof.
  intros B. apply lty_lms_ind.
  - intros t count bt off v H. eapply push_base_lbytes; eassumption.
  - intros ms IH count bt off v H. cbn [read_ty] in H. destruct (1 <? count); apply rbind_done in H as (tb & F & H); injection H as <-.
    + refine (fill_lbytes _ _ _ _ [] tb I F). intros n x Hx. cbn beta in Hx. apply rbind_done in Hx as (y & Hy & Hx). injection Hx as <-. exact (IH _ _ _ [] y I Hy).
    + exact (IH _ _ _ [] tb I F).
  - intros byte bt off acc tb A H. cbn [read_ms] in H. injection H as <-. exact A.
  - intros nm ty IHt count r IHr byte bt off acc tb A H. cbn [read_ms] in H. apply rbind_done in H as (v & Hv & H).
    destruct (next_pos ty count byte bt r) as [b1 b2]. eapply IHr; [|exact H]. apply lbytes_cons. split; [eapply IHt; exact Hv|exact A].
Qed.

Lemma bytes_ok_updb_ l i x : bytes_ok l -> 0 <= x < 256 -> bytes_ok (updb l i x).
Proof.
  unfold updb. generalize (Z.to_nat i). intros n. revert n. induction l as [|a l IH]; intros n B X; destruct n; cbn; try exact B; inversion B; subst; constructor; auto.
  apply IH; assumption.
Qed.
Lemma ones_ok n : bytes_ok (repeat 255 n).
Proof. induction n; constructor; [lia|assumption]. Qed.
Lemma firstn_ok n l : bytes_ok l -> bytes_ok (firstn n l).
Proof. revert n. induction l as [|a l IH]; intros [|n] B; cbn; try constructor; inversion B; subst; [assumption|apply IH; assumption]. Qed.
Lemma low_byte x : (forall k, 8 <= k -> Z.testbit x k = false) -> 0 <= x -> 0 <= x < 256.
Proof.
  intros H N. split; [exact N|]. destruct (Z.eq_dec x 0) as [->|Z0]; [lia|]. apply Z.nle_gt. intros L.
  assert (8 <= Z.log2 x) by (change 8 with (Z.log2 256); apply Z.log2_le_mono; exact L). specialize (H _ H0). rewrite Z.bit_log2 in H by lia. discriminate.
Qed.
Lemma byte_high x k : 0 <= x < 256 -> 8 <= k -> Z.testbit x k = false.
Proof. intros X K. destruct (Z.eq_dec x 0) as [->|Z0]; [apply Z.testbit_0_l|]. apply Z.bits_above_log2; [lia|]. assert (Z.log2 x < 8); [|lia]. apply Z.log2_lt_pow2; lia. Qed.
Lemma setbit_byte x k : 0 <= x < 256 -> 0 <= k < 8 -> 0 <= Z.setbit x k < 256.
Proof.
  intros X K. apply low_byte.
  - intros j J. rewrite Z.setbit_neq by lia. apply byte_high; assumption.
  - rewrite Z.setbit_spec'. apply Z.lor_nonneg. split; [lia|apply Z.pow_nonneg; lia].
Qed.
Lemma clearbit_byte x k : 0 <= x < 256 -> 0 <= k < 8 -> 0 <= Z.clearbit x k < 256.
Proof.
  intros X K. apply low_byte.
  - intros j J. rewrite Z.clearbit_neq by lia. apply byte_high; assumption.
  - rewrite Z.clearbit_spec'. apply Z.ldiff_nonneg. left. lia.
Qed.
(** ** data, mask and stack while a value is converted *)
Section Good.
Variable sz : Z.
Record good (w : lw) : Prop := {
  g_stk : Forall lbytes (w_stk w); g_data : bytes_ok (w_data w); g_mask : bytes_ok (w_mask w);
  g_dlen : zlen (w_data w) = sz; g_mlen : zlen (w_mask w) = sz }.
Lemma good_pop w : good w -> good (pop w).
Proof. intros [A B C D1 D2]. constructor; [|exact B|exact C|exact D1|exact D2]. unfold pop. cbn [w_stk]. destruct A; [constructor|assumption]. Qed.
Lemma good_push v w : lbytes v -> good w -> good (push v w).
Proof. intros V [A B C D1 D2]. constructor; [constructor; assumption|exact B|exact C|exact D1|exact D2]. Qed.
Lemma good_top w : good w -> lbytes (top w).
Proof. intros [A _ _ _ _]. unfold top. destruct A; [exact I|assumption]. Qed.
Lemma good_get k w w' : good w -> get_key k w = Done w' -> good w'.
Proof.
  intros G H. unfold get_key in H. assert (T := good_top _ G). destruct (top w); try discriminate. injection H as <-. apply good_push; [|exact G]. apply rawget_lbytes, T.
Qed.
Lemma good_put_bytes off new w w' : good w -> bytes_ok new -> put_bytes off new w = Done w' -> good w'.
Proof.
  intros [A B C D1 D2] N H. destruct (put_bytes_frm _ _ _ _ H) as [[F1 F2 _] _]. unfold put_bytes in H. destruct (_ && _); [|discriminate]. injection H as <-.
  constructor; [exact A|apply bytes_ok_splice; assumption|apply bytes_ok_splice; [apply ones_ok|exact C]|congruence|congruence].
Qed.
Lemma good_put_bit off bt b w w' : good w -> put_bit off bt b w = Done w' -> good w'.
Proof.
  intros [A B C D1 D2] H. destruct (put_bit_frm _ _ _ _ _ H) as [[F1 F2 _] _]. unfold put_bit in H. cbv zeta in H. destruct (_ && _); [|discriminate]. injection H as <-.
  assert (K : 0 <= bt mod 8 < 8) by lia. assert (ND := nthb_byte _ (off + bt / 8) B). assert (NM := nthb_byte _ (off + bt / 8) C).
  constructor; [exact A| | |congruence|congruence].
  - apply bytes_ok_updb_; [exact B|]. destruct b; [apply setbit_byte|apply clearbit_byte]; assumption.
  - apply bytes_ok_updb_; [exact C|]. apply setbit_byte; assumption.
Qed.
Lemma good_write L t idx off w w' : good w -> write_from_stack L t idx off w = Done w' -> good w'.
Proof.
  intros G H. unfold write_from_stack in H. cbv zeta in H.
  repeat match type of H with
  | (if ?c then _ else _) = _ => destruct c
  | rbind _ _ = Done _ => apply rbind_done in H as (? & _ & H)
  end; try (eapply good_put_bytes; [exact G|apply le_bytes_ok|exact H]). injection H as <-. exact G.
Qed.
Lemma good_pop_loop L t bt off : forall k n w w', good w -> pop_loop L k n t bt off w = Done w' -> good w'.
Proof.
  induction k as [|k IH]; intros n w w' G H; cbn [pop_loop] in H; [injection H as <-; exact G|].
  apply rbind_done in H as (w1 & H1 & H). apply good_get in H1; [|exact G]. apply rbind_done in H as (w2 & H2 & H). eapply IH; [|exact H]. apply good_pop.
  destruct (is_lnil (top w1)); [injection H2 as <-; exact H1|]. destruct (t =? T_BOOL); [eapply good_put_bit; eassumption|eapply good_write; eassumption].
Qed.
Lemma needed_ok : lbytes needed.
Proof. vm_compute. repeat constructor; discriminate. Qed.
Lemma good_pop_base L t count bt off w e w' : good w -> pop_base L t count bt off w = Done (e, w') -> good w'.
Proof.
  intros G H. unfold pop_base in H. assert (T := good_top _ G). destruct (1 <? count).
  - destruct (top w) as [| | | |s|tb]; try (injection H as _ <-; apply good_push; [exact needed_ok|exact G]).
    + destruct (_ && _) eqn:IB; [|discriminate]. apply andb_true_iff in IB as [I1 I2]. injection H as _ <-. destruct G as [A B C D1 D2].
      constructor; cbn [w_stk w_data w_mask]; [exact A|apply bytes_ok_splice; [apply firstn_ok; exact T|exact B]|apply bytes_ok_splice; [apply ones_ok|exact C]|rewrite zlen_splice; assumption|].
      rewrite zlen_splice; [exact D2|]. rewrite zlen_repeat. destruct (Z.le_gt_cases 0 count); [|apply in_bounds_iff in I2; lia]. rewrite Z2Nat.id by assumption. exact I2.
    + apply rbind_done in H as (w1 & H1 & H). injection H as _ <-. eapply good_pop_loop; eassumption.
  - destruct (t =? T_BOOL); apply rbind_done in H as (w1 & H1 & H); injection H as _ <-; [eapply good_put_bit; eassumption|eapply good_write; eassumption].
Qed.
Lemma good_cdt_loop f : (forall n w e w', good w -> f n w = Done (e, w') -> good w') ->
  forall k n w e w', good w -> cdt_loop k n f w = Done (e, w') -> good w'.
Proof.
  intros F. induction k as [|k IH]; intros n w e w' G H; cbn [cdt_loop] in H; [injection H as _ <-; exact G|].
  destruct (negb (is_table (top w))); [injection H as _ <-; apply good_push; [exact needed_ok|exact G]|].
  apply rbind_done in H as (w1 & H1 & H). apply good_get in H1; [|exact G].
  destruct (is_lnil (top w1)); [eapply IH; [|exact H]; apply good_pop, H1|].
  destruct (negb (is_table (top w1))); [injection H as _ <-; apply good_push; [exact needed_ok|apply good_pop, H1]|].
  apply rbind_done in H as ((e2 & w2) & H2 & H). apply F in H2; [|exact H1]. cbv beta iota zeta in H.
  destruct (e2 =? 0); [eapply IH; [|exact H]; apply good_pop, H2|injection H as _ <-; apply good_pop, H2].
Qed.
Lemma good_cb L :
  (forall ty nm count bt off w e w', good w -> write_cb L ty nm count bt off w = Done (e, w') -> good w') /\
  (forall ms byte bt off err w e w', good w -> write_ms L ms byte bt off err w = Done (e, w') -> good w').
Proof.
  apply lty_lms_ind.
  - intros t nm count bt off w e w' G H. cbn [write_cb] in H. apply rbind_done in H as (w1 & H1 & H). apply good_get in H1; [|exact G].
    apply rbind_done in H as ((e2 & w2) & H2 & H). injection H as _ <-. apply good_pop.
    destruct (is_lnil (top w1)); [injection H2 as _ <-; exact H1|eapply good_pop_base; eassumption].
  - intros ms IH nm count bt off w e w' G H. cbn [write_cb] in H. apply rbind_done in H as (w1 & H1 & H). apply good_get in H1; [|exact G].
    destruct (1 <? count).
    + apply rbind_done in H as ((e2 & w2) & H2 & H). apply good_cdt_loop in H2; [|intros n w0 e0 w0' G0 H0; eapply IH; eassumption|exact H1].
      cbv beta iota zeta in H. destruct (e2 =? 0); injection H as _ <-; [apply good_pop|]; exact H2.
    + destruct (is_lnil (top w1)); [injection H as _ <-; apply good_pop, H1|].
      destruct (negb (is_table (top w1))); [injection H as _ <-; apply good_push; [exact needed_ok|exact H1]|].
      apply rbind_done in H as ((e2 & w2) & H2 & H). apply IH in H2; [|exact H1]. cbv beta iota zeta in H. destruct (e2 =? 0); injection H as _ <-; [apply good_pop|]; exact H2.
  - intros byte bt off err w e w' G H. cbn [write_ms] in H. injection H as _ <-. exact G.
  - intros nm ty IHt count r IHr byte bt off err w e w' G H. cbn [write_ms] in H. apply rbind_done in H as ((e2 & w2) & H2 & H).
    apply IHt in H2; [|exact G]. destruct (next_pos ty count byte bt r) as [b1 b2]. eapply IHr; [|exact H]. exact H2.
Qed.
Lemma good_lua_to_dax L ty count w e w' : good w -> lua_to_dax L ty count w = Done (e, w') -> good w'.
Proof.
  intros G H. unfold lua_to_dax in H. destruct ty as [t|ms]; [eapply good_pop_base; eassumption|]. destruct (1 <? count).
  - eapply good_cdt_loop; [|exact G|exact H]. intros n w0 e0 w1 G0 H0. exact (proj2 (good_cb L) _ _ _ _ _ _ _ _ G0 H0).
  - destruct (is_lnil (top w)); [injection H as _ <-; exact G|].
    destruct (negb (is_table (top w))); [injection H as _ <-; apply good_push; [exact needed_ok|exact G]|]. exact (proj2 (good_cb L) _ _ _ _ _ _ _ _ G H).
Qed.

End Good.

(** ** the tag of a client that writes bytes holds bytes *)
Definition holds_bytes (E : env) (i : Z) (s : server) : Prop := reachable E s /\ no_mapping s i /\ exists b, stored s i b /\ bytes_ok b.
Lemma mix_ok : forall o n m, bytes_ok o -> bytes_ok n -> bytes_ok m -> bytes_ok (mix o n m).
Proof.
  induction o as [|a o IH]; intros [|b n] [|c m] O N M; cbn [mix]; try constructor; inversion O; inversion N; inversion M; subst.
  - apply low_byte.
    + intros k K. rewrite Z.lor_spec, !Z.land_spec, (byte_high b k), (byte_high a k) by assumption. rewrite andb_false_l, andb_false_l. reflexivity.
    + apply Z.lor_nonneg. split; apply Z.land_nonneg; left; lia.
  - apply IH; assumption.
Qed.
Lemma after_answer s s' a : s' = after s [a] -> answered s s' a.
Proof. intros ->. apply answered_after. Qed.
Lemma c_mask_keeps E fd i off size at_ d m s s' e : holds_bytes E i s -> bytes_ok d -> bytes_ok m ->
  c_mask E fd i off size at_ d m s = Done (s', e) -> holds_bytes E i s'.
Proof.
  intros (R & N & b & S & B) D M H. unfold c_mask in H. destruct (MSG_DATA_SIZE <? size * 2 + 8); [injection H as <- _; repeat split; eauto|].
  destruct (negb _); [discriminate|]. unfold ask in H. destruct (Server.step E s _) as [s1|] eqn:St; [|discriminate]. cbn [rbind] in H.
  assert (R1 := reachable_step _ _ _ _ R St). assert (s' = s1) by (destruct (rev (s_out s1)) as [|[] ?]; congruence). subst s1.
  destruct (mask_outcome _ _ _ _ _ _ _ _ St) as [(code & _ & ->) | (s2 & s3 & W1 & W2 & Es)]; [split; [exact R1|]; split; [exact N|]; eauto|].
  assert (A : answered s s' (OResp fd MSG_TAG_MWRITE [])).
  { subst s'. unfold after. apply answered_step, answered_resp. eapply evout_trans; [eapply tag_mask_write_evout; exact W1 | eapply map_check_evout; exact W2]. }
  destruct (C06_mask_bits _ _ _ _ _ _ _ _ _ R S N (bytes_ok_slice at_ size m M) St A) as (O1 & _).
  destruct (C04_mask_stores _ _ _ _ _ _ _ _ _ R S (no_mapping_avoid _ _ N) St A) as (_ & _ & S1).
  split; [exact R1|]. split; [eapply only_no_mapping; eassumption|]. eexists. split; [exact S1|]. apply bytes_ok_splice; [|exact B]. apply mix_ok; apply bytes_ok_slice; assumption.
Qed.
Lemma c_write_keeps E fd i off size at_ d s s' e : holds_bytes E i s -> bytes_ok d ->
  c_write E fd i off size at_ d s = Done (s', e) -> holds_bytes E i s'.
Proof.
  intros (R & N & b & S & B) D H. unfold c_write in H. destruct (MSG_DATA_SIZE <? size + 8); [injection H as <- _; repeat split; eauto|].
  destruct (negb _); [discriminate|]. unfold ask in H. destruct (Server.step E s _) as [s1|] eqn:St; [|discriminate]. cbn [rbind] in H.
  assert (R1 := reachable_step _ _ _ _ R St). assert (s' = s1) by (destruct (rev (s_out s1)) as [|[] ?]; congruence). subst s1.
  destruct (write_outcome _ _ _ _ _ _ _ St) as [(code & _ & ->) | (s2 & s3 & W1 & W2 & Es)]; [split; [exact R1|]; split; [exact N|]; eauto|].
  assert (A : answered s s' (OResp fd MSG_TAG_WRITE [])).
  { subst s'. unfold after. apply answered_step, answered_resp. eapply evout_trans; [eapply tag_write_evout; exact W1 | eapply map_check_evout; exact W2]. }
  assert (O1 := C05_write_exact _ _ _ _ _ _ _ _ R S N St A).
  assert (S1 := C04_write_stores _ _ _ _ _ _ _ _ R S (no_mapping_avoid _ _ N) St A).
  split; [exact R1|]. split; [eapply only_no_mapping; [exact (proj1 O1)|exact S|exact N]|]. eexists. split; [exact (proj2 S1)|]. apply bytes_ok_splice; [apply bytes_ok_slice; exact D|exact B].
Qed.
Lemma chunks_keep {A} (P : A -> Prop) f max tsz : (forall a n r a' e, P a -> f a n r = Done (a', e) -> P a') ->
  forall fuel tsize n a a' e, P a -> chunks f fuel max tsz tsize n a = Done (a', e) -> P a'.
Proof.
  intros F. induction fuel as [|k IH]; intros tsize n a a' e Pa H; cbn [chunks] in H; (destruct (tsize <=? 0); [injection H as <- _; exact Pa|]); [discriminate|].
  destruct (tsz =? 0); [discriminate|]. cbv zeta in H. apply rbind_done in H as ((a1 & e1) & H1 & H). apply F in H1; [|exact Pa]. cbv beta iota zeta in H.
  destruct (negb (e1 =? 0)); [injection H as <- _; exact H1|eapply IH; eassumption].
Qed.
Lemma set_bit_ok dst k dst' : bytes_ok dst -> set_bit dst k = Done dst' -> bytes_ok dst'.
Proof.
  intros B H. unfold set_bit in H. destruct (znth dst (k / 8)) as [x|] eqn:Z; [|discriminate]. injection H as <-.
  apply (proj2 (bytes_ok_znth _)). intros i y Hy. assert (X := proj1 (bytes_ok_znth dst) B _ _ Z). assert (R := znth_range _ _ _ Z).
  destruct (Z.eq_dec i (k / 8)) as [->|Ne].
  - rewrite znth_zset_eq in Hy by lia. injection Hy as <-. rewrite <- Z.setbit_spec'. apply setbit_byte; lia.
  - rewrite znth_zset_ne in Hy by lia. eapply bytes_ok_znth; eassumption.
Qed.
Lemma copy_bits_ok : forall n src i dst k dst', bytes_ok dst -> copy_bits n src i dst k = Done dst' -> bytes_ok dst'.
Proof.
  induction n as [|n IH]; intros src i dst k dst' B H; cbn [copy_bits] in H; [injection H as <-; exact B|].
  destruct (znth src (i / 8)) as [x|]; [|discriminate]. apply rbind_done in H as (d1 & H1 & H). eapply IH; [|exact H].
  destruct (Z.testbit x (i mod 8)); [eapply set_bit_ok; eassumption|injection H1 as <-; exact B].
Qed.
Lemma mark_bits_ok : forall n dst k dst', bytes_ok dst -> mark_bits n dst k = Done dst' -> bytes_ok dst'.
Proof.
  induction n as [|n IH]; intros dst k dst' B H; cbn [mark_bits] in H; [injection H as <-; exact B|].
  apply rbind_done in H as (d1 & H1 & H). eapply IH; [|exact H]. eapply set_bit_ok; eassumption.
Qed.
Lemma write_bits_keeps E cc fd lim s h d s' e : holds_bytes E (h_index h) s -> write_bits E cc fd lim s h d = Done (s', e) -> holds_bytes E (h_index h) s'.
Proof.
  intros P H. unfold write_bits in H. cbv zeta in H. apply rbind_done in H as (nd & H1 & H). apply copy_bits_ok in H1; [|apply bytes_ok_zeros].
  apply rbind_done in H as (m & H2 & H). apply mark_bits_ok in H2; [|apply bytes_ok_zeros]. destruct (2040 <? h_size h).
  - apply rbind_done in H as (y & _ & H). destruct (lim <? snd y); [injection H as <- _; exact P|]. eapply (chunks_keep (holds_bytes E (h_index h))); [|exact P|exact H].
    intros a n r a' e0 Pa. apply c_mask_keeps; assumption.
  - exact (c_mask_keeps _ _ _ _ _ _ _ _ _ _ _ P H1 H2 H).
Qed.
Lemma tag_write_keeps E cc fd s h d s' e : holds_bytes E (h_index h) s -> bytes_ok d -> dax_tag_write E cc fd s h d = Done (s', e) -> holds_bytes E (h_index h) s'.
Proof.
  intros P D H. unfold dax_tag_write in H. destruct (bits_path h); [eapply write_bits_keeps; eassumption|].
  apply rbind_done in H as (e1 & _ & H). destruct (negb (e1 =? 0)); [injection H as <- _; exact P|]. destruct (4080 <? h_size h).
  - apply rbind_done in H as (y & _ & H). cbv zeta in H. destruct (4080 <? snd y); [injection H as <- _; exact P|]. eapply (chunks_keep (holds_bytes E (h_index h))); [|exact P|exact H].
    intros a n r a' e0 Pa. apply c_write_keeps; assumption.
  - eapply c_write_keeps; eassumption.
Qed.
Lemma tag_mask_keeps E cc fd s h d m s' e : holds_bytes E (h_index h) s -> bytes_ok d -> bytes_ok m ->
  dax_tag_mask E cc fd s h d m = Done (s', e) -> holds_bytes E (h_index h) s'.
Proof.
  intros P D M H. unfold dax_tag_mask in H. destruct (bits_path h); [eapply write_bits_keeps; eassumption|].
  apply rbind_done in H as (e1 & _ & H). destruct (negb (e1 =? 0)); [injection H as <- _; exact P|]. destruct (2040 <? h_size h).
  - apply rbind_done in H as (y & _ & H). cbv zeta in H. destruct (2040 <? snd y); [injection H as <- _; exact P|]. eapply (chunks_keep (holds_bytes E (h_index h))); [|exact P|exact H].
    intros a n r a' e0 Pa. apply c_mask_keeps; assumption.
  - exact (c_mask_keeps _ _ _ _ _ _ _ _ _ _ _ P D M H).
Qed.
