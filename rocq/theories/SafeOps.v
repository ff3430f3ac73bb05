(** * SafeOps: the requests that change single tags or modules *)
From Verif Require Import Base Const Types State Events Atomic Server Lib SearchProofs Shape Inv Reach Spec Frame Effects Out DataFrame WRel ModInv IdInv
  EvLoops TypeFrame TypesProofs Safe SafeLoops SafeInv SafeWrite.

(** ** Replacing a tag, changing a module *)
Lemma osum_app uid a b : osum uid (a ++ b) = osum uid a + osum uid b.
Proof. unfold osum. rewrite map_app. induction (map (owned_in uid) a) as [|x l IH]; cbn [app fold_right]; lia. Qed.
Lemma osum_cons uid t l : osum uid (t :: l) = owned_in uid t + osum uid l.
Proof. reflexivity. Qed.
Lemma osum_zset uid db i t t' : znth db i = Some t -> osum uid (zset db i t') = osum uid db - owned_in uid t + owned_in uid t'.
Proof.
  intros H. assert (R := znth_range _ _ _ H). unfold zset. replace ((0 <=? i) && (i <? zlen db)) with true by lia. unfold upd. destruct (skipn (Z.to_nat i) db) as [|y r] eqn:K.
  - assert (L := skipn_length (Z.to_nat i) db). rewrite K in L. cbn in L. unfold zlen in R. lia.
  - assert (y = t).
    { destruct (znth_iff db i t) as [Q _]. destruct (Q H) as [Hi He]. rewrite <- (firstn_skipn (Z.to_nat i) db), K in He. rewrite nth_error_app2 in He by (rewrite firstn_length; lia).
      rewrite firstn_length in He. unfold zlen in R. replace (_ - _)%nat with O in He by lia. cbn in He. congruence. }
    subst y. rewrite <- (firstn_skipn (Z.to_nat i) db) at 2. rewrite K, !osum_app, !osum_cons. lia.
Qed.
Lemma owned_nonneg uid t : 0 <= owned_in uid t.
Proof. apply zlen_nonneg. Qed.
Lemma osum_nonneg uid db : 0 <= osum uid db.
Proof. induction db as [|t db IH]; [apply Z.le_refl|]. rewrite osum_cons. assert (Z0 := owned_nonneg uid t). lia. Qed.
Lemma osum_ge uid db i t : znth db i = Some t -> owned_in uid t <= osum uid db.
Proof. intros H. assert (X := osum_zset uid db i t t H). assert (Y := osum_nonneg uid (zset db i (set_events t []))). assert (Z := osum_zset uid db i t (set_events t []) H). change (owned_in uid (set_events t [])) with 0 in Z. lia. Qed.
Lemma owned_pos uid t e : In e (t_events t) -> e_mod e = uid -> 1 <= owned_in uid t.
Proof.
  intros I M. unfold owned_in. assert (X : In e (filter (fun x => e_mod x =? uid) (t_events t))) by (apply filter_In; split; [exact I | lia]).
  destruct (filter _ _); [destruct X|]. rewrite zlen_cons. assert (Z0 := zlen_nonneg l). lia.
Qed.
Lemma map_ok_nv s s' i len m : (forall k, nonvirt s k -> nonvirt s' k) -> map_ok s i len m -> map_ok s' i len m.
Proof. intros N M. eapply map_ok_mono; [reflexivity | apply N | exact M]. Qed.
Lemma tag_ok_nv s s' i t : (forall k, nonvirt s k -> nonvirt s' k) -> tag_ok s i t -> tag_ok s' i t.
Proof.
  intros N O. unfold tag_ok in *. destruct (t_data t); auto. destruct O as (A & B & C & (l & D & F) & G). split; [exact A|]. split; [exact B|]. split; [exact C|]. split; [|exact G].
  exists l. split; [exact D|]. intros m I. eapply map_ok_nv; [exact N | apply F; exact I].
Qed.
Lemma znth_set s i t j : znth (s_db (set_tag s i t)) j = if (i =? j) && (0 <=? i) && (i <? zlen (s_db s)) then Some t else znth (s_db s) j.
Proof. cbn. apply znth_zset. Qed.
Lemma nonvirt_set s i t t' k : znth (s_db s) i = Some t -> (has (t_attr t') A_VIRTUAL = true -> has (t_attr t) A_VIRTUAL = true) -> nonvirt s k -> nonvirt (set_tag s i t') k.
Proof.
  intros H V (u & U1 & U2). unfold nonvirt. rewrite znth_set. destruct (_ && _) eqn:Q; [|eauto]. assert (k = i) by lia. subst k. exists t'. split; [reflexivity|].
  assert (u = t) by congruence. subst. destruct (has (t_attr t') A_VIRTUAL); [rewrite V in U2 by reflexivity; exact U2 | reflexivity].
Qed.
Lemma LI_set_tag s i t t' : LI s -> znth (s_db s) i = Some t -> (has (t_attr t') A_VIRTUAL = true -> has (t_attr t) A_VIRTUAL = true) -> inv_tag (s_types s) t' ->
  (forall n, new_size (s_types s) (t_type t') (t_count t') = Done n -> n < 2147483648) -> tag_ok (set_tag s i t') i t' -> owned_live (s_mods s) (t_events t') ->
  (forall m, In m (s_mods s) -> osum (m_uid m) (zset (s_db s) i t') <= m_evcount m) -> LI (set_tag s i t').
Proof.
  intros [A B C D F G H I J] Ht V It Sz Ok Ow Ct. assert (N : forall k, nonvirt s k -> nonvirt (set_tag s i t') k) by (intros k; apply nonvirt_set with (t := t); assumption). constructor; auto.
  - intros j u Hj. rewrite znth_set in Hj. destruct (_ && _); [injection Hj as <-; exact It | exact (A _ _ Hj)].
  - intros j u n Hj. rewrite znth_set in Hj. destruct (_ && _); [injection Hj as <-; apply Sz | exact (B _ _ _ Hj)].
  - intros j u Hj. rewrite znth_set in Hj. destruct (_ && _) eqn:Q; [injection Hj as <-; assert (j = i) by lia; subst j; exact Ok|]. eapply tag_ok_nv; [exact N | exact (C _ _ Hj)].
  - intros j u Hj. rewrite znth_set in Hj. destruct (_ && _); [injection Hj as <-; exact Ow | exact (D _ _ Hj)].
Qed.
(** the events stay the same *)
Lemma LI_set_quiet s i t t' : LI s -> znth (s_db s) i = Some t -> (has (t_attr t') A_VIRTUAL = true -> has (t_attr t) A_VIRTUAL = true) -> inv_tag (s_types s) t' ->
  t_type t' = t_type t -> t_count t' = t_count t -> t_events t' = t_events t -> tag_ok (set_tag s i t') i t' -> LI (set_tag s i t').
Proof.
  intros L H V It T C Ev Ok. apply LI_set_tag with (t := t); auto.
  - rewrite T, C. intros n. apply (li_size _ L _ _ _ H).
  - rewrite Ev. exact (li_own _ L _ _ H).
  - intros m Im. rewrite (osum_zset _ _ _ _ t' H). assert (Q := li_cnt _ L _ Im). unfold owned_in. rewrite Ev. lia.
Qed.
Lemma LI_same s s' : LI s -> s_db s' = s_db s -> s_mods s' = s_mods s -> s_types s' = s_types s -> s_moduuid s' = s_moduuid s -> LI s'.
Proof.
  intros [A B C D F G H I J] E1 E2 E3 E4. assert (N : forall k, nonvirt s k -> nonvirt s' k) by (intros k (u & U); exists u; rewrite E1; exact U).
  constructor; rewrite ?E1, ?E2, ?E3, ?E4; auto. intros i t Ht. eapply tag_ok_nv; [exact N | exact (C _ _ Ht)].
Qed.
Lemma LI_upd_mod s uid f : LI s -> (forall m, m_uid (f m) = m_uid m /\ m_fd (f m) = m_fd m) ->
  (forall m, In m (s_mods s) -> m_uid m = uid -> osum uid (s_db s) <= m_evcount (f m)) ->
  (forall m g, In m (s_mods s) -> m_uid m = uid -> In g (m_groups (f m)) -> g_live g = true -> group_fits (g_members g) 0 = true) -> LI (upd_mod uid f s).
Proof.
  intros [A B C D F G H I J] K1 K2 K3. assert (N : forall k, nonvirt s k -> nonvirt (upd_mod uid f s) k) by (intros k X; exact X).
  assert (Im : forall m', In m' (s_mods (upd_mod uid f s)) -> exists m, In m (s_mods s) /\ ((m_uid m = uid /\ m' = f m) \/ m' = m)).
  { intros m' X. apply in_map_iff in X as (m & <- & X). exists m. split; [exact X|]. destruct (m_uid m =? uid) eqn:Q; [left; split; [lia | reflexivity] | right; reflexivity]. }
  constructor; auto.
  - intros i t Ht. eapply tag_ok_nv; [exact N | exact (C _ _ Ht)].
  - intros i t Ht e Ie. destruct (D _ _ Ht _ Ie) as (m & M1 & M2). exists (if m_uid m =? uid then f m else m). split; [|destruct (_ =? _); [rewrite (proj1 (K1 m)) |]; exact M2].
    apply in_map_iff. exists m. auto.
  - intros m' X. apply Im in X as (m & X & [[U ->]| ->]); [rewrite (proj1 (K1 m)), U; apply K2; assumption | apply F; exact X].
  - intros m' X. apply Im in X as (m & X & [[U ->]| ->]); [rewrite (proj2 (K1 m))|]; apply G; exact X.
  - intros m' g X. apply Im in X as (m & X & [[U ->]| ->]); [apply K3; assumption | apply H; exact X].
Qed.

(** ** Running requests *)
Definition fine {A} (s : server) (m : SM A) : Prop := exists s' a, m s = Done (s', a) /\ LI s'.
Lemma fine_bind {A B} s s1 a (m : SM A) (k : A -> SM B) : m s = Done (s1, a) -> fine s1 (k a) -> fine s (bind m k).
Proof. intros H (s' & b & K & L). exists s', b. rewrite (run_bind _ _ _ _ _ H). auto. Qed.
Lemma fine_ret {A} s (x : A) : LI s -> fine s (ret x).
Proof. intros L. exists s, x. auto. Qed.
Lemma respond_fine s fd c p : LI s -> fine s (respond fd c p).
Proof. intros L. unfold respond. destruct (_ <? _); [apply fine_ret; exact L|]. do 2 eexists. split; [reflexivity|]. eapply LI_same; [exact L|..]; reflexivity. Qed.
Lemma reply_err_fine s fd c e : LI s -> fine s (reply_err fd c e).
Proof. intros L. do 2 eexists. split; [reflexivity|]. eapply LI_same; [exact L|..]; reflexivity. Qed.
Lemma reply_int_fine s fd c r : LI s -> fine s (reply_int fd c r).
Proof. intros L. unfold reply_int. destruct (_ <? _); [apply reply_err_fine | apply respond_fine]; exact L. Qed.
Lemma reply_status_fine s fd c r : LI s -> fine s (reply_status fd c r).
Proof. intros L. unfold reply_status. destruct (negb _); [apply reply_err_fine | apply respond_fine]; exact L. Qed.
Lemma fine_then {A B} s (m : SM A) (k : A -> SM B) : fine s m -> (forall s1 a, LI s1 -> fine s1 (k a)) -> fine s (bind m k).
Proof. intros (s1 & a & H & L) K. eapply fine_bind; [exact H | apply K; exact L]. Qed.

Lemma custom_range t : T_CUSTOM <= t < 4294967296 -> is_custom t = true.
Proof. unfold T_CUSTOM. intros H. unfold is_custom. rewrite Z.testbit_odd, Z.shiftr_div_pow2 by lia. replace (t / 2 ^ 31) with 1; [reflexivity|]. change (2 ^ 31) with 2147483648. lia. Qed.
(** ** Reading and writing *)
Lemma attr_at_ok E s i : 0 <= i < s_dbsize s \/ (exists t, znth (s_db s) i = Some t) -> exists a, attr_at E s i = Done a.
Proof. intros H. unfold attr_at. destruct (znth (s_db s) i); [eauto|]. destruct H as [H|[t H]]; [|discriminate]. replace (_ && _) with true by lia. eauto. Qed.
Lemma h_read_fine E fd i off n s : LI s -> 0 <= off -> 0 <= n <= 4088 -> off + n < 2147483648 -> (forall t, znth (s_db s) i = Some t -> t_data t = DTime -> n <= 8) -> fine s (h_read E fd i off n).
Proof.
  intros L H1 H2 H3 H4. unfold h_read. change (fine s (r <- tag_read E fd i off n MSG_DATA_SIZE ;;
    match r with
    | inr e => reply_err fd MSG_TAG_READ e
    | inl d => if (n <? 0) || (MSG_DATA_SIZE <? n) then ret tt
               else respond fd MSG_TAG_READ (firstn (Z.to_nat n) (d ++ jbytes E (s_step s) (zlen d) (n - zlen d)))
    end)).
  assert (M : MSG_DATA_SIZE = 4088) by reflexivity.
  destruct (tag_read_ok E fd i off n MSG_DATA_SIZE s L) as (s1 & r & A & B); try lia; auto.
  eapply fine_bind; [exact A|]. assert (L1 := moved_LI _ _ B L). destruct r; [|apply reply_err_fine; exact L1]. destruct (_ || _); [apply fine_ret; exact L1 | apply respond_fine; exact L1].
Qed.
Lemma dests_live_moved s s' i : moved s s' -> dests_live s i -> dests_live s' i.
Proof.
  intros [M1 M2] D t l m Ht Hm I. destruct (lq_back _ _ _ _ M1 Ht) as (t0 & H0 & _). assert (X := M2 _ _ _ H0 Ht). apply (live_lq _ _ _ M1). exact (D t0 l m H0 (eq_trans (eq_sym X) Hm) I).
Qed.
Lemma write_tail_fine E fd i off n c r s s1 : (en_strict E = true -> dests_live s i) -> LI s -> moved s s1 -> dests_aligned s i ->
  (r = 0 -> exists t, znth (s_db s) i = Some t /\ t_data t <> DNull) ->
  fine s1 (if negb (r =? 0) then reply_err fd c r else map_check E i off n ;;; respond fd c []).
Proof.
  intros St L M Al H. assert (L1 := moved_LI _ _ M L). destruct (r =? 0) eqn:Q; cbn [negb]; [|apply reply_err_fine; exact L1].
  destruct (H ltac:(lia)) as (t & Ht & D). destruct (lq_tag _ _ _ _ (proj1 M) Ht) as (t1 & Ht1 & _ & _ & Dq).
  destruct (map_check_ok E i off n s1 t1 (fun Q => dests_live_moved _ _ _ M (St Q)) L1 Ht1 (data_q_null _ _ Dq D) (dests_aligned_moved _ _ _ M Al)) as (s2 & A & B).
  eapply fine_bind; [exact A|]. apply respond_fine. eapply LI_lq; eassumption.
Qed.
Lemma h_write_fine E fd i off d s : (en_strict E = true -> dests_live s i) -> LI s -> 0 <= i < s_dbsize s ->
  (forall t, znth (s_db s) i = Some t -> if has (t_attr t) A_VIRTUAL then queue_room t (zlen d) else write_ok s i off (zlen d)) -> fine s (h_write E fd i off d).
Proof.
  intros St L Hi F. unfold h_write. destruct (attr_at_ok E s i (or_introl Hi)) as [a A].
  eapply fine_bind; [reflexivity|]. eapply fine_bind; [unfold lift; rewrite A; reflexivity|].
  assert (Al : dests_aligned s i).
  { intros t l m Ht Hm I. specialize (F _ Ht). destruct (has (t_attr t) A_VIRTUAL) eqn:V; [|destruct F as (_ & _ & _ & F); exact (F _ _ _ Ht Hm I)].
    exfalso. assert (O := li_tag _ L _ _ Ht). unfold tag_ok in O. destruct (t_data t); try (destruct O as [O _]; congruence); try contradiction.
    all: repeat match goal with H : _ /\ _ |- _ => destruct H | H : virt_ok _ |- _ => destruct H end; assert (X : [] = l) by congruence; subst l; destruct I. }
  destruct (has a A_READONLY && negb (tag_owned s fd i)).
  - eapply fine_bind; [reflexivity|]. eapply write_tail_fine; [exact St | exact L | apply moved_refl | exact Al | discriminate].
  - destruct (tag_write_ok E fd i off d s L) as (s1 & r & W1 & W2).
    { intros t Ht. specialize (F _ Ht). destruct (has (t_attr t) A_VIRTUAL); [exact F|]. destruct F as (F1 & F2 & F3 & _). repeat split; assumption. }
    eapply fine_bind; [exact W1|]. eapply write_tail_fine; [exact St | exact L | exact W2 | exact Al |]. intros ->. eapply tag_write_zero; eassumption.
Qed.
Lemma h_mask_fine E fd i off d m s : (en_strict E = true -> dests_live s i) -> LI s -> 0 <= i < s_dbsize s ->
  (forall t, znth (s_db s) i = Some t -> has (t_attr t) A_VIRTUAL = false -> write_ok s i off (zlen d) /\ zlen d <= zlen m) -> fine s (h_mask E fd i off d m).
Proof.
  intros St L Hi F. unfold h_mask. destruct (attr_at_ok E s i (or_introl Hi)) as [a A].
  eapply fine_bind; [reflexivity|]. eapply fine_bind; [unfold lift; rewrite A; reflexivity|].
  assert (Al : dests_aligned s i).
  { intros t l x Ht Hm I. specialize (F _ Ht). destruct (has (t_attr t) A_VIRTUAL) eqn:V; [|destruct (F eq_refl) as ((_ & _ & _ & F') & _); exact (F' _ _ _ Ht Hm I)].
    exfalso. assert (O := li_tag _ L _ _ Ht). unfold tag_ok in O. destruct (t_data t); try (destruct O as [O _]; congruence); try contradiction.
    all: repeat match goal with H : _ /\ _ |- _ => destruct H | H : virt_ok _ |- _ => destruct H end; assert (X : [] = l) by congruence; subst l; destruct I. }
  destruct (has a A_READONLY).
  - eapply fine_bind; [reflexivity|]. eapply write_tail_fine; [exact St | exact L | apply moved_refl | exact Al | discriminate].
  - destruct (tag_mask_write_ok E fd i off d m s L (or_introl Hi)) as (s1 & r & W1 & W2).
    { intros t Ht V. destruct (F _ Ht V) as ((F1 & F2 & F3 & _) & F4). repeat split; assumption. }
    eapply fine_bind; [exact W1|]. eapply write_tail_fine; [exact St | exact L | exact W2 | exact Al |]. intros ->. eapply tag_mask_write_zero; eassumption.
Qed.
Lemma block_tag s i b : block s i = Some b -> exists t, znth (s_db s) i = Some t /\ t_data t = DBytes b.
Proof. unfold block. destruct (znth (s_db s) i) as [t|]; [|discriminate]. intros H. exists t. split; [reflexivity|]. destruct (t_data t); cbn in H; congruence. Qed.
Lemma tag_block s i t b : znth (s_db s) i = Some t -> t_data t = DBytes b -> block s i = Some b.
Proof. intros H D. unfold block. rewrite H, D. reflexivity. Qed.
Lemma h_atomic_fine E fd h opr opnd s : (en_strict E = true -> dests_live s (h_index h)) -> LI s -> 0 <= h_index h < s_dbsize s ->
  (forall b, block s (h_index h) = Some b -> handle_ok s h /\ h_byte h + h_size h <= zlen b /\ h_byte h + h_size h <= 4067 /\
        write_ok s (h_index h) (h_byte h) (h_size h) /\ no_overflow E s h opr opnd b) -> fine s (h_atomic E fd h opr opnd).
Proof.
  intros St L Hi F. unfold h_atomic. destruct (attr_at_ok E s (h_index h) (or_introl Hi)) as [a A].
  eapply fine_bind; [reflexivity|]. eapply fine_bind; [unfold lift; rewrite A; reflexivity|].
  assert (T : forall s1 r, moved s s1 -> (0 <= r -> exists b, block s (h_index h) = Some b) ->
    fine s1 (if r <? 0 then reply_err fd MSG_ATOMIC_OP r else map_check E (h_index h) (s32 (h_byte h)) (s32 (h_size h)) ;;; respond fd MSG_ATOMIC_OP [])).
  { intros s1 r M H. assert (L1 := moved_LI _ _ M L). destruct (r <? 0) eqn:Q; [apply reply_err_fine; exact L1|]. destruct (H ltac:(lia)) as [b Hb]. destruct (F _ Hb) as (_ & _ & _ & F4 & _).
    destruct (block_tag _ _ _ Hb) as (t & Ht & D). destruct (lq_tag _ _ _ _ (proj1 M) Ht) as (t1 & Ht1 & _ & _ & Dq).
    destruct (map_check_ok E (h_index h) (s32 (h_byte h)) (s32 (h_size h)) s1 t1 (fun Q => dests_live_moved _ _ _ M (St Q)) L1 Ht1) as (s2 & X & Y).
    - eapply data_q_null; [exact Dq | congruence].
    - eapply dests_aligned_moved; [exact M|]. destruct F4 as (_ & _ & _ & F4). intros t0 l m T1 T2 T3. exact (F4 _ _ _ T1 T2 T3).
    - eapply fine_bind; [exact X|]. apply respond_fine. eapply LI_lq; eassumption. }
  destruct (has a A_READONLY && negb (tag_owned s fd (h_index h))).
  { eapply fine_bind; [reflexivity|]. apply T; [apply moved_refl|]. unfold E_READONLY. lia. }
  assert (X : exists s1 r, atomic_op E h opr opnd s = Done (s1, r) /\ moved s s1 /\ (0 <= r -> exists b, block s (h_index h) = Some b)).
  { unfold atomic_op. rewrite bind_get. assert (R : forall c, c < 0 -> exists s1 r, ret c s = Done (s1, r) /\ moved s s1 /\ (0 <= r -> exists b, block s (h_index h) = Some b)).
    { intros c Hc. exists s, c. split; [reflexivity|]. split; [apply moved_refl | lia]. }
    destruct (is_custom (h_type h)) eqn:Ic; [apply R; reflexivity|]. destruct (znth (s_db s) (h_index h)) as [t|] eqn:Ht; [|apply R; reflexivity]. destruct (_ <? _); [apply R; reflexivity|].
    destruct (has (t_attr t) A_VIRTUAL) eqn:V; cbn [orb]; [apply R; reflexivity|]. destruct (has _ A_SPECIAL); [apply R; reflexivity|].
    assert (O := li_tag _ L _ _ Ht). unfold tag_ok in O. destruct (t_data t) as [|b|q| | |] eqn:D; try (destruct O as (_ & O & _); congruence); try (destruct O as (O & _); congruence); try contradiction; [apply R; reflexivity|].
    assert (Hb := tag_block _ _ _ _ Ht D). destruct (F _ Hb) as ((_ & F1 & F2 & F3 & F4 & F5 & F6) & G1 & G2 & G3 & G4).
    destruct F1 as [F1|F1]; [|apply custom_range in F1; congruence].
    assert (Sz : if h_type h =? T_BOOL then h_size h = (h_bit h + h_count h - 1) / 8 + 1 else h_size h = typesize_bits (h_type h) / 8 * h_count h /\ 0 < h_size h).
    { destruct (h_type h =? T_BOOL); [exact F6|]. destruct F6 as (n & N1 & N2 & N3). rewrite type_size_base in N1 by exact F1. injection N1 as N1. rewrite N1, N3. split; [reflexivity | nia]. }
    destruct (switch_ok E s opr h opnd b) as [r Hr]; auto; try lia. rewrite (run_lift _ _ _ _ Hr). destruct r as [b'|e].
    - assert (Lb := atomic_switch_length _ _ _ _ _ _ _ Hr). destruct G3 as (W1 & W2 & W3 & W4). assert (0 <= h_size h) by (destruct (h_type h =? T_BOOL); lia).
      destruct (commit_ok E s (h_index h) t b b' (s32 (h_byte h)) (h_size h) L Ht D) as (s1 & C1 & C2); [unfold zlen; congruence | rewrite s32_id by lia; repeat split; assumption | lia|].
      rewrite (run_bind _ _ _ _ _ C1). exists s1, 0. split; [reflexivity|]. split; [exact C2|]. eauto.
    - exists s, e. split; [reflexivity|]. split; [apply moved_refl | eauto]. }
  destruct X as (s1 & r & X1 & X2 & X3). eapply fine_bind; [exact X1 | apply T; assumption].
Qed.

(** ** Looking up *)
Lemma info_at_ok s i t : LI s -> znth (s_db s) i = Some t -> exists x, info_at s i = Done x.
Proof.
  intros L H. unfold info_at. rewrite H. assert (I := li_inv _ L _ _ H). destruct (t_name t) eqn:N; [destruct (t_data t); eauto|]. rewrite (proj1 (it_live _ _ I) N). eauto.
Qed.
Lemma h_tag_get_fine E fd r s : (en_strict E = true -> exists x, r = Done (inl x)) -> LI s -> (exists x, r = Done x) -> fine s (h_tag_get E fd r).
Proof.
  intros St L [x ->]. unfold h_tag_get. eapply fine_bind; [reflexivity|]. destruct x; [apply respond_fine; exact L|].
  destruct (en_strict E); [destruct (St eq_refl); discriminate | apply reply_err_fine; exact L].
Qed.
Lemma name_lookup s n : Inv s -> exists i, get_by_name (s_index s) n = Done i /\ ((i = E_NOTFOUND /\ forall j t, znth (s_db s) j = Some t -> t_name t <> Some n) \/ exists t, znth (s_db s) i = Some t /\ t_name t = Some n).
Proof.
  intros I. assert (X : forall a b, In (a, b) (s_index s) -> 0 <= b) by (intros a b K; apply (iv_index _ I) in K as (t & K & _); apply znth_range in K; lia).
  destruct (search_ok (s_index s) n (iv_sorted _ I)) as (r & R1 & R2). assert (G : exists i, get_by_name (s_index s) n = Done i).
  { unfold get_by_name. rewrite R1. cbn [rbind]. destruct r as [p|p]; [|eauto]. destruct R2 as (t & R2). rewrite R2. eauto. }
  destruct G as [i G]. exists i. split; [exact G|]. destruct (get_by_name_done _ _ _ (iv_sorted _ I) X G) as [[K _]|[K1 K2]].
  - right. apply (iv_index _ I) in K. exact K.
  - left. split; [exact K1|]. intros j t Hj Hn. apply (K2 j). apply (iv_index _ I). eauto.
Qed.

(** ** Events *)
Lemma inv_tag_core ts t t' : inv_tag ts t -> t_name t' = t_name t -> t_data t' = t_data t -> t_type t' = t_type t -> t_count t' = t_count t -> (t_data t = DNull -> dead_attr (t_attr t')) -> inv_tag ts t'.
Proof. intros [A B C D F G H] E1 E2 E3 E4 E5. constructor; rewrite ?E1, ?E2, ?E3, ?E4; auto. Qed.
Lemma inv_tag_live ts t t' : inv_tag ts t -> t_data t <> DNull -> t_name t' = t_name t -> t_data t' = t_data t -> t_type t' = t_type t -> t_count t' = t_count t -> inv_tag ts t'.
Proof. intros I N E1 E2 E3 E4. eapply inv_tag_core; eauto. intros K. contradiction. Qed.
Lemma tag_ok_events s i t t' b : tag_ok s i t -> t_data t = DBytes b -> t_data t' = DBytes b -> t_type t' = t_type t -> has (t_attr t') A_VIRTUAL = has (t_attr t) A_VIRTUAL ->
  has (t_attr t') A_OVR_SET = has (t_attr t) A_OVR_SET -> t_maps t' = t_maps t -> t_odata t' = t_odata t -> t_omask t' = t_omask t -> Forall (ev_ok (zlen b)) (t_events t') -> tag_ok s i t'.
Proof.
  intros O D D' T V W M O1 O2 Ev. unfold tag_ok in *. rewrite D in O. rewrite D', V, M, T. destruct O as (A & B & C & F & G & H). split; [exact A|]. split; [exact B|]. split; [exact Ev|]. split; [exact F|]. split; [|exact H].
  unfold ovr_ok in *. rewrite O1, O2, W, T. exact G.
Qed.
Lemma u32_le a b : 0 <= a < 4294967296 -> 0 <= b < 4294967296 -> (u32 a <? u32 b) = false -> b <= a.
Proof. intros H1 H2. rewrite !u32_id by lia. lia. Qed.
Lemma event_add_fine E h etype ud m s : LI s -> In m (s_mods s) ->
  (forall t, znth (s_db s) (h_index h) = Some t -> (has (t_attr t) A_VIRTUAL = true /\ is_queue (t_type t) = false) \/
      (handle_ok s h /\ (h_type h = T_BOOL -> bit_event etype -> bit_span h) /\ (etype = EV_DEADBAND -> ~ wide (h_type h)))) -> fine s (event_add E h etype ud m).
Proof.
  intros L Im F. unfold event_add. eapply fine_bind; [reflexivity|]. cbv beta. destruct (znth (s_db s) (h_index h)) as [t|] eqn:Ht; [|apply fine_ret; exact L].
  destruct (F _ eq_refl) as [[V Q]|((Hb & F1 & F2 & F3 & F4 & F5 & F6) & G1 & G2)]; [rewrite V, Q; apply fine_ret; exact L|].
  destruct Hb as [b Hb]. destruct (block_tag _ _ _ Hb) as (t0 & T0 & D). assert (t0 = t) by congruence. subst t0. clear T0.
  assert (O := li_tag _ L _ _ Ht). assert (O' := O). unfold tag_ok in O'. rewrite D in O'. destruct O' as (V & Lb & Ev & _ & _ & Iq). rewrite V, Iq. cbn [andb].
  destruct (li_tag_size s _ t L Ht) as (n & N1 & N2 & N3). assert (Nb := N3 _ D). eapply fine_bind; [unfold lift; rewrite N1; reflexivity|]. cbv beta.
  destruct (u32 n <? u32 (h_byte h + h_size h)) eqn:Q; [apply fine_ret; exact L|].
  assert (Sz : 0 <= h_size h). { destruct (h_type h =? T_BOOL); [lia|]. destruct F6 as (k & _ & K & ->). nia. }
  apply u32_le in Q; [|lia|lia]. destruct (verify_event_type (h_type h) etype) eqn:Ve; cbn [negb]; [|apply fine_ret; exact L].
  destruct (event_new_ok E (s_step s) (s_types s) h etype b ud (t_nextev t) (m_uid m) 0) as (x & X1 & X2); auto; try lia; [destruct F1; [auto | right; lia]|].
  rewrite !s32_id by lia. rewrite D. eapply fine_bind; [unfold lift; rewrite X1; reflexivity|]. cbv beta zeta.
  set (e := mk_ev _ _ _ _ _ _ _ _ _ _ _) in *. set (a := match t_events t with [] => _ | _ => _ end). set (t' := set_attr _ a).
  assert (Af : forall f, f = A_VIRTUAL \/ f = A_OVR_SET -> has a f = has (t_attr t) f).
  { intros f Hf. unfold a. destruct (t_events t); [|reflexivity]. rewrite has_set_flag. replace (has A_EVENT f) with false; [apply orb_false_r|]. destruct Hf as [-> | ->]; reflexivity. }
  eapply fine_bind; [reflexivity|]. eapply fine_bind; [reflexivity|]. apply fine_ret.
  set (f := fun m0 : module => set_evcount m0 (m_evcount m0 + 1)).
  change (LI (set_tag (upd_mod (m_uid m) f s) (h_index h) t')).
  assert (L1 : LI (upd_mod (m_uid m) f s)).
  { apply LI_upd_mod; [exact L | intros; split; reflexivity | |].
    - intros m0 I0 U. cbn. assert (K := li_cnt _ L _ I0). rewrite U in K. lia.
    - intros m0 g I0 _. cbn. exact (li_grp _ L _ _ I0). }
  apply LI_set_tag with (t := t); [exact L1 | exact Ht | | | | | |].
  - change (t_attr t') with a. rewrite Af by auto. auto.
  - apply inv_tag_live with (t := t); try reflexivity; [exact (li_inv _ L _ _ Ht) | congruence].
  - intros k. exact (li_size _ L _ _ k Ht).
  - apply tag_ok_events with (t := t) (b := b); try reflexivity; try assumption.
    + eapply tag_ok_nv; [|exact O]. intros k X. eapply nonvirt_set; [exact Ht | | exact X]. change (t_attr t') with a. rewrite Af by auto. auto.
    + change (t_attr t') with a. apply Af. auto.
    + change (t_attr t') with a. apply Af. auto.
    + constructor; assumption.
  - intros e' I'. cbn in I'. destruct I' as [<-|I']; [|exact (li_own _ L1 _ _ Ht _ I')]. exists (f m). split; [|reflexivity]. apply in_map_iff. exists m. rewrite Z.eqb_refl. auto.
  - intros m0 I0. change (s_db (upd_mod (m_uid m) f s)) with (s_db s). rewrite (osum_zset _ _ _ _ t' Ht). apply in_map_iff in I0 as (m1 & <- & I1).
    assert (K := li_cnt _ L _ I1). assert (Oe : owned_in (m_uid m1) t' = owned_in (m_uid m1) t + if m_uid m =? m_uid m1 then 1 else 0).
    { unfold owned_in. cbn [t' t_events set_attr set_nextev set_events filter e e_mod]. destruct (m_uid m =? m_uid m1); [rewrite zlen_cons|]; lia. }
    destruct (m_uid m1 =? m_uid m) eqn:U; cbn [m_uid set_evcount f m_evcount]; rewrite Oe; [replace (m_uid m =? m_uid m1) with true by lia | replace (m_uid m =? m_uid m1) with false by lia]; lia.
Qed.
Lemma remove_owned uid id l : NoDup (map e_id l) -> forall x, find (fun e => e_id e =? id) l = Some x ->
  zlen (filter (fun e => e_mod e =? uid) (remove_ev id l)) = zlen (filter (fun e => e_mod e =? uid) l) - if e_mod x =? uid then 1 else 0.
Proof.
  intros _. induction l as [|e l IH]; intros x H; cbn [find] in H; [discriminate|]. cbn [remove_ev filter]. destruct (e_id e =? id).
  - injection H as ->. destruct (e_mod x =? uid); [rewrite zlen_cons|]; lia.
  - cbn [filter]. destruct (e_mod e =? uid); rewrite ?zlen_cons, (IH _ H); lia.
Qed.
Lemma remove_in id l e : In e (remove_ev id l) -> In e l.
Proof. induction l as [|x l IH]; cbn [remove_ev]; [intros []|]. destruct (_ =? _); [intros H; right; exact H|]. intros [->|H]; [left; reflexivity | right; auto]. Qed.
(** the state after one event of tag [i] has been taken away and its owner's count reduced *)
Lemma LI_event_del s i t evs m x : LI s -> znth (s_db s) i = Some t -> (forall e, In e evs -> In e (t_events t)) ->
  (forall uid, zlen (filter (fun e => e_mod e =? uid) evs) = owned_in uid t - if e_mod x =? uid then 1 else 0) -> e_mod x = m_uid m -> t_events t <> [] ->
  let a := match evs with [] => clr_flag (t_attr t) A_EVENT | _ => t_attr t end in
  LI (upd_mod (m_uid m) (fun m => set_evcount m (m_evcount m - 1)) (set_tag s i (set_attr (set_events t evs) a))).
Proof.
  intros L Ht Sub Ct Hx Ne a. set (t' := set_attr (set_events t evs) a).
  assert (Af : forall f, f = A_VIRTUAL \/ f = A_OVR_SET -> has a f = has (t_attr t) f).
  { intros f Hf. unfold a. destruct evs; [|reflexivity]. apply has_clr_flag. destruct Hf as [-> | ->]; reflexivity. }
  assert (O := li_tag _ L _ _ Ht). assert (D : exists b, t_data t = DBytes b).
  { unfold tag_ok, virt_ok in O. destruct (t_data t); [destruct O as (_ & O & _); contradiction | eauto | | | |contradiction]; exfalso; apply Ne; tauto. }
  destruct D as [b D]. assert (L1 : LI (set_tag s i t')).
  { apply LI_set_tag with (t := t); [exact L | exact Ht | | | | | |].
    - change (t_attr t') with a. rewrite Af by auto. auto.
    - apply inv_tag_live with (t := t); try reflexivity; [exact (li_inv _ L _ _ Ht) | congruence].
    - intros k. exact (li_size _ L _ _ k Ht).
    - apply tag_ok_events with (t := t) (b := b); try reflexivity; try assumption.
      + eapply tag_ok_nv; [|exact O]. intros k X. eapply nonvirt_set; [exact Ht | | exact X]. change (t_attr t') with a. rewrite Af by auto. auto.
      + change (t_attr t') with a. apply Af. auto.
      + change (t_attr t') with a. apply Af. auto.
      + unfold tag_ok in O. rewrite D in O. destruct O as (_ & _ & O & _). rewrite Forall_forall in *. intros e I. apply O, Sub, I.
    - intros e I. exact (li_own _ L _ _ Ht _ (Sub _ I)).
    - intros m0 I0. rewrite (osum_zset _ _ _ _ t' Ht). assert (K := li_cnt _ L _ I0). unfold owned_in at 2. change (t_events t') with evs. rewrite Ct. destruct (_ =? _); lia. }
  apply LI_upd_mod; [exact L1 | intros; split; reflexivity | |].
  - intros m0 I0 U. cbn [m_evcount set_evcount]. change (s_db (set_tag s i t')) with (zset (s_db s) i t'). rewrite (osum_zset _ _ _ _ t' Ht). assert (K := li_cnt _ L _ I0). rewrite U in K.
    unfold owned_in at 2. change (t_events t') with evs. rewrite Ct, Hx, Z.eqb_refl. lia.
  - intros m0 g I0 _. cbn. exact (li_grp _ L _ _ I0).
Qed.
Lemma find_id_in id l : In id (map e_id l) -> exists x, find (fun e => e_id e =? id) l = Some x.
Proof. induction l as [|e l IH]; cbn [map In find]; [intros []|]. intros [H|H]; destruct (e_id e =? id) eqn:Q; eauto; lia. Qed.
Lemma event_del_fine E i id mo s : (en_strict E = true -> forall m t e r, mo = Some m -> znth (s_db s) i = Some t -> t_events t = e :: r -> e_mod e = m_uid m -> e_id e <> id) -> LI s -> IdInv s -> (forall t, znth (s_db s) i = Some t -> t_events t = [] \/ In id (map e_id (t_events t))) -> fine s (event_del E i id mo).
Proof.
  intros St L U F. unfold event_del. eapply fine_bind; [reflexivity|]. cbv beta zeta. destruct (znth (s_db s) i) as [t|] eqn:Ht; [|apply fine_ret; exact L].
  destruct (t_events t) as [|e r] eqn:Ev; [apply fine_ret; exact L|]. destruct (F _ eq_refl) as [K|K]; [congruence|]. rewrite Ev in K.
  assert (Nd := desc_NoDup _ _ (wf_ids _ _ _ (U _ _ Ht))). rewrite Ev in Nd. cbn [map] in Nd, K. apply NoDup_cons_iff in Nd as [Nd1 Nd2].
  destruct (e_id e =? id) eqn:Q.
  - destruct mo as [m|]; [|apply fine_ret; exact L]. destruct (e_mod e =? m_uid m) eqn:Qm; cbn [negb]; [|apply fine_ret; exact L].
    assert (Se : en_strict E = false) by (destruct (en_strict E); [|reflexivity]; exfalso; apply (St eq_refl m t e r eq_refl eq_refl Ev); lia). rewrite Se.
    assert (X : existsb (fun x => e_id x =? id) r = false).
    { apply not_true_is_false. intros X. apply existsb_exists in X as (y & Y1 & Y2). apply Nd1. replace (e_id e) with (e_id y) by lia. apply in_map. exact Y1. }
    rewrite X. eapply fine_bind; [reflexivity|]. eapply fine_bind; [reflexivity|]. apply fine_ret. apply (LI_event_del s i t r m e L Ht); [rewrite Ev; intros y Y; right; exact Y | | lia | congruence].
    intros uid. unfold owned_in. rewrite Ev. cbn [filter]. destruct (e_mod e =? uid); [rewrite zlen_cons|]; lia.
  - destruct K as [K|K]; [lia|]. destruct (find_id_in _ _ K) as [x Hx]. rewrite Hx. destruct mo as [m|]; [|apply fine_ret; exact L]. destruct (e_mod x =? m_uid m) eqn:Qm; cbn [negb]; [|apply fine_ret; exact L].
    eapply fine_bind; [reflexivity|]. eapply fine_bind; [reflexivity|]. apply fine_ret. apply (LI_event_del s i t (e :: remove_ev id r) m x L Ht); [| | lia | congruence].
    + rewrite Ev. intros y [Y|Y]; [left; exact Y | right; eapply remove_in; exact Y].
    + intros uid. unfold owned_in. rewrite Ev. cbn [filter]. destruct (e_mod e =? uid); rewrite ?zlen_cons, (remove_owned uid id r Nd2 x Hx); destruct (e_mod x =? uid); lia.
Qed.
Lemma upd_opts_key id o l x : In x (upd_opts id o l) -> exists e, In e l /\ (x = e \/ x = set_opts e o).
Proof. induction l as [|e l IH]; cbn [upd_opts]; [intros []|]. destruct (e_id e =? id); intros [<-|H]; [exists e; split; [left; reflexivity | auto] | exists x; split; [right; exact H | auto] | exists e; split; [left; reflexivity | auto] |].
  destruct (IH H) as (y & Y1 & Y2). exists y. split; [right; exact Y1 | exact Y2]. Qed.
Lemma upd_opts_owned uid id o l : zlen (filter (fun e => e_mod e =? uid) (upd_opts id o l)) = zlen (filter (fun e => e_mod e =? uid) l).
Proof.
  induction l as [|e l IH]; cbn [upd_opts]; [reflexivity|]. destruct (e_id e =? id); cbn [filter set_opts e_mod].
  - destruct (e_mod e =? uid); [rewrite !zlen_cons|]; reflexivity.
  - destruct (e_mod e =? uid); [rewrite !zlen_cons, IH | exact IH]; reflexivity.
Qed.
Lemma ev_ok_opts len e o : ev_ok len e -> ev_ok len (set_opts e o).
Proof. intros [A B C D F]. constructor; assumption. Qed.
Lemma event_opt_fine i id opts mo s : LI s -> fine s (event_opt i id opts mo).
Proof.
  intros L. unfold event_opt. eapply fine_bind; [reflexivity|]. cbv beta. destruct (znth (s_db s) i) as [t|] eqn:Ht; [|apply fine_ret; exact L].
  destruct (find _ _) as [e|] eqn:Fd; [|apply fine_ret; exact L]. destruct (match mo with Some m => e_mod e =? m_uid m | None => false end); [|apply fine_ret; exact L].
  eapply fine_bind; [reflexivity|]. apply fine_ret. change (LI (set_tag s i (set_events t (upd_opts id opts (t_events t))))).
  assert (O := li_tag _ L _ _ Ht). assert (Ne : t_events t <> []) by (intros K; rewrite K in Fd; discriminate).
  assert (D : exists b, t_data t = DBytes b).
  { unfold tag_ok, virt_ok in O. destruct (t_data t); [destruct O as (_ & O & _); contradiction | eauto | | | |contradiction]; exfalso; apply Ne; tauto. }
  destruct D as [b D]. apply LI_set_tag with (t := t); [exact L | exact Ht | auto | | | | |].
  - apply inv_tag_live with (t := t); try reflexivity; [exact (li_inv _ L _ _ Ht) | congruence].
  - intros k. exact (li_size _ L _ _ k Ht).
  - apply tag_ok_events with (t := t) (b := b); try reflexivity; try assumption.
    + eapply tag_ok_nv; [|exact O]. intros k X. eapply nonvirt_set; [exact Ht | auto | exact X].
    + unfold tag_ok in O. rewrite D in O. destruct O as (_ & _ & O & _). rewrite Forall_forall in *. intros x I. apply upd_opts_key in I as (y & Y1 & [-> | ->]); [apply O; exact Y1 | apply ev_ok_opts, O; exact Y1].
  - intros x I. apply upd_opts_key in I as (y & Y1 & [-> | ->]); exact (li_own _ L _ _ Ht _ Y1).
  - intros m0 I0. rewrite (osum_zset _ _ _ _ (set_events t (upd_opts id opts (t_events t))) Ht). assert (K := li_cnt _ L _ I0). unfold owned_in at 2. cbn [t_events set_events]. rewrite upd_opts_owned. fold (owned_in (m_uid m0) t). lia.
Qed.

(** ** Mappings *)
Lemma core_virtual a a' : core_attr a a' -> has a' A_VIRTUAL = has a A_VIRTUAL.
Proof. intros (_ & H & _). exact H. Qed.
Lemma map_add_fine src dst s : LI s -> map_fits src dst -> fine s (map_add src dst).
Proof.
  intros L (A1 & A2 & A3 & B1 & B2 & B3 & C). unfold map_add. eapply fine_bind; [reflexivity|]. cbv beta. destruct (znth (s_db s) (h_index src)) as [t|] eqn:Ht; [|apply fine_ret; exact L].
  destruct (znth (s_db s) (h_index dst)) as [td|] eqn:Hd; [|apply fine_ret; exact L]. destruct (has (t_attr t) A_VIRTUAL) eqn:V; [apply fine_ret; exact L|]. destruct (has (t_attr td) A_VIRTUAL) eqn:Vd; [apply fine_ret; exact L|].
  cbn [orb]. destruct (has (t_attr td) A_READONLY); [apply fine_ret; exact L|].
  destruct (li_tag_size s _ t L Ht) as (n & N1 & N2 & N3). eapply fine_bind; [unfold lift; rewrite N1; reflexivity|]. cbv beta. destruct (_ <? _) eqn:Q1; [apply fine_ret; exact L|]. apply u32_le in Q1; [|lia|lia].
  destruct (li_tag_size s _ td L Hd) as (k & K1 & K2 & K3). eapply fine_bind; [unfold lift; rewrite K1; reflexivity|]. cbv beta. destruct (u32 k <? _) eqn:Q2; [apply fine_ret; exact L|]. apply u32_le in Q2; [|lia|lia].
  destruct (h_size dst <? h_size src) eqn:Q3; [apply fine_ret; exact L|]. assert (O := li_tag _ L _ _ Ht).
  assert (M : exists l, t_maps t = Some l). { unfold tag_ok, virt_ok in O. destruct (t_data t); [destruct O as (_ & _ & O); exact O | destruct O as (_ & _ & _ & (l & O & _) & _); eauto | destruct O as (_ & O); exists []; tauto | exists []; tauto.. | contradiction]. }
  destruct M as [maps M]. rewrite M. destruct (find _ maps) as [m|]; [apply fine_ret; exact L|].
  assert (X : exists mask, (if h_type src =? T_BOOL then x <-- mask_loop (Z.to_nat (h_count src)) (h_bit dst) 0 (zeros (h_size src)) ;; Done (Some x) else Done None) = Done mask /\
     match mask with
     | Some x => zlen x = h_size src /\ 0 <= h_bit src < 8 /\ 0 <= h_bit dst < 8 /\ h_bit src + h_count src <= 8 * h_size src /\ h_bit dst + h_count src <= 8 * h_size src
     | None => h_index src = h_index dst -> areas_overlap (h_byte src) (h_size src) (h_byte dst) (h_size src) = false end).
  { destruct (h_type src =? T_BOOL); [|exists None; split; [reflexivity | exact C]]. destruct C as (C1 & C2 & C3 & C4).
    assert (Zl : zlen (zeros (h_size src)) = h_size src) by (rewrite zlen_zeros; lia). assert (X : exists x, mask_loop (Z.to_nat (h_count src)) (h_bit dst) 0 (zeros (h_size src)) = Done x /\ zlen x = zlen (zeros (h_size src))).
    { destruct (Z_le_gt_dec (h_count src) 0) as [Q|Q]; [replace (Z.to_nat (h_count src)) with 0%nat by lia; eexists; split; reflexivity | apply mask_loop_ok; [lia | lia | rewrite Zl; lia]]. }
    destruct X as (x & X1 & X2). rewrite X1. exists (Some x). split; [reflexivity|]. rewrite X2, Zl. auto. }
  destruct X as (mask & X1 & X2). eapply fine_bind; [unfold lift; rewrite X1; reflexivity|]. cbv beta. eapply fine_bind; [reflexivity|]. apply fine_ret.
  set (t' := set_attr _ _). change (LI (set_tag s (h_index src) t')). assert (Cr : core_attr (t_attr t) (t_attr t')) by (apply core_set; reflexivity). assert (Cv := core_virtual _ _ Cr).
  assert (Nv : forall j, nonvirt s j -> nonvirt (set_tag s (h_index src) t') j) by (intros j; apply nonvirt_set with (t := t); [exact Ht | rewrite Cv; auto]).
  apply LI_set_quiet with (t := t); try reflexivity; [exact L | exact Ht | rewrite Cv; auto | |].
  - apply inv_tag_core with (t := t); try reflexivity; [exact (li_inv _ L _ _ Ht)|]. intros D. apply (core_dead _ _ Cr), (it_dead _ _ (li_inv _ L _ _ Ht) D).
  - apply (tag_ok_nv _ _ _ _ Nv) in O. unfold tag_ok, virt_ok in *. change (t_data t') with (t_data t). rewrite Cv. destruct (t_data t) as [|b|q| | |]; try (destruct O as [O _]; congruence); try (destruct O as (_ & O & _); congruence); try contradiction; [|].
    + destruct O as (O1 & O2 & _). split; [exact O1|]. split; [exact O2|]. eexists. reflexivity.
    + destruct O as (O1 & O2 & O3 & (l & O4 & O5) & O6 & O7). split; [exact O1|]. split; [exact O2|]. split; [exact O3|]. split.
      * eexists. split; [reflexivity|]. assert (Nb := N3 _ eq_refl). intros m [<-|Im]; [|apply O5; congruence]. constructor; cbn [m_src m_dst m_mask]; [reflexivity | lia | apply Nv; exists td; auto | lia | exact X2].
      * split; [|exact O7]. unfold ovr_ok in *. change (t_odata t') with (t_odata t). change (t_omask t') with (t_omask t). change (t_type t') with (t_type t). replace (has (t_attr t') A_OVR_SET) with (has (t_attr t) A_OVR_SET); [exact O6|].
        change (t_attr t') with (set_flag (t_attr t) A_MAPPING). rewrite has_set_flag. change (has A_MAPPING A_OVR_SET) with false. rewrite orb_false_r. reflexivity.
Qed.
Lemma map_del_fine i id s : LI s -> (forall t, znth (s_db s) i = Some t -> t_maps t <> Some []) -> fine s (map_del i id).
Proof.
  intros L F. unfold map_del. eapply fine_bind; [reflexivity|]. cbv beta. destruct (znth (s_db s) i) as [t|] eqn:Ht; [|apply fine_ret; exact L]. specialize (F _ eq_refl).
  assert (O := li_tag _ L _ _ Ht).
  assert (M : exists l, t_maps t = Some l). { unfold tag_ok, virt_ok in O. destruct (t_data t); [destruct O as (_ & _ & O); exact O | destruct O as (_ & _ & _ & (l & O & _) & _); eauto | destruct O as (_ & O); exists []; tauto | exists []; tauto.. | contradiction]. }
  destruct M as [maps M]. rewrite M. destruct maps as [|m r]; [congruence|].
  assert (K : forall l', subl l' (m :: r) -> fine s (put_tag i (set_maps t (Some l')) ;;; ret 0)).
  { intros l' Sub. eapply fine_bind; [reflexivity|]. apply fine_ret. change (LI (set_tag s i (set_maps t (Some l')))). apply LI_lq with (s := s); [exact L|]. apply lq_maps; [exact Ht|]. rewrite M. cbn. exact Sub. }
  destruct (m_id m =? id); [apply K; constructor; apply subl_refl|]. destruct (Server.after _ r) as [rest|] eqn:Af; [|apply fine_ret; exact L].
  apply K. constructor. eapply after_subl. exact Af.
Qed.
Lemma map_get_ok s i id : LI s -> exists x, map_get s i id = Done x.
Proof.
  intros L. unfold map_get. destruct (znth (s_db s) i) as [t|] eqn:Ht; [|eauto]. assert (O := li_tag _ L _ _ Ht).
  assert (M : exists l, t_maps t = Some l). { unfold tag_ok, virt_ok in O. destruct (t_data t); [destruct O as (_ & _ & O); exact O | destruct O as (_ & _ & _ & (l & O & _) & _); eauto | destruct O as (_ & O); exists []; tauto | exists []; tauto.. | contradiction]. }
  destruct M as [maps M]. rewrite M. destruct (find _ maps); eauto.
Qed.

(** ** Groups *)
Lemma LI_groups s uid g n : LI s -> (forall m, In m (s_mods s) -> m_uid m = uid -> forall x, In x (g m) -> g_live x = true -> group_fits (g_members x) 0 = true) -> LI (upd_mod uid (fun m => set_groups m (g m) (n m)) s).
Proof.
  intros L H. apply LI_upd_mod; [exact L | intros; split; reflexivity | |].
  - intros m Im U. cbn. assert (K := li_cnt _ L _ Im). rewrite U in K. exact K.
  - intros m x Im U. cbn. apply H; assumption.
Qed.
Lemma in_firstn {A} (x : A) n : forall l, In x (firstn n l) -> In x l.
Proof. induction n as [|n IH]; intros [|y l]; cbn; try contradiction. intros [H|H]; auto. Qed.
Lemma in_repeat {A} (x y : A) n : In x (repeat y n) -> x = y.
Proof. apply repeat_spec. Qed.
Lemma slot_in g size g' size' i : group_slot g size = (g', size', i) -> forall x, In x g' -> In x g \/ x = empty_group.
Proof.
  unfold group_slot. intros H.
  assert (K : forall g0 s0, (forall x, In x g0 -> In x g \/ x = empty_group) ->
     match first_empty g0 (Z.to_nat s0) 0 with Some i0 => (g0, s0, i0) | None => let newsize := u32 (s0 * 2) in if 4096 <? newsize then (g0, s0, E_2BIG)
       else (firstn (Z.to_nat s0) (resize_groups g0 newsize) ++ repeat empty_group (Z.to_nat (newsize - s0)), newsize, s0) end = (g', size', i) -> forall x, In x g' -> In x g \/ x = empty_group).
  { intros g0 s0 G K. destruct (first_empty _ _ _) as [j|]; [injection K as <- _ _; exact G|]. cbv zeta in K. destruct (4096 <? _); [injection K as <- _ _; exact G|]. injection K as <- _ _. intros x X.
    apply in_app_iff in X as [X|X]; [|right; eapply in_repeat; exact X]. apply in_firstn in X. unfold resize_groups in X. apply in_app_iff in X as [X|X]; [apply G; eapply in_firstn; exact X | right; eapply in_repeat; exact X]. }
  destruct (size =? 0); [apply (K (repeat empty_group 16) 16); [intros x X; right; eapply in_repeat; exact X | exact H] | apply (K g size); [auto | exact H]].
Qed.
Lemma group_add_fine m hs s : LI s -> In m (s_mods s) -> fine s (group_add (m_uid m) m hs).
Proof.
  intros L Im. unfold group_add. destruct (150 <? zlen hs); [apply fine_ret; exact L|]. destruct (group_slot (m_groups m) (m_gsize m)) as [[g size] i] eqn:Sl.
  assert (G : forall x, In x g -> g_live x = true -> group_fits (g_members x) 0 = true). { intros x X Lv. destruct (slot_in _ _ _ _ _ Sl x X) as [Y| ->]; [exact (li_grp _ L _ _ Im Y Lv) | discriminate]. }
  destruct (i <? 0); [eapply fine_bind; [reflexivity|]; apply fine_ret; apply (LI_groups s (m_uid m) (fun _ => g) (fun _ => size)); auto|].
  destruct (group_fits hs 0) eqn:Gf; (eapply fine_bind; [reflexivity|]; apply fine_ret); [|apply (LI_groups s (m_uid m) (fun _ => g) (fun _ => size)); auto].
  apply (LI_groups s (m_uid m) (fun _ => zset g i (mk_g true hs)) (fun _ => size)); [exact L|]. intros m0 _ _ x X Lv. apply In_zset in X as [-> |X]; [exact Gf | apply G; assumption].
Qed.
Lemma group_del_fine m i g s : LI s -> In m (s_mods s) -> znth (m_groups m) i = Some g -> fine s (group_del (m_uid m) m i).
Proof.
  intros L Im Hg. unfold group_del. rewrite Hg. destruct (g_live g); [|apply fine_ret; exact L]. eapply fine_bind; [reflexivity|]. apply fine_ret.
  apply (LI_groups s (m_uid m) (fun m => zset (m_groups m) i empty_group) (fun m => u32 (m_gsize m - 1))); [exact L|]. intros m0 I0 _ x X Lv. apply In_zset in X as [-> |X]; [discriminate | exact (li_grp _ L _ _ I0 X Lv)].
Qed.
Lemma member_moved s s' h : moved s s' -> member_fits s h -> member_fits s' h.
Proof.
  intros [Q _] (A & B & C & D). split; [exact A|]. split; [exact B|]. split; [exact C|]. intros t' Ht. destruct (lq_back _ _ _ _ Q Ht) as (t & T1 & T2 & _). specialize (D _ T1).
  destruct T2. congruence.
Qed.
Lemma group_read_fine E hs : forall off buf s, LI s -> (forall h, In h hs -> member_fits s h) -> group_fits hs off = true -> 0 <= off <= MSG_GROUP_SIZE -> fine s (group_read_loop E hs off buf).
Proof.
  induction hs as [|h r IH]; intros off buf s L F G O; cbn [group_read_loop]; [apply fine_ret; exact L|]. cbn [group_fits] in G.
  destruct (F h (or_introl eq_refl)) as (A & B & C & D). unfold MSG_GROUP_SIZE in *.
  assert (Sm : off + h_size h < 2147483648).
  { destruct (Z_lt_ge_dec (off + h_size h) 2147483648) as [K|K]; [exact K|]. exfalso. cbv zeta in G. replace (s32 (off + h_size h) <? 0) with true in G; [discriminate|].
    symmetry. unfold s32. cbv zeta. destruct (_ <? 2147483648) eqn:Q; lia. }
  rewrite s32_id in G by lia. cbv zeta in G. destruct (_ || _) eqn:Q; [discriminate|]. rewrite !s32_id by lia.
  destruct (tag_read_ok E (-1) (h_index h) (h_byte h) (h_size h) (4084 - off) s L) as (s' & x & X1 & X2); [lia | lia | lia | lia | | |].
  - intros t Ht Dt. specialize (D _ Ht). assert (K := li_tag _ L _ _ Ht). unfold tag_ok, virt_ok in K. rewrite Dt in K. destruct K as [K _]. congruence.
  - intros t Ht V. rewrite (D _ Ht) in V. discriminate.
  - eapply fine_bind; [exact X1|]. assert (L' := moved_LI _ _ X2 L). destruct x as [d|e]; [|apply fine_ret; exact L']. apply IH; [exact L' | | exact G | lia]. intros k Ik. apply (member_moved s s' k X2). apply F. right. exact Ik.
Qed.
Lemma aligned_moved s s' i off : moved s s' -> aligned s i off -> aligned s' i off.
Proof. intros [[Q _] _]. apply aligned_wrel. exact Q. Qed.
Lemma slice_le off n l : zlen (slice off n l) <= Z.max 0 n.
Proof. unfold slice, zlen. rewrite firstn_length. lia. Qed.
Lemma group_write_fine E hs : forall off buf s, LI s -> (forall h, In h hs -> member_fits s h /\ aligned s (h_index h) (h_byte h)) -> fine s (group_write_loop E hs off buf).
Proof.
  induction hs as [|h r IH]; intros off buf s L F; cbn [group_write_loop]; [apply fine_ret; exact L|]. destruct (F h (or_introl eq_refl)) as ((A & B & C & D) & Al). rewrite s32_id by lia.
  destruct (tag_write_ok E (-1) (h_index h) (h_byte h) (slice off (h_size h) buf) s L) as (s' & x & X1 & X2).
  { intros t Ht. rewrite (D _ Ht). assert (Sl := slice_le off (h_size h) buf). repeat split; [lia | lia | exact Al]. }
  eapply fine_bind; [exact X1|]. assert (L' := moved_LI _ _ X2 L). destruct (negb _); [apply fine_ret; exact L'|]. apply IH; [exact L'|]. intros k Ik. destruct (F k (or_intror Ik)) as [F1 F2]. split; [apply (member_moved s s' k X2 F1) | apply (aligned_moved _ _ _ _ X2 F2)].
Qed.

(** ** Overrides *)
Lemma LI_set_ovr s i t t' b : LI s -> znth (s_db s) i = Some t -> t_data t = DBytes b -> has (t_attr t') A_VIRTUAL = has (t_attr t) A_VIRTUAL -> t_name t' = t_name t -> t_data t' = t_data t -> t_type t' = t_type t ->
  t_count t' = t_count t -> t_events t' = t_events t -> t_maps t' = t_maps t -> ovr_ok t' (zlen b) -> LI (set_tag s i t').
Proof.
  intros L H D V N D' T C Ev Mp Ov. apply LI_set_quiet with (t := t); auto; [congruence | apply inv_tag_live with (t := t); auto; [exact (li_inv _ L _ _ H) | congruence] |].
  assert (O := li_tag _ L _ _ H). apply (tag_ok_nv s (set_tag s i t')) in O; [|intros k; apply nonvirt_set with (t := t); [exact H | congruence]].
  unfold tag_ok in *. rewrite D', D in *. rewrite V, Ev, Mp, T. destruct O as (O1 & O2 & O3 & O4 & _ & O6). auto 6.
Qed.
Lemma zlen_fresh E st pos size n : 0 <= size <= n -> zlen (zeros size ++ jbytes E st pos (n - size)) = n.
Proof. intros H. rewrite zlen_app, zlen_zeros, zlen_jbytes by lia. lia. Qed.
Lemma moved_tag s s' i t : moved s s' -> znth (s_db s) i = Some t -> exists t', znth (s_db s') i = Some t' /\ wtg t t' /\ data_q (t_data t) (t_data t').
Proof. intros [Q _] H. destruct (lq_tag _ _ _ _ Q H) as (t' & A & B & _ & C). eauto. Qed.
Lemma data_q_bytes d b : data_q (DBytes b) d -> exists b', d = DBytes b' /\ zlen b' = zlen b.
Proof. destruct d; cbn; try discriminate. eauto. Qed.
Lemma ovr_flag a f : f = A_OVERRIDE -> has (set_flag a f) A_OVR_SET = has a A_OVR_SET /\ has (set_flag a f) A_VIRTUAL = has a A_VIRTUAL.
Proof. intros ->. rewrite !has_set_flag. change (has A_OVERRIDE A_OVR_SET) with false. change (has A_OVERRIDE A_VIRTUAL) with false. rewrite !orb_false_r. auto. Qed.
(** the counters of overrides are written to system tags *)
Lemma ov_tail s i t b E ix v : LI s -> znth (s_db s) i = Some t -> t_data t = DBytes b -> 0 <= ix < 9 -> exists s' t', sys_write E ix (le_bytes 4 v) s = Done (s', tt) /\ LI s' /\ znth (s_db s') i = Some t' /\
  wtg t t' /\ exists b', t_data t' = DBytes b' /\ zlen b' = zlen b.
Proof.
  intros L H D Ix. destruct (sys_write_ok E ix (le_bytes 4 v) s L Ix) as (s' & W1 & W2); [rewrite zlen_le_bytes; lia|]. destruct (moved_tag _ _ _ _ W2 H) as (t' & T1 & T2 & T3). rewrite D in T3. apply data_q_bytes in T3.
  exists s', t'. split; [exact W1|]. split; [exact (moved_LI _ _ W2 L)|]. auto.
Qed.
Lemma override_add_fine E i off d m s : LI s ->
  (forall t, znth (s_db s) i = Some t -> t_data t <> DNull -> exists b, t_data t = DBytes b /\ t_type t <> T_BOOL /\ 0 <= off /\ zlen m = zlen d /\ zlen d <= zlen b /\ off + zlen d < 2147483648) -> fine s (override_add E i off d m).
Proof.
  intros L F. unfold override_add. eapply fine_bind; [reflexivity|]. cbv beta. destruct (znth (s_db s) i) as [t|] eqn:Ht; [|apply fine_ret; exact L].
  assert (C : t_data t = DNull \/ t_data t <> DNull) by (destruct (t_data t); auto; right; discriminate). destruct C as [C|C]; [rewrite C; apply fine_ret; exact L|].
  destruct (F _ eq_refl C) as (b & D & Tb & Of & Zm & Zd & Sm). rewrite D. assert (Dn := zlen_nonneg d).
  destruct (li_raw_size s i t L Ht) as (n & N1 & N2 & N3). destruct (N3 _ D) as [_ Nb]. specialize (Nb Tb). eapply fine_bind; [unfold lift; rewrite N1; reflexivity|]. cbv beta zeta.
  assert (O := li_tag _ L _ _ Ht). unfold tag_ok in O. rewrite D in O. destruct O as (_ & _ & _ & _ & Ov & _).
  assert (X : exists s1 t1 od om, (match t_odata t with None => if (0 <=? n) && (n <? zlen d) then undef UOob else if n <? 0 then ret tt
        else put_tag i (set_ovr t (Some (zeros (zlen d) ++ jbytes E (s_step s) 200 (n - zlen d))) (Some (zeros (zlen d) ++ jbytes E (s_step s) 300 (n - zlen d)))) | Some _ => ret tt end) s = Done (s1, tt) /\ LI s1 /\
        znth (s_db s1) i = Some t1 /\ t_data t1 = DBytes b /\ t_odata t1 = Some od /\ t_omask t1 = Some om /\ zlen od = n /\ zlen om = n /\ t_type t1 = t_type t).
  { unfold ovr_ok in Ov. destruct (t_odata t) as [od|] eqn:Eo, (t_omask t) as [om|] eqn:Em; try contradiction.
    - destruct Ov as (O1 & O2 & _). exists s, t, od, om. repeat (split; [solve [reflexivity | assumption | lia]|]). reflexivity.
    - replace (n <? zlen d) with false by lia. rewrite andb_false_r. replace (n <? 0) with false by lia. set (t1 := set_ovr _ _ _). exists (set_tag s i t1), t1. do 2 eexists. split; [reflexivity|].
      assert (R := znth_range _ _ _ Ht). split; [|split; [rewrite znth_set; replace ((i =? i) && (0 <=? i) && (i <? zlen (s_db s))) with true by lia; reflexivity|]].
      + apply LI_set_ovr with (t := t) (b := b); try reflexivity; try assumption. unfold ovr_ok. cbn [t1 t_odata t_omask set_ovr t_type]. rewrite !zlen_fresh by lia. split; [lia | split; [lia | exact Tb]].
      + split; [exact D|]. split; [reflexivity|]. split; [reflexivity|]. rewrite !zlen_fresh by lia. auto. }
  destruct X as (s1 & t1 & od & om & X1 & L1 & H1 & D1 & O1 & O2 & Z1 & Z2 & T1). eapply fine_bind; [exact X1|]. cbv beta. replace (n <? 0) with false by lia. cbn [andb].
  replace (fits32 (off + zlen d)) with true by (unfold fits32; lia). cbn [negb]. destruct (n <? off + zlen d) eqn:Q; [apply fine_ret; exact L1|].
  eapply fine_bind; [unfold tag_at; rewrite H1; reflexivity|]. cbv beta. rewrite O1, O2. replace (in_bounds off (zlen d) (zlen od)) with true by (symmetry; apply in_bounds_iff; lia). replace (in_bounds off (zlen d) (zlen om)) with true by (symmetry; apply in_bounds_iff; lia). cbn [negb orb].
  set (t2 := set_ovr _ _ _). eapply fine_bind; [reflexivity|]. cbv beta. set (s2 := set_tag s1 i t2). assert (R := znth_range _ _ _ H1).
  assert (L2 : LI s2).
  { apply LI_set_ovr with (t := t1) (b := b); try reflexivity; try assumption. unfold ovr_ok. cbn [t2 t_odata t_omask set_ovr t_type]. rewrite !zlen_splice' by (apply in_bounds_iff; lia). rewrite T1. split; [lia | split; [lia | exact Tb]]. }
  assert (H2 : znth (s_db s2) i = Some t2) by (unfold s2; rewrite znth_set; replace ((i =? i) && (0 <=? i) && (i <? zlen (s_db s1))) with true by lia; reflexivity).
  assert (Y : exists s3 t3, (if negb (has (t_attr t1) A_OVERRIDE) then modify (fun s => set_ovi s (s_ovi s + 1)) ;;; s1 <- get ;; sys_write E IX_OVI (le_bytes 4 (s_ovi s1)) else ret tt) s2 = Done (s3, tt) /\ LI s3 /\ znth (s_db s3) i = Some t3 /\
     wtg t2 t3 /\ exists b', t_data t3 = DBytes b' /\ zlen b' = zlen b).
  { destruct (negb _); [|exists s2, t2; split; [reflexivity|]; split; [exact L2|]; split; [exact H2|]; split; [apply wtg_refl|]; exists b; auto].
    set (s2' := set_ovi s2 (s_ovi s2 + 1)). assert (L2' : LI s2') by (apply (LI_same s2); [exact L2|..]; reflexivity).
    destruct (ov_tail s2' i t2 b E IX_OVI (s_ovi s2') L2' H2 D1) as (s3 & t3 & Y1 & Y2); [unfold IX_OVI; lia|]. exists s3, t3. split; [exact Y1 | exact Y2]. }
  destruct Y as (s3 & t3 & Y1 & L3 & H3 & W3 & b3 & D3 & Zb). eapply fine_bind; [exact Y1|]. cbv beta. eapply fine_bind; [unfold tag_at; rewrite H3; reflexivity|]. cbv beta. eapply fine_bind; [reflexivity|]. apply fine_ret.
  destruct (ovr_flag (t_attr t3) A_OVERRIDE eq_refl) as [F1 F2]. set (t4 := set_attr _ _). change (LI (set_tag s3 i t4)). apply LI_set_ovr with (t := t3) (b := b3); try reflexivity; try assumption.
  assert (O := li_tag _ L3 _ _ H3). unfold tag_ok in O. rewrite D3 in O. destruct O as (_ & _ & _ & _ & O & _). unfold ovr_ok in *. change (t_odata t4) with (t_odata t3). change (t_omask t4) with (t_omask t3). change (t_type t4) with (t_type t3). change (t_attr t4) with (set_flag (t_attr t3) A_OVERRIDE). rewrite F1. exact O.
Qed.
Lemma set_at s i t t' : znth (s_db s) i = Some t -> znth (s_db (set_tag s i t')) i = Some t'.
Proof. intros H. apply znth_range in H. rewrite znth_set. replace ((i =? i) && (0 <=? i) && (i <? zlen (s_db s))) with true by lia. reflexivity. Qed.
Lemma ovr_some s i t od : LI s -> znth (s_db s) i = Some t -> t_data t <> DNull -> t_odata t = Some od -> exists b om, t_data t = DBytes b /\ t_omask t = Some om /\ zlen od = zlen b /\ zlen om = zlen b /\ t_type t <> T_BOOL.
Proof.
  intros L H C O. assert (K := li_tag _ L _ _ H). unfold tag_ok, virt_ok in K. destruct (t_data t) as [|b|q| | |]; try contradiction; [| destruct K as (_ & _ & _ & _ & K & _); congruence | destruct K as (_ & _ & _ & K & _); congruence..].
  destruct K as (_ & _ & _ & _ & K & _). unfold ovr_ok in K. rewrite O in K. destruct (t_omask t) as [om|]; [|contradiction]. destruct K as (K1 & K2 & K3). exists b, om. auto.
Qed.
Lemma override_del_fine E i off m s : LI s -> (forall t od, znth (s_db s) i = Some t -> t_odata t = Some od -> 0 <= off /\ off + zlen m <= zlen od) -> fine s (override_del E i off m).
Proof.
  intros L F. unfold override_del. eapply fine_bind; [reflexivity|]. cbv beta. destruct (znth (s_db s) i) as [t|] eqn:Ht; [|apply fine_ret; exact L].
  assert (C : t_data t = DNull \/ t_data t <> DNull) by (destruct (t_data t); auto; right; discriminate). destruct C as [C|C]; [rewrite C; apply fine_ret; exact L|].
  destruct (li_raw_size s i t L Ht) as (n & N1 & N2 & N3).
  assert (G : forall k : SM Z, fine s (bind (lift (raw_size (s_types s) t)) (fun _ => k)) -> fine s (bind (lift (raw_size (s_types s) t)) (fun _ => k))) by auto. clear G.
  set (body := bind (lift (raw_size (s_types s) t)) _). enough (fine s body) by (destruct (t_data t); [congruence | assumption..]). unfold body. clear body.
  eapply fine_bind; [unfold lift; rewrite N1; reflexivity|]. cbv beta. destruct (t_odata t) as [od|] eqn:Eo; [|apply fine_ret; exact L].
  destruct (F _ _ eq_refl Eo) as [F1 F2]. destruct (ovr_some s i t od L Ht C Eo) as (b & om & D & Em & Z1 & Z2 & Tb). rewrite Em. destruct (N3 _ D) as [_ Nb]. specialize (Nb Tb). cbv zeta. assert (Mn := zlen_nonneg m).
  replace (in_bounds off (zlen m) (zlen od)) with true by (symmetry; apply in_bounds_iff; lia). replace (in_bounds off (zlen m) (zlen om)) with true by (symmetry; apply in_bounds_iff; lia). cbn [negb orb]. rewrite andb_false_r.
  set (clr := fun l => splice off (mix (slice off (zlen m) l) (zeros (zlen m)) m) l).
  assert (Lc : forall l, zlen l = zlen b -> zlen (if 0 <? zlen m then clr l else l) = zlen b).
  { intros l Hl. destruct (0 <? zlen m); [|exact Hl]. unfold clr. assert (Sl : zlen (slice off (zlen m) l) = zlen m) by (apply zlen_slice'; lia).
    assert (Mx : zlen (mix (slice off (zlen m) l) (zeros (zlen m)) m) = zlen m). { assert (Zz : zlen (zeros (zlen m)) = zlen m) by (apply zlen_zeros; lia). rewrite <- Sl at 3. unfold zlen at 1 4. f_equal. apply mix_length; [unfold zlen in *; lia | unfold zlen in *; lia]. }
    rewrite zlen_splice'; [exact Hl | apply in_bounds_iff; lia]. }
  set (om' := if 0 <? zlen m then splice off (mix (slice off (zlen m) om) (zeros (zlen m)) m) om else om). set (od' := if 0 <? zlen m then splice off (mix (slice off (zlen m) od) (zeros (zlen m)) m) od else od).
  assert (Zo : zlen od' = zlen b) by (apply (Lc od Z1)). assert (Zm : zlen om' = zlen b) by (apply (Lc om Z2)). clearbody om' od'. clear clr Lc.
  set (t1 := set_ovr t (Some om') (Some od')). eapply fine_bind; [reflexivity|]. cbv beta. set (s1 := set_tag s i t1).
  assert (L1 : LI s1). { apply LI_set_ovr with (t := t) (b := b); try reflexivity; try assumption. unfold ovr_ok. cbn [t1 set_ovr t_odata t_omask t_type]. auto. }
  destruct (existsb _ _); [apply fine_ret; exact L1|]. replace (zlen om' <? n) with false by lia. assert (H1 : znth (s_db s1) i = Some t1) by (eapply set_at; exact Ht).
  set (t2 := set_attr t1 _). eapply fine_bind; [reflexivity|]. cbv beta. set (s2 := set_tag s1 i t2). assert (H2 : znth (s_db s2) i = Some t2) by (eapply set_at; exact H1).
  assert (A1 : has (t_attr t2) A_VIRTUAL = has (t_attr t) A_VIRTUAL) by (apply has_clr_flag; reflexivity).
  assert (A2 : has (t_attr t2) A_OVR_SET = false).
  { change (t_attr t2) with (clr_flag (t_attr t) (A_OVERRIDE + A_OVR_SET)). unfold has, clr_flag. rewrite <- Z.land_assoc. change (Z.land (65535 - (A_OVERRIDE + A_OVR_SET)) A_OVR_SET) with 0. rewrite Z.land_0_r. reflexivity. }
  assert (L2 : LI s2). { apply LI_set_ovr with (t := t1) (b := b); try reflexivity; try assumption. unfold ovr_ok. cbn [t2 t1 set_attr set_ovr t_odata t_omask t_type]. auto. }
  eapply fine_bind; [reflexivity|]. cbv beta. eapply fine_bind; [reflexivity|]. cbv beta. set (s3 := set_ovi s2 (s_ovi s2 - 1)). assert (L3 : LI s3) by (apply (LI_same s2); [exact L2|..]; reflexivity).
  change (LI s3) in L3. destruct (ov_tail s3 i t2 b E IX_OVI (s_ovi s3) L3 H2 D) as (s4 & t4 & Y1 & L4 & H4 & W4 & b4 & D4 & Z4); [unfold IX_OVI; lia|].
  eapply fine_bind; [exact Y1|]. cbv beta. eapply fine_bind; [unfold tag_at; rewrite H4; reflexivity|]. cbv beta. eapply fine_bind; [reflexivity|]. apply fine_ret.
  change (LI (set_tag s4 i (set_ovr t4 None None))). apply LI_set_ovr with (t := t4) (b := b4); try reflexivity; try assumption. unfold ovr_ok. cbn [set_ovr t_odata t_omask t_attr]. rewrite (wg_attr _ _ W4). exact A2.
Qed.
Lemma override_get_fine i off n s : LI s -> (forall t, znth (s_db s) i = Some t -> t_data t <> DNull ->
      0 <= off /\ 0 <= n /\ 2 * n <= 4088 /\ off + n < 2147483648 /\ has (t_attr t) A_VIRTUAL = false /\ (0 < n -> t_omask t <> None)) -> fine s (override_get i off n).
Proof.
  intros L F. unfold override_get. eapply fine_bind; [reflexivity|]. cbv beta. destruct (znth (s_db s) i) as [t|] eqn:Ht; [|apply fine_ret; exact L].
  assert (C : t_data t = DNull \/ t_data t <> DNull) by (destruct (t_data t); auto; right; discriminate). destruct C as [C|C]; [rewrite C; apply fine_ret; exact L|].
  destruct (F _ eq_refl C) as (F1 & F2 & F3 & F4 & F5 & F6). destruct (li_raw_size s i t L Ht) as (z & N1 & N2 & N3).
  assert (O := li_tag _ L _ _ Ht). unfold tag_ok, virt_ok in O. destruct (t_data t) as [|b|q| | |] eqn:D; [congruence | | destruct O as (_ & O & _); congruence | destruct O as (O & _); congruence.. | contradiction].
  destruct (N3 _ eq_refl) as [Nb Nt]. destruct O as (_ & _ & _ & _ & O & _). eapply fine_bind; [unfold lift; rewrite N1; reflexivity|]. cbv beta. replace (fits32 (off + n)) with true by (unfold fits32; lia). cbn [negb].
  destruct (z <? off + n) eqn:Q; [apply fine_ret; exact L|]. destruct (n =? 0) eqn:Qn; [apply fine_ret; exact L|]. replace (n <? 0) with false by lia. replace (MSG_DATA_SIZE <? 2 * n) with false by (unfold MSG_DATA_SIZE; lia). cbn [orb].
  destruct (t_omask t) as [om|] eqn:Om; [|exfalso; apply F6; [lia | reflexivity]]. unfold ovr_ok in O. rewrite Om in O. destruct (t_odata t); [|contradiction]. destruct O as (_ & O & _).
  eapply fine_bind; [unfold lift; rewrite rd_ok by lia; reflexivity|]. cbv beta. eapply fine_bind; [unfold lift; rewrite rd_ok by lia; reflexivity|]. apply fine_ret. exact L.
Qed.
Lemma ovs_tail E i s t v f : LI s -> znth (s_db s) i = Some t -> t_data t <> DNull -> (forall a, has (f a) A_VIRTUAL = has a A_VIRTUAL) -> (forall b, t_data t = DBytes b -> t_odata t <> None) ->
  fine s (modify (fun s => set_ovs s (v s)) ;;; s1 <- get ;; sys_write E IX_OVS (le_bytes 4 (s_ovs s1)) ;;; t2 <- tag_at i ;; put_tag i (set_attr t2 (f (t_attr t2))) ;;; ret 0).
Proof.
  intros L H D Hf Od. eapply fine_bind; [reflexivity|]. cbv beta. set (s1 := set_ovs s (v s)). assert (L1 : LI s1) by (apply (LI_same s); [exact L|..]; reflexivity). eapply fine_bind; [reflexivity|]. cbv beta.
  destruct (sys_write_ok E IX_OVS (le_bytes 4 (s_ovs s1)) s1 L1) as (s2 & W1 & W2); [unfold IX_OVS; lia | rewrite zlen_le_bytes; lia |]. destruct (moved_tag s1 s2 i t W2 H) as (t2 & T1 & T2 & T3).
  assert (L2 := moved_LI _ _ W2 L1). eapply fine_bind; [exact W1|]. cbv beta. eapply fine_bind; [unfold tag_at; rewrite T1; reflexivity|]. cbv beta.
  eapply fine_bind; [reflexivity|]. apply fine_ret. set (t3 := set_attr t2 (f (t_attr t2))). change (LI (set_tag s2 i t3)). assert (Hv : has (t_attr t3) A_VIRTUAL = has (t_attr t2) A_VIRTUAL) by apply Hf.
  apply LI_set_quiet with (t := t2); try reflexivity; try assumption; [congruence | apply inv_tag_live with (t := t2); try reflexivity; [exact (li_inv _ L2 _ _ T1) | exact (data_q_null _ _ T3 D)] |].
  assert (O := li_tag _ L2 _ _ T1). apply (tag_ok_nv s2 (set_tag s2 i t3)) in O; [|intros k; apply nonvirt_set with (t := t2); [exact T1 | congruence]].
  unfold tag_ok, virt_ok in *. change (t_data t3) with (t_data t2). change (t_events t3) with (t_events t2). change (t_maps t3) with (t_maps t2). change (t_odata t3) with (t_odata t2). change (t_omask t3) with (t_omask t2). change (t_type t3) with (t_type t2). rewrite Hv.
  destruct (t_data t2) as [|b2|q| | |] eqn:D2; try exact O. destruct O as (O1 & O2 & O3 & O4 & O5 & O6). split; [exact O1|]. split; [exact O2|]. split; [exact O3|]. split; [exact O4|]. split; [|exact O6].
  unfold ovr_ok in *. change (t_odata t3) with (t_odata t2). change (t_omask t3) with (t_omask t2). change (t_type t3) with (t_type t2). assert (Ob : t_odata t2 <> None).
  { rewrite (wg_odata _ _ T2). destruct (t_data t) as [|b|q| | |]; try discriminate; exact (Od _ eq_refl). }
  destruct (t_odata t2); [exact O5 | congruence].
Qed.
Lemma override_set_fine E i flag s : LI s -> fine s (override_set E i flag).
Proof.
  intros L. unfold override_set. eapply fine_bind; [reflexivity|]. cbv beta. destruct (znth (s_db s) i) as [t|] eqn:Ht; [|apply fine_ret; exact L].
  assert (O := li_tag _ L _ _ Ht). assert (Ob : has (t_attr t) A_OVR_SET = true -> forall b, t_data t = DBytes b -> t_odata t <> None).
  { intros A b D K. unfold tag_ok in O. rewrite D in O. destruct O as (_ & _ & _ & _ & O & _). unfold ovr_ok in O. rewrite K in O. destruct (t_omask t); [contradiction | congruence]. }
  destruct (t_data t) as [|b|q| | |] eqn:D; [apply fine_ret; exact L | ..].
  all: destruct (negb (flag =? 0));
    [ destruct (t_odata t) eqn:Od; [|apply fine_ret; exact L]; destruct (has (t_attr t) A_OVR_SET) eqn:Q; [apply fine_ret; exact L|];
      apply (ovs_tail E i s t (fun s => s_ovs s + 1) (fun a => set_flag a A_OVR_SET)); try assumption;
        [congruence | intros a; rewrite has_set_flag; change (has A_OVR_SET A_VIRTUAL) with false; apply orb_false_r | congruence]
    | destruct (has (t_attr t) A_OVR_SET) eqn:Q; [|apply fine_ret; exact L];
      apply (ovs_tail E i s t (fun s => s_ovs s - 1) (fun a => clr_flag a A_OVR_SET)); try assumption; [congruence | intros a; apply has_clr_flag; reflexivity | rewrite D; apply Ob; reflexivity]].
Qed.

(** ** Types *)
Lemma serialize_ok s ty : wf (s_types s) -> zlen (s_types s) <= 2147483648 -> exists x, serialize_datatype (s_types s) ty = Done x.
Proof.
  intros W B. unfold serialize_datatype. destruct (_ <=? _); [eauto|]. destruct (znth (s_types s) (cdt_index ty)) as [c|] eqn:H; [|eauto]. assert (R := znth_range _ _ _ H).
  destruct (serialize_described (s_types s) (c_members c) W B) as (ds & _ & S); [|rewrite S; cbn [rbind]; eauto].
  eapply Forall_impl; [|exact (ty_members _ _ (wf_type _ W _ _ H))]. intros m (A & C & D). split; [exact A|]. split; [exact C|]. destruct D as [D|(j & J & D)]; [left; exact D | right; exists j; split; [lia | exact D]].
Qed.
Lemma h_cdt_get_fine fd ty s : LI s -> wf (s_types s) -> zlen (s_types s) <= 2147483648 -> fine s (h_cdt_get fd ty).
Proof.
  intros L W B. unfold h_cdt_get. eapply fine_bind; [reflexivity|]. cbv beta. destruct (serialize_ok s ty W B) as [x X]. eapply fine_bind; [unfold lift; rewrite X; reflexivity|]. destruct x as [d|e]; [|apply reply_err_fine; exact L].
  destruct (_ <? _); [apply reply_err_fine | apply respond_fine]; exact L.
Qed.
Lemma append_total ts : forall f ms x, (length x < f)%nat -> exists r, append_all f ts ms x = Done r.
Proof.
  induction f as [|f IH]; intros ms x H; [lia|]. cbn [append_all]. destruct (strtok 58 x) as [[m x']|] eqn:S; [|eauto]. apply strtok_spec in S as (_ & _ & S & _). destruct (cdt_append ts ms m); [apply IH; lia | eauto].
Qed.
Lemma create_total s def nm rest : wf (s_types s) -> zlen (s_types s) <= 2147483648 -> strtok 58 def = Some (nm, rest) -> find_base nm base_names = None -> exists x, cdt_create (s_types s) def = Done x.
Proof.
  intros W B St Fb. unfold cdt_create. rewrite St. destruct (negb (validate_name nm =? 0)); [eauto|]. cbv zeta. destruct (cdt_get_type (s_types s) nm =? 0) eqn:Q; cbn [negb].
  - destruct (append_total (s_types s) (S (length rest)) [] rest) as [r R]; [lia|]. rewrite R. cbn [rbind]. destruct r; eauto.
  - unfold cdt_get_type in *. rewrite Fb in *. destruct (find_cdt nm (s_types s) 0) as [j|] eqn:Fc; [|discriminate]. apply find_cdt_spec in Fc as [J (c & Fc & _)]. rewrite Z.sub_0_r in Fc. assert (R := znth_range _ _ _ Fc).
    destruct (custom_type j) as [_ Ix]; [lia|]. destruct (serialize_ok s (cdt_type j) W B) as [x X]. rewrite X. cbn [rbind]. unfold serialize_datatype in X. rewrite Ix in X. replace (zlen (s_types s) <=? j) with false in X by lia. rewrite Fc in X.
    apply rbind_done in X as (r & _ & X). injection X as <-. destruct (name_eqb _ _); eauto.
Qed.
Lemma LI_types s x : LI s -> LI (set_types s (s_types s ++ x)).
Proof.
  intros [A B C D F G H I J]. constructor; auto.
  - intros i t Ht. eapply inv_tag_wtag; [exact (A _ _ Ht) | apply wtag_refl].
  - intros i t n Ht Hn. assert (K := A _ _ Ht). destruct (it_size _ _ K) as [n0 N0]. assert (N1 := new_size_app _ x _ _ _ (it_type _ _ K) N0). cbn in Hn. assert (n = n0) by congruence. subst. exact (B _ _ _ Ht N0).
  - intros i t Ht. eapply tag_ok_nv; [|exact (C _ _ Ht)]. intros k X. exact X.
Qed.
Lemma h_cdt_create_fine E fd def s nm rest : LI s -> wf (s_types s) -> zlen (s_types s) <= 2147483648 -> strtok 58 def = Some (nm, rest) -> find_base nm base_names = None -> fine s (h_cdt_create E fd def).
Proof.
  intros L W B St Fb. unfold h_cdt_create. eapply fine_bind; [reflexivity|]. cbv beta. destruct (create_total s def nm rest W B St Fb) as [[[ts ty] e] X]. eapply fine_bind; [unfold lift; rewrite X; reflexivity|]. cbv beta zeta match.
  eapply fine_bind; [reflexivity|]. cbv beta. destruct (cdt_create_grows _ _ _ _ _ X) as [x ->]. assert (L' := LI_types s x L). destruct (_ <? 0); [apply reply_err_fine | apply respond_fine]; exact L'.
Qed.
