(** * SafeTags: adding and removing tags, connecting and disconnecting stay defined *)
From Verif Require Import Base Const Types State Events Atomic Server Lib SearchProofs Shape Inv Reach Spec Frame WRel Effects Out DataFrame ModInv IdInv TypesProofs Safe SafeLoops SafeInv SafeWrite SafeOps.

(** ** Sizes *)
Lemma members_nonneg tsz : forall ms pos n, 0 <= pos -> members_bits tsz ms pos = Done n -> 0 <= n.
Proof.
  induction ms as [|m ms IH]; intros pos n P H; cbn [members_bits] in H; [injection H as <-; exact P|].
  assert (U : forall x, 0 <= u32 x) by (intros x; unfold u32; apply Z.mod_pos_bound; lia). destruct (_ =? _); [apply IH in H; auto|]. cbv zeta in H. destruct (is_custom _).
  - apply rbind_done in H as (z & _ & H). destruct (0 <? z); [apply IH in H; auto | discriminate].
  - apply IH in H; auto.
Qed.
Lemma typesize_nonneg t : 0 <= typesize_bits t.
Proof. unfold typesize_bits. repeat (destruct (_ =? _) || destruct (_ || _)); lia. Qed.
Lemma type_size_nonneg ts t n : checktype ts t = true -> type_size ts t = Done n -> 0 <= n.
Proof.
  intros C. unfold type_size. cbn [type_size_f]. rewrite C. cbn [negb]. destruct (is_custom t).
  - destruct (znth ts _) as [c|]; [|discriminate]. intros H. apply rbind_done in H as (p & H & K). apply members_nonneg in H; [|lia]. injection K as <-. unfold bits_to_bytes. destruct (p =? 0); lia.
  - intros [= <-]. assert (H := typesize_nonneg t). lia.
Qed.
(** the size of a new tag *)
Lemma new_size_ok ts type count n : checktype ts type = true -> type_size ts type = Done n -> n * count < 2147483648 -> 0 < count < 4294967296 ->
  exists z, new_size ts type count = Done z /\ 0 <= z < 2147483648 /\ ((type = T_BOOL /\ z = count / 8 + 1) \/ (type <> T_BOOL /\ z = n * count)).
Proof.
  intros C T B R. unfold new_size. destruct (type =? T_BOOL) eqn:Q; [eexists; split; [reflexivity|]; split; [lia | left; split; lia]|]. rewrite T. cbn [rbind]. assert (N := type_size_nonneg _ _ _ C T).
  eexists; split; [reflexivity|]. rewrite u32_id by nia. split; [nia | right; split; lia].
Qed.

(** ** Retention *)
Lemma member_index ts i c m : wf ts -> znth ts i = Some c -> In m (c_members c) -> is_custom (cm_type m) = true -> zlen ts <= 2147483648 -> exists j, 0 <= j < i /\ cm_type m = cdt_type j /\ cdt_index (cm_type m) = j.
Proof.
  intros W H I C B. assert (R := znth_range _ _ _ H). assert (M := ty_members _ _ (wf_type _ W _ _ H)). rewrite Forall_forall in M. destruct (M _ I) as (_ & _ & [K|(j & J & K)]).
  - exfalso. revert K C. unfold base_types. cbn [In]. intros K. repeat (destruct K as [<-|K]; [discriminate|]). destruct K.
  - exists j. split; [exact J|]. split; [exact K|]. rewrite K. apply custom_type. lia.
Qed.
Lemma ret_add_type_ok ts open : wf ts -> zlen ts <= 2147483648 -> forall k t rows, storable ts t -> cdt_index t < Z.of_nat k -> exists r, ret_add_type k ts open t rows = Done r.
Proof.
  intros W B. induction k as [|k IH]; intros t rows S K; inversion S as [t0 c P H F]; subst t0; [lia|]. cbn [ret_add_type]. cbv zeta. assert (R := znth_range _ _ _ H).
  replace (0 <? cdt_index t) with true by lia. replace (cdt_index t <? zlen ts) with true by lia. cbn [andb negb]. rewrite H.
  assert (X : forall ms rows, (forall m, In m ms -> In m (c_members c)) -> exists r, fold_left (fun acc m => r <-- acc ;; if is_custom (cm_type m) then ret_add_type k ts open (cm_type m) r else Done r) ms (Done rows) = Done r).
  { induction ms as [|m ms IHm]; intros rows0 Sub; cbn [fold_left rbind]; [eauto|]. assert (Y : exists r, (if is_custom (cm_type m) then ret_add_type k ts open (cm_type m) rows0 else Done rows0) = Done r).
    { destruct (is_custom (cm_type m)) eqn:C; [|eauto]. destruct (member_index ts _ c m W H) as (j & J & _ & Jx); [apply Sub; left; reflexivity | exact C | exact B |]. apply IH; [apply F; [apply Sub; left; reflexivity | exact C] | lia]. }
    destruct Y as [r Y]. rewrite Y. apply IHm. intros y I. apply Sub. right. exact I. }
  destruct (X (c_members c) rows) as [r Hr]; [auto|]. rewrite Hr. cbn [rbind]. unfold serialize_datatype. replace (zlen ts <=? cdt_index t) with false by lia. rewrite H.
  destruct (serialize_described ts (c_members c) W B) as (ds & _ & Sd); [|rewrite Sd; cbn [rbind]; eauto].
  eapply Forall_impl; [|exact (ty_members _ _ (wf_type _ W _ _ H))]. intros m (A & C & D). split; [exact A|]. split; [exact C|]. destruct D as [D|(j & J & D)]; [left; exact D | right; exists j; split; [lia | exact D]].
Qed.
Lemma ret_add_tag_ok ts r t nm : wf ts -> zlen ts <= 2147483648 -> t_name t = Some nm -> (is_custom (t_type t) = true -> storable ts (t_type t)) -> exists x, ret_add_tag ts r t = Done x.
Proof.
  intros W B N S. unfold ret_add_tag. assert (X : exists ty, (if is_custom (t_type t) then ret_add_type (Datatypes.S (length ts)) ts (r_open r) (t_type t) (r_types r) else Done (r_types r)) = Done ty).
  { destruct (is_custom (t_type t)); [|eauto]. specialize (S eq_refl). apply ret_add_type_ok; auto. inversion S as [t0 c P H F]. apply znth_range in H. unfold zlen in H. lia. }
  destruct X as [ty X]. rewrite X. cbn [rbind]. destruct (negb _); [eauto|]. rewrite N. cbv zeta. destruct (existsb _ _); eauto.
Qed.
(** the attributes a request may set *)
Definition plain_flag (f : Z) : Prop := f = 0 \/ f = A_RETAIN \/ f = A_OWNED + A_READONLY \/ f = A_OWNED.
Lemma plain_has a f g : plain_flag f -> g = A_VIRTUAL \/ g = A_OVR_SET \/ g = A_SPECIAL -> has (Z.lor a f) g = has a g.
Proof.
  intros P G. change (Z.lor a f) with (set_flag a f). rewrite has_set_flag. replace (has f g) with false; [apply orb_false_r|].
  destruct P as [-> |[-> |[-> | -> ]]]; destruct G as [-> |[-> | -> ]]; reflexivity.
Qed.
Lemma tag_ok_attr s i t r a : tag_ok s i t -> t_data t <> DNull -> has a A_VIRTUAL = has (t_attr t) A_VIRTUAL -> has a A_OVR_SET = has (t_attr t) A_OVR_SET -> tag_ok s i (set_attr (set_retid t r) a).
Proof.
  intros O D V W. set (t' := set_attr _ _). unfold tag_ok, virt_ok, ovr_ok in *. change (t_data t') with (t_data t). change (t_events t') with (t_events t). change (t_maps t') with (t_maps t). change (t_odata t') with (t_odata t).
  change (t_omask t') with (t_omask t). change (t_type t') with (t_type t). change (t_attr t') with a. rewrite V, W. exact O.
Qed.
Lemma LI_attr s i t r a : LI s -> znth (s_db s) i = Some t -> t_data t <> DNull -> has a A_VIRTUAL = has (t_attr t) A_VIRTUAL -> has a A_OVR_SET = has (t_attr t) A_OVR_SET -> LI (set_tag s i (set_attr (set_retid t r) a)).
Proof.
  intros L H D V W. apply LI_set_quiet with (t := t); try reflexivity; [exact L | exact H | change (has a A_VIRTUAL = true -> has (t_attr t) A_VIRTUAL = true); congruence | |].
  - apply inv_tag_live with (t := t); try reflexivity; [exact (li_inv _ L _ _ H) | exact D].
  - apply tag_ok_attr; try assumption. eapply tag_ok_nv; [|exact (li_tag _ L _ _ H)]. intros k. apply nonvirt_set with (t := t); [exact H|]. change (has a A_VIRTUAL = true -> has (t_attr t) A_VIRTUAL = true). congruence.
Qed.
Lemma set_attribute_ok E i a s t nm : LI s -> wf (s_types s) -> zlen (s_types s) <= 2147483648 -> znth (s_db s) i = Some t -> t_name t = Some nm ->
  (has a A_RETAIN = true -> is_custom (t_type t) = true -> storable (s_types s) (t_type t)) -> fine s (set_attribute E i a).
Proof.
  intros L W B H N S. assert (D : t_data t <> DNull). { intros D. apply (it_live _ _ (li_inv _ L _ _ H)) in D. congruence. }
  assert (X : exists s', set_attribute E i a s = Done (s', tt)).
  { unfold set_attribute. rewrite H. destruct (has a A_RETAIN) eqn:Q; [|destruct (_ && _); [|destruct (has a A_OWNED)]; eauto]. destruct (ret_add_tag_ok (s_types s) (s_ret s) t nm W B N (S eq_refl)) as [x X]. rewrite X. cbn [rbind]. eauto. }
  destruct X as [s' X]. exists s', tt. split; [exact X|]. destruct (set_attribute_spec _ _ _ _ _ _ X) as (t0 & r & f & x & H1 & P & ->). assert (t0 = t) by congruence. subst t0.
  apply (LI_same (set_tag s i (set_attr (set_retid t r) (Z.lor (t_attr t) f)))); try reflexivity. apply LI_attr; auto; apply plain_has; auto.
Qed.

(** ** Adding a tag *)
Lemma LI_push s t ix c : LI s -> inv_tag (s_types s) t -> (forall n, new_size (s_types s) (t_type t) (t_count t) = Done n -> n < 2147483648) -> t_events t = [] ->
  (forall s', tag_ok s' (zlen (s_db s)) t) -> LI (set_tagcount (set_index (set_db s (s_db s ++ [t])) ix) c).
Proof.
  intros [A B C D F G H I J] It Sz Ev Ok. set (s' := set_tagcount _ _). assert (N : forall k, nonvirt s k -> nonvirt s' k).
  { intros k (u & U & V). exists u. split; [|exact V]. cbn. rewrite znth_app1; [exact U | apply znth_range in U; lia]. }
  assert (Z1 : forall j u, znth (s_db s') j = Some u -> znth (s_db s) j = Some u \/ (j = zlen (s_db s) /\ u = t)).
  { intros j u Hj. cbn in Hj. destruct (Z_lt_le_dec j (zlen (s_db s))) as [Q|Q]; [left; rewrite znth_app1 in Hj by lia; exact Hj|]. right. assert (R := znth_range _ _ _ Hj). rewrite zlen_app in R. change (zlen [t]) with 1 in R.
    assert (j = zlen (s_db s)) by lia. subst j. rewrite znth_last in Hj. split; congruence. }
  constructor; auto.
  - intros j u Hj. apply Z1 in Hj as [Hj|[-> -> ]]; [exact (A _ _ Hj) | exact It].
  - intros j u n Hj. apply Z1 in Hj as [Hj|[-> -> ]]; [exact (B _ _ _ Hj) | apply Sz].
  - intros j u Hj. apply Z1 in Hj as [Hj|[-> -> ]]; [eapply tag_ok_nv; [exact N | exact (C _ _ Hj)] | apply Ok].
  - intros j u Hj. apply Z1 in Hj as [Hj|[-> -> ]]; [exact (D _ _ Hj) | rewrite Ev; intros e []].
  - intros m Im. change (osum (m_uid m) (s_db s ++ [t]) <= m_evcount m). rewrite osum_app, osum_cons. change (osum (m_uid m) []) with 0. unfold owned_in. rewrite Ev. assert (K := F _ Im). change (zlen (filter (fun e => e_mod e =? m_uid m) [])) with 0. lia.
Qed.
Lemma zlen_desc E st i ty c a nm : zlen (tag_desc E st i ty c a nm) <= 47.
Proof. unfold tag_desc. rewrite !zlen_app, !zlen_le_bytes. unfold zlen. rewrite firstn_length. lia. Qed.
Lemma new_queue_ok n : queue_ok (new_queue n).
Proof.
  constructor; cbn [new_queue q_slots q_read q_count q_blocks]; try (change (zlen (repeat SNull 16)) with 16; lia).
  - intros i K. apply znth_In in K. apply repeat_spec in K. discriminate.
  - intros i k K. apply znth_In in K. apply repeat_spec in K. discriminate.
  - intros d [].
Qed.
Lemma new_tag_ok E s fd nm type count size s' : 0 <= size < 2147483648 -> room E s -> tag_ok s' (zlen (s_db s)) (new_tag E fd (zlen (s_db s)) nm type count size).
Proof.
  intros Sz Rm. assert (A : fresh_attr E (zlen (s_db s)) = 0 /\ (if (zlen (s_db s) <? 1024) || en_maps0 E (zlen (s_db s)) then Some [] else None) = Some (@nil dmap)).
  { unfold room, fresh_attr in *. destruct (zlen (s_db s) <? 1024) eqn:Q; [auto|]. destruct Rm as [Rm|[R1 R2]]; [lia|]. rewrite R1, R2. auto. }
  destruct A as [A1 A2]. unfold new_tag. rewrite A1, A2. unfold tag_ok, virt_ok, ovr_ok. cbn [t_data t_attr t_events t_maps t_odata t_omask t_type]. destruct (is_queue type) eqn:Q.
  - split; [apply new_queue_ok|]. repeat split.
  - rewrite zlen_zeros by lia. repeat split; try constructor; try lia. exists []. split; [reflexivity | intros m []].
Qed.
Lemma moved_len s s' : moved s s' -> zlen (s_db s') = zlen (s_db s).
Proof. intros [[Q _] _]. exact (wr_len _ _ Q). Qed.
Lemma moved_types s s' : moved s s' -> s_types s' = s_types s.
Proof. intros [[Q _] _]. exact (proj1 (proj2 (srest_mods _ _ (wr_rest _ _ Q)))). Qed.
Lemma tag_add_fine E fd nm type count attr s : Inv s -> LI s -> wf (s_types s) -> zlen (s_types s) <= 2147483648 -> 0 <= count < 4294967296 -> tag_add_ok E s nm type count attr -> fine s (tag_add E fd nm type count attr).
Proof.
  intros I L W B Hc (Rm & (n & Tn & Nc & Gr) & St). unfold tag_add. destruct (count =? 0) eqn:C0; [apply fine_ret; exact L|]. eapply fine_bind; [reflexivity|]. cbv beta.
  set (s0 := if s_dbsize s <=? zlen (s_db s) then set_dbsize s (s_dbsize s * 2) else s).
  assert (X : (if s_dbsize s <=? zlen (s_db s) then put (set_dbsize s (s_dbsize s * 2)) else ret tt) s = Done (s0, tt)) by (unfold s0; destruct (_ <=? _); reflexivity).
  assert (S0 : s_db s0 = s_db s /\ s_index s0 = s_index s /\ s_types s0 = s_types s /\ s_step s0 = s_step s /\ s_mods s0 = s_mods s /\ s_moduuid s0 = s_moduuid s) by (unfold s0; destruct (_ <=? _); repeat split).
  clearbody s0. destruct S0 as (Edb & Eix & Ety & Est & Emo & Euu). assert (L0 : LI s0) by (apply (LI_same s); auto).
  eapply fine_bind; [exact X|]. cbv beta. eapply fine_bind; [reflexivity|]. cbv beta. rewrite Ety, Eix, Est, Edb.
  destruct (checktype (s_types s) type) eqn:Ck; cbn [negb]; [|apply fine_ret; exact L0]. destruct (validate_name nm =? 0) eqn:Vn; cbn [negb]; [|apply fine_ret; exact L0].
  destruct (new_size_ok _ _ _ _ Ck Tn Nc) as (z & Z1 & Z2 & Z3); [lia|]. eapply fine_bind; [unfold lift; rewrite Z1; reflexivity|]. cbv beta.
  destruct (name_lookup s nm I) as (i & I1 & I2). eapply fine_bind; [unfold lift; rewrite I1; reflexivity|]. cbv beta.
  destruct I2 as [[-> Hno]|(t & Ht & Hn)].
  - change (0 <=? E_NOTFOUND) with false. cbv zeta iota. assert (Hno' : forall t, ~ In (nm, t) (s_index s)). { intros j J. apply (iv_index _ I) in J as (u & U1 & U2). exact (Hno _ _ U1 U2). }
    destruct (add_index_ok (s_index s) nm (zlen (s_db s)) (iv_sorted _ I) Hno') as (l & r & _ & A2 & _). eapply fine_bind; [unfold lift; rewrite A2; reflexivity|]. cbv beta.
    destruct (sys_write_ok E IX_LASTINDEX (le_bytes 4 (zlen (s_db s))) s0 L0) as (s1 & W1 & M1); [unfold IX_LASTINDEX; lia | rewrite zlen_le_bytes; lia |]. eapply fine_bind; [exact W1|]. cbv beta.
    assert (L1 := moved_LI _ _ M1 L0). assert (N1 := moved_len _ _ M1). assert (T1 := moved_types _ _ M1). rewrite Edb in N1. rewrite Ety in T1.
    eapply fine_bind; [reflexivity|]. cbv beta. match goal with |- fine (set_tagcount (set_index (set_db _ (_ ++ [?t])) _) _) _ => change t with (new_tag E fd (zlen (s_db s)) nm type count z) end.
    set (t := new_tag E fd (zlen (s_db s)) nm type count z). set (ix := l ++ _). set (s2 := set_tagcount _ _).
    assert (L2 : LI s2).
    { apply LI_push; [exact L1 | rewrite T1; apply inv_new_tag; try assumption; lia | | reflexivity |].
      - intros k. rewrite T1. change (new_size (s_types s) type count = Done k -> k < 2147483648). rewrite Z1. intros [= <-]. lia.
      - intros s'. rewrite N1. apply new_tag_ok; [lia | exact Rm]. }
    assert (H2 : znth (s_db s2) (zlen (s_db s)) = Some t) by (cbn; rewrite <- N1; apply znth_last).
    eapply fine_bind; [reflexivity|]. cbv beta. destruct (sys_write_ok E IX_TAGCOUNT (le_bytes 4 (s_tagcount s2)) s2 L2) as (s3 & W3 & M3); [unfold IX_TAGCOUNT; lia | rewrite zlen_le_bytes; lia |]. eapply fine_bind; [exact W3|]. cbv beta.
    assert (L3 := moved_LI _ _ M3 L2). destruct (moved_tag _ _ _ _ M3 H2) as (t3 & H3 & G3 & _). assert (T3 : s_types s3 = s_types s) by (rewrite (moved_types _ _ M3); exact T1).
    destruct (set_attribute_ok E (zlen (s_db s)) attr s3 t3 nm L3) as (s4 & u & W4 & L4); [rewrite T3; exact W | rewrite T3; exact B | exact H3 | rewrite (wg_name _ _ G3); reflexivity | rewrite (wg_type _ _ G3), T3; exact St |].
    eapply fine_bind; [exact W4|]. cbv beta. destruct (sys_tag_write_ok E IX_ADDED (tag_desc E (s_step s) (zlen (s_db s)) type count (u16 attr) nm) s4 L4) as (s5 & r5 & W5 & M5); [unfold IX_ADDED; lia | assert (Zd := zlen_desc E (s_step s) (zlen (s_db s)) type count (u16 attr) nm); lia |].
    eapply fine_bind; [exact W5|]. apply fine_ret. exact (moved_LI _ _ M5 L4).
  - assert (R := znth_range _ _ _ Ht). replace (0 <=? i) with true by lia. eapply fine_bind; [unfold tag_at; rewrite Edb, Ht; reflexivity|]. cbv beta. destruct (_ && _); [apply fine_ret; exact L0|].
    destruct (t_type t =? type) eqn:Qt; [|apply fine_ret; exact L0]. assert (t_type t = type) by lia. subst type. clear Qt. assert (Ht0 := Ht). rewrite <- Edb in Ht0. destruct (count <=? t_count t) eqn:Qc.
    + destruct (set_attribute_ok E i attr s0 t nm L0) as (s1 & u & W1 & L1); [rewrite Ety; exact W | rewrite Ety; exact B | exact Ht0 | exact Hn | rewrite Ety; exact St |]. eapply fine_bind; [exact W1|]. apply fine_ret. exact L1.
    + destruct (Gr i t Ht Hn eq_refl) as (Gq & Go & Gz); [lia|]. assert (Zp : 0 < z). { destruct Z3 as [[_ ->]|[Z3 ->]]; [lia|]. assert (Nn := type_size_nonneg _ _ _ Ck Tn). destruct Gz as [Gz|Gz]; [contradiction | nia]. }
      assert (It := li_inv _ L _ _ Ht). assert (Ok := li_tag _ L0 _ _ Ht0).
      assert (Y : exists d, regrow E (s_step s) (t_data t) z = (d, true) /\ ((d = t_data t /\ forall b, t_data t <> DBytes b) \/ exists b b', t_data t = DBytes b /\ d = DBytes b' /\ zlen b' = z /\ zlen b <= z) /\ (forall q, t_data t <> DQueue q) /\ t_data t <> DNull).
      { assert (Dn : t_data t <> DNull) by (eapply dead_not_named; [exact It | exact Hn]). unfold regrow. replace (z =? 0) with false by lia. destruct (t_data t) as [|b|q| | |] eqn:D; try congruence.
        - eexists. split; [reflexivity|]. split; [|split; congruence]. right. do 2 eexists. split; [reflexivity|]. split; [reflexivity|]. assert (Bn := it_bytes _ _ It _ D).
          assert (Lb : zlen b <= z). { revert Bn Z1. unfold new_size. destruct (t_type t =? T_BOOL); [intros [= <-] [= <-]; lia|]. rewrite Tn. cbn [rbind]. assert (Nn := type_size_nonneg _ _ _ Ck Tn). assert (Ct := it_count _ _ It).
            intros [= <-] [= <-]. rewrite !u32_id by nia. nia. }
          split; [|exact Lb]. rewrite zlen_app, zlen_firstn, zlen_jbytes. assert (Bz := zlen_nonneg b). lia.
        - eexists. split; [reflexivity|]. split; [left; split; [exact (eq_sym D) || reflexivity | congruence] | split; congruence].
        - eexists. split; [reflexivity|]. split; [left; split; [exact (eq_sym D) || reflexivity | congruence] | split; congruence].
        - exfalso. unfold tag_ok in Ok. rewrite D in Ok. exact Ok. }
      destruct Y as (d & Y1 & Y2 & Y3 & Y4). rewrite Y1. set (t' := set_count (set_data t d) count).
      assert (It' : inv_tag (s_types s0) t').
      { rewrite Ety. destruct It as [i1 i2 i3 i4 i5 i6 i7]. constructor; cbn.
        - split; [congruence|]. intros ->. exfalso. destruct Y2 as [[Y2 _]|(b & b' & _ & Y2 & _)]; congruence.
        - intros ->. exfalso. destruct Y2 as [[Y2 _]|(b & b' & _ & Y2 & _)]; congruence.
        - intros b Db. destruct Y2 as [[Y2 Y6]|(b1 & b' & Y2 & Y5 & Y6 & _)]; [exfalso; apply (Y6 b); congruence|]. assert (b' = b) by congruence. subst b'. rewrite Y6. exact Z1.
        - eauto. - exact i5. - lia. - exact i7. }
      assert (L1 : LI (set_tag s0 i t')).
      { apply LI_set_tag with (t := t); auto.
        - intros k. rewrite Ety. change (new_size (s_types s) (t_type t) count = Done k -> k < 2147483648). rewrite Z1. intros [= <-]. lia.
        - assert (Nv : forall k, nonvirt s0 k -> nonvirt (set_tag s0 i t') k) by (intros k; apply nonvirt_set with (t := t); auto). unfold tag_ok in *. change (t_data t') with d. destruct Y2 as [[-> Y6]|(b & b' & D1 & -> & D2 & D3)].
          + destruct (t_data t) as [|b|q| | |] eqn:D; try assumption; try congruence.
          + rewrite D1 in Ok. destruct Ok as (O1 & O2 & O3 & (l & O4 & O5) & O6 & O7). split; [exact O1|]. rewrite D2. split; [lia|]. split; [eapply Forall_impl; [|exact O3]; intros e; apply ev_ok_le; lia|].
            split; [exists l; split; [exact O4|]; intros m Im; eapply map_ok_mono; [|apply Nv | exact (O5 _ Im)]; lia|]. split; [|exact O7]. unfold ovr_ok in *. change (t_odata t') with (t_odata t). change (t_omask t') with (t_omask t). change (t_attr t') with (t_attr t).
            rewrite Go in *. exact O6.
        - exact (li_own _ L0 _ _ Ht0).
        - intros m Im. rewrite (osum_zset _ _ _ _ _ Ht0). change (owned_in (m_uid m) t') with (owned_in (m_uid m) t). assert (K := li_cnt _ L0 _ Im). lia. }
      eapply fine_bind; [reflexivity|]. cbv beta. change (put_tag i t' s0) with (Done (set_tag s0 i t', tt)). 
      destruct (set_attribute_ok E i attr (set_tag s0 i t') t' nm L1) as (s2 & u & W2 & L2); [change (wf (s_types s0)); rewrite Ety; exact W | change (zlen (s_types s0) <= 2147483648); rewrite Ety; exact B | eapply set_at; exact Ht0 | exact Hn | change (s_types (set_tag s0 i t')) with (s_types s0); rewrite Ety; exact St |].
      eapply fine_bind; [exact W2|]. cbv beta. destruct (sys_tag_write_ok E IX_ADDED (le_bytes 4 i) s2 L2) as (s3 & r3 & W3 & M3); [unfold IX_ADDED; lia | rewrite zlen_le_bytes; lia |]. eapply fine_bind; [exact W3|]. apply fine_ret. exact (moved_LI _ _ M3 L2).
Qed.



(** ** Removing a tag *)
(** no event appears *)
Lemma dec_null d : d = DNull \/ d <> DNull.
Proof. destruct d; auto; right; discriminate. Qed.
Definition evsub (s s' : server) : Prop := forall i t', znth (s_db s') i = Some t' -> exists t, znth (s_db s) i = Some t /\ forall e', In e' (t_events t') -> exists e, In e (t_events t) /\ e_mod e' = e_mod e.
Definition gone (uid : Z) (s : server) : Prop := forall i t, znth (s_db s) i = Some t -> forall e, In e (t_events t) -> e_mod e <> uid.
Lemma evsub_refl s : evsub s s.
Proof. intros i t H. exists t. split; [exact H|]. eauto. Qed.
Lemma evsub_trans a b c : evsub a b -> evsub b c -> evsub a c.
Proof.
  intros P Q i t H. destruct (Q _ _ H) as (t1 & H1 & E1). destruct (P _ _ H1) as (t2 & H2 & E2). exists t2. split; [exact H2|]. intros e I. destruct (E1 _ I) as (e1 & I1 & M1). destruct (E2 _ I1) as (e2 & I2 & M2).
  exists e2. split; [exact I2 | congruence].
Qed.
Lemma evsub_gone uid s s' : evsub s s' -> gone uid s -> gone uid s'.
Proof. intros P G i t H e I. destruct (P _ _ H) as (t1 & H1 & E1). destruct (E1 _ I) as (e1 & I1 & ->). exact (G _ _ H1 _ I1). Qed.
Lemma evsub_moved s s' : moved s s' -> evsub s s'.
Proof.
  intros [Q _] i t' H. destruct (lq_back _ _ _ _ Q H) as (t & H1 & _ & Ek & _). exists t. split; [exact H1|]. intros e' I. destruct (ekey_in _ _ _ Ek I) as (e & I1 & K). exists e. split; [exact I1|].
  apply stat_mod. exact (f_equal fst K).
Qed.
Lemma evsub_set s i t t' : znth (s_db s) i = Some t -> (forall e, In e (t_events t') -> In e (t_events t)) -> evsub s (set_tag s i t').
Proof.
  intros H P j u Hj. rewrite znth_set in Hj. destruct (_ && _) eqn:Q; [|exists u; split; [exact Hj | eauto]]. injection Hj as <-. assert (j = i) by lia. subst j. exists t. split; [exact H | eauto].
Qed.
Lemma evsub_db s s' : s_db s' = s_db s -> evsub s s'.
Proof. intros Q i t H. rewrite Q in H. exists t. split; [exact H | eauto]. Qed.
Lemma LI_drop s i t t' : LI s -> znth (s_db s) i = Some t -> t_events t' = [] -> (has (t_attr t') A_VIRTUAL = true -> has (t_attr t) A_VIRTUAL = true) -> t_type t' = t_type t -> t_count t' = t_count t ->
  inv_tag (s_types s) t' -> tag_ok (set_tag s i t') i t' -> LI (set_tag s i t').
Proof.
  intros L H Ev V T C It Ok. apply LI_set_tag with (t := t); auto.
  - rewrite T, C. intros n. apply (li_size _ L _ _ _ H).
  - rewrite Ev. intros e [].
  - intros m Im. rewrite (osum_zset _ _ _ _ _ H). assert (K := li_cnt _ L _ Im). assert (O := owned_nonneg (m_uid m) t). unfold owned_in at 2. rewrite Ev. change (zlen (filter (fun e => e_mod e =? m_uid m) [])) with 0. lia.
Qed.
Lemma tag_del_live E i s t nm mp : znth (s_db s) i = Some t -> t_data t <> DNull -> t_name t = Some nm -> t_maps t = Some mp -> tag_del E i s =
  (o <- lift (del_events (s_mods s) i (data_block (t_data t)) (t_events t)) ;;
   emit o ;;;
   put_tag i (set_maps (set_events t []) (Some [])) ;;;
   ix <- lift (del_index (s_index s) nm) ;;
   modify (fun s => set_index s ix) ;;;
   tag_write E (-1) IX_DELETED 0 (tag_desc E (s_step s) i (t_type t) (t_count t) (u16 (t_attr t)) nm) ;;;
   t1 <- tag_at i ;;
   put_tag i (dead_tag t1) ;;;
   modify (fun s => set_tagcount s (s_tagcount s - 1)) ;;;
   s2 <- get ;;
   sys_write E IX_TAGCOUNT (le_bytes 4 (s_tagcount s2)) ;;;
   ret 0) s.
Proof. intros H D N M. unfold tag_del. rewrite (run_bind get _ s s s eq_refl). cbv beta. rewrite H, N, M. destruct (t_data t); try congruence; reflexivity. Qed.
Lemma ok_maps s i t : tag_ok s i t -> exists l, t_maps t = Some l.
Proof. unfold tag_ok, virt_ok. destruct (t_data t); intuition eauto. destruct H2 as (l & H2 & _). eauto. Qed.
Lemma ok_block s i t : tag_ok s i t -> t_events t <> [] -> exists b, t_data t = DBytes b /\ Forall (ev_ok (zlen b)) (t_events t).
Proof. unfold tag_ok, virt_ok. destruct (t_data t); intuition eauto; congruence. Qed.
Lemma tag_del_ok E i s : Inv s -> LI s -> exists s' r, tag_del E i s = Done (s', r) /\ LI s' /\ evsub s s'.
Proof.
  intros I L. destruct (znth (s_db s) i) as [t|] eqn:Ht; [|exists s, E_ARG; unfold tag_del; rewrite (run_bind get _ s s s eq_refl); cbv beta; rewrite Ht; auto using evsub_refl].
  destruct (dec_null (t_data t)) as [D|D]; [exists s, E_DELETED; unfold tag_del; rewrite (run_bind get _ s s s eq_refl); cbv beta; rewrite Ht, D; auto using evsub_refl|].
  assert (It := li_inv _ L _ _ Ht). assert (Ok := li_tag _ L _ _ Ht). destruct (t_name t) as [nm|] eqn:Hn; [|exfalso; apply D; apply (it_live _ _ It); exact Hn]. destruct (ok_maps _ _ _ Ok) as [mp Mp].
  rewrite (tag_del_live _ _ _ _ _ _ Ht D Hn Mp).
  assert (Ev : exists o, del_events (s_mods s) i (data_block (t_data t)) (t_events t) = Done o).
  { destruct (t_events t) as [|e0 evs] eqn:Q; [eexists; reflexivity|]. rewrite <- Q. destruct (ok_block _ _ _ Ok) as (b & Db & F); [congruence|]. rewrite Db. eapply del_events_ok; [exact F | exact (li_own _ L _ _ Ht) |]. intros _. exists b. auto. }
  destruct Ev as [o Ev]. erewrite run_lift by exact Ev. erewrite run_bind by reflexivity. erewrite run_bind by reflexivity.
  assert (Hin : In (nm, i) (s_index s)) by (apply (iv_index _ I); eauto). destruct (del_index_ok _ _ _ (iv_sorted _ I) Hin) as (l & r & _ & Dx & _). erewrite run_lift by exact Dx. erewrite run_bind by reflexivity.
  set (t0 := set_maps (set_events t []) (Some [])). set (s0 := set_out s (s_out s ++ o)). set (s1 := set_index (set_tag s0 i t0) (l ++ r)). change (set_index _ (l ++ r)) with s1.
  assert (L0 : LI s0) by (apply (LI_same s); auto).
  assert (O1 : tag_ok (set_tag s0 i t0) i t0).
  { unfold tag_ok, virt_ok in *. change (t_data t0) with (t_data t). change (t_attr t0) with (t_attr t). change (t_events t0) with (@nil event). change (t_maps t0) with (Some (@nil dmap)). change (t_type t0) with (t_type t).
    change (t_odata t0) with (t_odata t). change (t_omask t0) with (t_omask t). destruct (t_data t); try tauto. destruct Ok as (P1 & P2 & P3 & P4 & P5 & P6). split; [exact P1|]. split; [exact P2|]. split; [constructor|].
    split; [exists []; split; [reflexivity | intros m []]|]. split; [exact P5 | exact P6]. }
  assert (L1 : LI s1).
  { apply (LI_same (set_tag s0 i t0)); try reflexivity. apply LI_drop with (t := t); auto. apply inv_tag_live with (t := t); auto. }
  assert (S1 : evsub s s1) by (apply (evsub_trans _ (set_tag s i t0)); [eapply evsub_set; [exact Ht | intros e []] | apply evsub_db; reflexivity]).
  destruct (sys_tag_write_ok E IX_DELETED (tag_desc E (s_step s) i (t_type t) (t_count t) (u16 (t_attr t)) nm) s1 L1) as (s2 & r2 & W2 & M2); [unfold IX_DELETED; lia | match goal with |- context [tag_desc ?a ?b ?c ?d ?e ?f ?g] => assert (Zd := zlen_desc a b c d e f g) end; lia |].
  rewrite (run_bind _ _ _ _ _ W2). assert (L2 := moved_LI _ _ M2 L1). assert (H1 : znth (s_db s1) i = Some t0) by (eapply (set_at s0); exact Ht). destruct (moved_tag _ _ _ _ M2 H1) as (t2 & H2 & G2 & Q2). rewrite (run_tag_at _ _ _ _ H2). cbv beta.
  erewrite run_bind by reflexivity. erewrite run_bind by reflexivity. erewrite run_bind by reflexivity. set (s3 := set_tagcount _ _). 
  assert (E2 : t_events t2 = []). { assert (Q := wg_events _ _ G2). destruct (t_events t2); [reflexivity | discriminate]. }
  assert (M3 : exists l3, t_maps t2 = Some l3) by (eapply ok_maps; exact (li_tag _ L2 _ _ H2)).
  assert (L3 : LI s3).
  { apply (LI_same (set_tag s2 i (dead_tag t2))); try reflexivity. apply LI_drop with (t := t2); auto; [discriminate | |].
    - destruct (li_inv _ L2 _ _ H2) as [i1 i2 i3 i4 i5 i6 i7]. constructor; cbn; auto; try discriminate; [split; auto | intros _; unfold dead_attr; repeat split].
    - split; [reflexivity|]. split; [exact E2 | exact M3]. }
  assert (S3 : evsub s s3).
  { apply (evsub_trans _ s1); [exact S1|]. apply (evsub_trans _ s2); [exact (evsub_moved _ _ M2)|]. apply (evsub_trans _ (set_tag s2 i (dead_tag t2))); [eapply evsub_set; [exact H2 | intros e Ie; exact Ie] | apply evsub_db; reflexivity]. }
  destruct (sys_write_ok E IX_TAGCOUNT (le_bytes 4 (s_tagcount s3)) s3 L3) as (s4 & W4 & M4); [unfold IX_TAGCOUNT; lia | rewrite zlen_le_bytes; lia |]. rewrite (run_bind _ _ _ _ _ W4).
  exists s4, 0. split; [reflexivity|]. split; [exact (moved_LI _ _ M4 L3) | exact (evsub_trans _ _ _ S3 (evsub_moved _ _ M4))].
Qed.
