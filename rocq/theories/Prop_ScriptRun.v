(** * Globals, flags, tag and configuration of the scripts of daxlua: C129-C135 *)
From Coq Require Import Permutation Sorted.
From Verif Require Import LuaConv LuaConvProofs Prop_LuaConv.
From Verif Require Import Base Const Types State Events Atomic Server Lib SearchProofs Shape Inv Reach Spec Frame Effects Out DataFrame
  Cache Path Demo Prop_Tags Prop_Data Prop_Atomic Prop_Override ClientTypes ClientData Prop_ClientData Prop_Wire ClientOvr Prop_ClientOvr LuaApi LuaApiProofs Prop_LuaApi ScriptRun.

(** ** C129: globals *)
Lemma getg_same nm v t : getg nm (setg nm v t) = v.
Proof. unfold getg, setg. cbn [rawget key_eqb]. rewrite name_eqb_refl. reflexivity. Qed.
Lemma getg_other nm nm' v t : nm <> nm' -> getg nm (setg nm' v t) = getg nm t.
Proof. intros H. unfold getg, setg. cbn [rawget key_eqb]. destruct (name_eqb nm nm') eqn:Q; [apply name_eqb_eq in Q; contradiction|reflexivity]. Qed.

(** a handle of a live tag that is not overridden, within its bytes (what dax_tag_handle gives, C49) *)
Definition sound (s : server) (h : handle) : Prop :=
  exists b, stored s (h_index h) b /\ bytes_ok b /\ no_override s (h_index h) /\ zlen b < 2147483648 /\ inside h b.
(** nothing but messages and counters changed *)
Definition calm (E : env) (s s' : server) : Prop := reachable E s' /\ s_db s' = s_db s /\ s_types s' = s_types s.
Lemma sound_calm E s s' h : calm E s s' -> sound s h -> sound s' h.
Proof. intros (_ & D & _) (b & S & B & N & Z & I). exists b. split; [eapply stored_db; eassumption|]. split; [exact B|]. split; [eapply no_override_db; eassumption|]. split; assumption. Qed.
Lemma calm_trans E a b c : calm E a b -> calm E b c -> calm E a c.
Proof. intros (_ & D1 & T1) (R & D2 & T2). split; [exact R|]. split; congruence. Qed.
Lemma calm_refl E s : reachable E s -> calm E s s.
Proof. intros R. repeat split. exact R. Qed.
Lemma c_read_calm E s fd i off n at_ buf b : reachable E s -> stored s i b -> no_override s i ->
  0 <= off -> 0 <= n <= MSG_DATA_SIZE -> off + n <= zlen b -> zlen b < 2147483648 -> 0 <= at_ -> at_ + n <= zlen buf ->
  exists s', c_read E fd i off n at_ (s, buf) = Done (s', splice at_ (slice off n b) buf, 0) /\ calm E s s'.
Proof.
  intros R S NO Ho Hn Hb Hz Ha Hl. assert (R1 := C04_read_stored E s fd i off n b R S NO Ho Hn Hb Hz).
  assert (L : zlen (slice off n b) = n) by (apply zlen_slice, in_bounds_iff; lia).
  exists (after s [OResp fd MSG_TAG_READ (slice off n b)]). split.
  - unfold c_read. replace (MSG_DATA_SIZE <? n) with false by lia. rewrite s32_small by lia. rewrite (ask_after _ _ _ _ R1). cbn [rbind].
    rewrite L. replace (in_bounds at_ n (zlen buf)) with true by (symmetry; apply in_bounds_iff; lia). reflexivity.
  - split; [exact (reachable_step _ _ _ _ R R1)|]. split; reflexivity.
Qed.
Lemma parts_calm E fd i base b tsz : forall fuel tsize n s buf x,
  reachable E s -> stored s i b -> no_override s i -> zlen b < 2147483648 ->
  0 <= base -> 0 <= n -> 0 <= tsize -> base + n + tsize <= zlen b -> n + tsize <= zlen buf ->
  chunks (fun a n r => c_read E fd i (u32 (base + n)) r n a) fuel MSG_DATA_SIZE tsz tsize n (s, buf) = Done x -> calm E s (fst (fst x)).
Proof.
  induction fuel as [|k IH]; intros tsize n s buf x R S NO Hz Hb Hn Ht H1 H2 H; cbn [chunks] in H; destruct (tsize <=? 0) eqn:Q.
  1,3: injection H as <-; apply calm_refl; exact R.
  { discriminate. }
  destruct (tsz =? 0) eqn:Qz; [discriminate|]. assert (P := part_size tsize MSG_DATA_SIZE tsz ltac:(lia) ltac:(reflexivity) ltac:(lia)). cbv zeta in P, H.
  set (r := Z.min tsize MSG_DATA_SIZE - Z.rem (Z.min tsize MSG_DATA_SIZE) tsz) in *. clearbody r.
  replace (u32 (base + n)) with (base + n) in H by (unfold u32; rewrite Z.mod_small; lia).
  destruct (c_read_calm E s fd i (base + n) r n buf b) as (s1 & C1 & CA); try assumption; try lia.
  rewrite C1 in H. cbn [rbind] in H. change (negb (0 =? 0)) with false in H. cbv iota in H.
  assert (L : zlen (slice (base + n) r b) = r) by (apply zlen_slice, in_bounds_iff; lia).
  assert (L2 : zlen (splice n (slice (base + n) r b) buf) = zlen buf) by (apply zlen_splice, in_bounds_iff; lia).
  apply IH in H; try assumption; try lia; [|exact (proj1 CA)|eapply stored_db; [apply CA|assumption]|eapply no_override_db; [apply CA|assumption]].
  eapply calm_trans; eassumption.
Qed.
Lemma tag_read_calm E cc fd s h junk s' buf e : reachable E s -> sound s h -> h_size h <= zlen junk ->
  dax_tag_read E cc fd s h junk = Done (s', buf, e) -> calm E s s'.
Proof.
  intros R (b & S & B & NO & Hz & I1 & I2 & I3) Lj H. rewrite tag_read_fetched in H. apply rbind_done in H as (((s1 & b1) & e1) & HF & H).
  assert (C : calm E s s1).
  { unfold fetched in HF. destruct (MSG_DATA_SIZE <? h_size h) eqn:Q.
    - apply rbind_done in HF as ((cc', tsz) & _ & HF). cbn [snd] in HF. cbv zeta in HF. destruct (MSG_DATA_SIZE <? tsz); [injection HF as <- _ _; apply calm_refl; exact R|].
      rewrite s32_small in HF by lia. apply (parts_calm E fd (h_index h) (h_byte h) b) in HF; try assumption; lia.
    - destruct (c_read_calm E s fd (h_index h) (h_byte h) (h_size h) 0 junk b) as (s2 & C1 & CA); try assumption; try lia.
      rewrite C1 in HF. injection HF as <- _ _. exact CA. }
  destruct (negb (e1 =? 0)); [injection H as <- _ _; exact C|]. destruct (h_type h =? T_BOOL).
  - apply rbind_done in H as (nd & _ & H). destruct (in_bounds _ _ _); [injection H as <- _ _; exact C|discriminate].
  - apply rbind_done in H as (e2 & _ & H). injection H as <- _ _. exact C.
Qed.
Lemma fetch_tag_calm X s h ty s' r : reachable (R_E X) s -> sound s h -> h_size h <= zlen (R_junk X (h_size h)) ->
  fetch_tag X s h ty = Done (s', r) -> calm (R_E X) s s'.
Proof.
  intros R S L H. unfold fetch_tag, lua_tag_read in H. apply rbind_done in H as (((s1 & b1) & e1) & HF & H). apply tag_read_calm in HF; [|assumption..].
  destruct (negb (e1 =? 0)); [injection H as <- _; exact HF|]. apply rbind_done in H as (v & _ & H). injection H as <- _. exact HF.
Qed.

(** the handle a global uses in a run that begins in state [s] *)
Definition uses (X : renv) (s : server) (g : gvar) : option (handle * lty) :=
  if Z.testbit (g_mode g) B_INIT then g_h g else R_look X s (g_tag g).
(** what dax_tag_handle finds depends on the tags and types only *)
Definition looks_at_db (X : renv) : Prop := forall s s' nm, s_db s' = s_db s -> s_types s' = s_types s -> R_look X s' nm = R_look X s nm.
(** every tag that is going to be read is there *)
Definition readable (X : renv) (s : server) (gs : list gvar) : Prop :=
  forall g h ty, In g gs -> Z.testbit (g_mode g) B_READ = true -> uses X s g = Some (h, ty) -> sound s h.
Definition fresh_sizes (X : renv) : Prop := forall n, 0 <= n -> zlen (R_junk X n) = n.
Lemma uses_calm X E s s' g : looks_at_db X -> calm E s s' -> uses X s' g = uses X s g.
Proof. intros L (_ & D & T). unfold uses. rewrite (L s s') by assumption. reflexivity. Qed.
Lemma readable_calm X E s s' gs : looks_at_db X -> calm E s s' -> readable X s gs -> readable X s' gs.
Proof. intros L C R g h ty I M U. rewrite (uses_calm X E s s' g L C) in U. eapply sound_calm; [exact C|]. eapply R; eassumption. Qed.

Lemma setbit_other m a b : a <> b -> 0 <= a -> Z.testbit (Z.setbit m a) b = Z.testbit m b.
Proof. intros N A. rewrite Z.setbit_eqb by exact A. destruct (a =? b) eqn:Q; [lia|reflexivity]. Qed.
Lemma prepare_spec X s g t g' t' : prepare X s g t = Done (g', t') ->
  g_name g' = g_name g /\ (forall nm, nm <> g_name g -> getg nm t' = getg nm t) /\
  Z.testbit (g_mode g') B_READ = Z.testbit (g_mode g) B_READ /\ Z.testbit (g_mode g') B_WRITE = Z.testbit (g_mode g) B_WRITE /\
  (uses X s g = None -> Z.testbit (g_mode g) B_INIT = false -> g' = g /\ t' = t) /\ (Z.testbit (g_mode g) B_INIT = true -> g' = g) /\
  (forall h ty, uses X s g = Some (h, ty) -> Z.testbit (g_mode g') B_INIT = true /\ g_h g' = Some (h, ty)).
Proof.
  intros H. unfold prepare in H. unfold uses. destruct (Z.testbit (g_mode g) B_INIT) eqn:QI; cbn [negb] in H.
  - assert (g' = g /\ (t' = t \/ exists v, t' = setg (g_name g) v t)) as (-> & T).
    { destruct (Z.testbit (g_mode g) B_STATIC); [destruct (g_ref g)|]; injection H as <- <-; split; try reflexivity; [right; eauto|left; reflexivity..]. }
    split; [reflexivity|]. split; [intros nm N; destruct T as [->|(v & ->)]; [reflexivity|apply getg_other; exact N]|]. split; [reflexivity|]. split; [reflexivity|].
    split; [discriminate|]. split; [reflexivity|]. intros h ty U. split; [exact QI|exact U].
  - destruct (R_look X s (g_tag g)) as [(h & ty)|] eqn:QL.
    + set (g1 := mkG (g_name g) (g_tag g) (Z.setbit (g_mode g) B_INIT) (Some (h, ty)) (g_ref g)) in *.
      assert (g' = g1 /\ (t' = t \/ exists v, t' = setg (g_name g) v t)) as (-> & T).
      { cbv zeta in H. cbn [g_mode] in H. destruct (_ && _); [apply rbind_done in H as (v & _ & H); injection H as <- <-; split; [reflexivity|right; eauto]|injection H as <- <-; split; [reflexivity|left; reflexivity]]. }
      split; [reflexivity|]. split; [intros nm N; destruct T as [->|(v & ->)]; [reflexivity|apply getg_other; exact N]|].
      split; [apply setbit_other; [discriminate|unfold B_INIT; lia]|]. split; [apply setbit_other; [discriminate|unfold B_INIT; lia]|].
      split; [discriminate|]. split; [discriminate|]. intros h' ty' [= <- <-]. split; [cbn [g1 g_mode]; apply Z.setbit_eq; unfold B_INIT; lia|reflexivity].
    + injection H as <- <-. repeat split; try reflexivity; try discriminate.
Qed.
Lemma fetch_spec X s g t s' t' : reachable (R_E X) s -> (forall h ty, g_h g = Some (h, ty) -> Z.testbit (g_mode g) B_READ = true -> Z.testbit (g_mode g) B_INIT = true -> sound s h /\ h_size h <= zlen (R_junk X (h_size h))) ->
  fetch X s g t = Done (s', t') -> calm (R_E X) s s' /\ (forall nm, nm <> g_name g -> getg nm t' = getg nm t).
Proof.
  intros R S H. unfold fetch in H. destruct (Z.testbit (g_mode g) B_READ) eqn:QR; cbn [andb] in H; [|injection H as <- <-; split; [apply calm_refl; exact R|reflexivity]].
  destruct (Z.testbit (g_mode g) B_INIT); [|injection H as <- <-; split; [apply calm_refl; exact R|reflexivity]].
  destruct (g_h g) as [(h & ty)|]; [|discriminate]. destruct (S _ _ eq_refl eq_refl eq_refl) as (S1 & S2). apply rbind_done in H as ((s1 & r) & HF & H). injection H as <- <-.
  split; [eapply fetch_tag_calm; eassumption|]. intros nm N. apply getg_other. exact N.
Qed.
Lemma receive_spec X : looks_at_db X -> fresh_sizes X -> forall gs s t s' t' gs',
  reachable (R_E X) s -> readable X s gs -> receive_globals X gs s t = Done (s', t', gs') ->
  calm (R_E X) s s' /\ (forall nm, ~ In nm (map g_name gs) -> getg nm t' = getg nm t) /\
  Forall2 (fun g g' => g_name g' = g_name g /\ Z.testbit (g_mode g') B_WRITE = Z.testbit (g_mode g) B_WRITE /\
                       forall h ty, uses X s g = Some (h, ty) -> Z.testbit (g_mode g') B_INIT = true /\ g_h g' = Some (h, ty)) gs gs'.
Proof.
  intros LK FS. induction gs as [|g gs IH]; intros s t s' t' gs' R RD H; cbn [receive_globals] in H; [injection H as <- <- <-; split; [apply calm_refl; exact R|]; split; [reflexivity|constructor]|].
  apply rbind_done in H as ((g1 & t1) & HP & H). cbv beta iota zeta in H. apply rbind_done in H as ((s2 & t2) & HF & H). cbv beta iota zeta in H.
  apply rbind_done in H as (((s3 & t3) & gs1) & HR & H). injection H as <- <- <-.
  apply prepare_spec in HP as (N1 & K1 & M1 & W1 & U0 & UI & U1).
  assert (SD : forall h ty, g_h g1 = Some (h, ty) -> Z.testbit (g_mode g1) B_READ = true -> Z.testbit (g_mode g1) B_INIT = true -> sound s h /\ h_size h <= zlen (R_junk X (h_size h))).
  { intros h ty G M I. destruct (uses X s g) as [(h' & ty')|] eqn:QU.
    - destruct (U1 _ _ eq_refl) as (_ & G1). assert (X1 : Some (h, ty) = Some (h', ty')) by congruence. injection X1 as -> ->.
      assert (S0 : sound s h') by (eapply RD; [left; reflexivity|congruence|exact QU]). split; [exact S0|].
      destruct S0 as (b & _ & _ & _ & _ & I1 & I2 & I3). rewrite FS by exact I2. lia.
    - exfalso. unfold uses in QU. destruct (Z.testbit (g_mode g) B_INIT) eqn:QI.
      + rewrite (UI eq_refl) in G. congruence.
      + destruct (U0 eq_refl eq_refl) as (-> & ->). congruence. }
  destruct (fetch_spec _ _ _ _ _ _ R SD HF) as (C1 & K2).
  destruct (IH _ _ _ _ _ (proj1 C1) ltac:(intros x h ty I; apply (readable_calm X _ _ _ _ LK C1 RD); right; exact I) HR) as (C2 & K3 & F).
  split; [eapply calm_trans; eassumption|]. split.
  - intros nm N. cbn [map In] in N. rewrite K3 by tauto. rewrite K2 by (rewrite N1; intros ->; tauto). apply K1. intros ->. tauto.
  - constructor; [split; [exact N1|]; split; [exact W1|exact U1]|]. clear - F LK C1. induction F as [|a a' l l' (A1 & A2 & A3) F IH]; constructor; [|exact IH]. split; [exact A1|]. split; [exact A2|].
    intros h ty U. apply A3. rewrite (uses_calm X _ _ _ _ LK C1). exact U.
Qed.
Lemma receive_app X a b : forall s t s' t' gs', receive_globals X (a ++ b) s t = Done (s', t', gs') ->
  exists s1 t1 a' b', receive_globals X a s t = Done (s1, t1, a') /\ receive_globals X b s1 t1 = Done (s', t', b') /\ gs' = a' ++ b'.
Proof.
  induction a as [|g a IH]; intros s t s' t' gs' H; cbn [app] in H; [exists s, t, [], gs'; repeat split; assumption|].
  cbn [receive_globals] in *. apply rbind_done in H as ((g1 & t1) & HP & H). cbv beta iota zeta in H. apply rbind_done in H as ((s2 & t2) & HF & H). cbv beta iota zeta in H.
  apply rbind_done in H as (((s3 & t3) & gs1) & HR & H). injection H as <- <- <-. destruct (IH _ _ _ _ _ HR) as (s4 & t4 & a' & b' & H1 & H2 & ->).
  exists s4, t4, (g1 :: a'), b'. rewrite HP. cbn [rbind]. rewrite HF. cbn [rbind]. rewrite H1. cbn [rbind]. split; [reflexivity|]. split; [exact H2|reflexivity].
Qed.

(** When the script is called, the variable of a READ global holds the value of its tag (nil if the library refuses the read; it does not for
    tags of elementary types).
    FULL STATEMENT: every READ global whose tag exists.  MISSING: overridden tags, tags of the server itself, and handles that were made before the
    tag was deleted (C129_deleted_refuted). *)
Theorem C129_read_partial : forall X l1 g l2 first s t s' t' gs' h ty b v,
  reachable (R_E X) s -> looks_at_db X -> fresh_sizes X -> readable X s (l1 ++ g :: l2) ->
  ~ In (g_name g) (map g_name l2) -> g_name g <> str "_firstrun" ->
  Z.testbit (g_mode g) B_READ = true -> uses X s g = Some (h, ty) -> h_type h <> T_BOOL ->
  stored s (h_index h) b -> dax_to_lua (slice (h_byte h) (h_size h) b) ty (h_count h) = Done v ->
  receive X (l1 ++ g :: l2) first s t = Done (s', t', gs') ->
  s_db s' = s_db s /\ (getg (g_name g) t' = v \/ getg (g_name g) t' = LNil) /\
  (forall w, In (h_type h, w) elementary -> 0 <= h_count h -> h_size h = w * h_count h -> getg (g_name g) t' = v).
Proof.
  intros X l1 g l2 first s t s' t' gs' h ty b v R LK FS RD N NF M U TB S V H. unfold receive in H. apply rbind_done in H as (((s9 & t9) & gs9) & H & E). injection E as <- <- <-.
  apply receive_app in H as (s1 & t1 & a' & b' & H1 & H2 & ->).
  destruct (receive_spec X LK FS _ _ _ _ _ _ R ltac:(intros x hh tyy I; apply RD, in_or_app; left; exact I) H1) as (C1 & _ & _).
  assert (RD1 := readable_calm X _ _ _ _ LK C1 RD). rewrite <- (uses_calm X _ _ _ g LK C1) in U.
  assert (RDs := H2). apply (receive_spec X LK FS) in RDs as (C2 & _ & _); [|exact (proj1 C1)|intros x hh tyy I; apply RD1, in_or_app; right; exact I].
  cbn [receive_globals] in H2. apply rbind_done in H2 as ((g1 & t2) & HP & H2). cbv beta iota zeta in H2. apply rbind_done in H2 as ((s3 & t3) & HF & H2). cbv beta iota zeta in H2.
  apply rbind_done in H2 as (((s4 & t4) & gs1) & HR & H2). injection H2 as <- <- <-. apply prepare_spec in HP as (N1 & K1 & M1 & W1 & U0 & UI & U1).
  destruct (U1 _ _ U) as (I1 & G1). assert (S0 : sound s1 h) by (eapply RD1; [apply in_or_app; right; left; reflexivity|exact M|exact U]).
  unfold fetch in HF. rewrite M1, M, I1, G1 in HF. cbn [andb] in HF. apply rbind_done in HF as ((s5 & r) & HT & HF). injection HF as <- <-.
  assert (S1 : stored s1 (h_index h) b) by (eapply stored_db; [apply C1|exact S]). destruct S0 as (b0 & S0 & B0 & NO & Hz & I). assert (b0 = b) by (eapply stored_fun; eassumption). subst b0.
  assert (Lj : h_size h <= zlen (R_junk X (h_size h))) by (rewrite FS; [lia|apply I]). assert (SD : sound s1 h) by (exists b; repeat split; assumption || apply I).
  assert (C3 := fetch_tag_calm _ _ _ _ _ _ (proj1 C1) SD Lj HT).
  destruct (receive_spec X LK FS _ _ _ _ _ _ (proj1 C3) ltac:(intros x hh tyy I9; apply (readable_calm X _ _ _ _ LK C3 RD1), in_or_app; right; right; exact I9) HR) as (C4 & K4 & _).
  assert (VAL : getg (g_name g) (setg (str "_firstrun") (LBool first) t4) = match r with LOk v => v | LFail _ => LNil end).
  { rewrite getg_other by exact NF. rewrite K4 by exact N. rewrite N1. apply getg_same. }
  split; [exact (proj1 (proj2 (calm_trans _ _ _ _ C1 C2)))|]. rewrite VAL.
  assert (RR : forall e buf s8, dax_tag_read (R_E X) (R_cc X) (R_fd X) s1 h (R_junk X (h_size h)) = Done (s8, buf, e) -> e = 0 -> r = LOk v).
  { intros e buf s8 Hr ->. unfold fetch_tag, lua_tag_read in HT. rewrite Hr in HT. cbn [rbind] in HT. change (negb (0 =? 0)) with false in HT. cbv iota in HT.
    destruct (C45_read _ _ _ _ _ _ _ _ _ (proj1 C1) S1 NO Hz I Lj TB Hr) as (_ & Lb & Sl & _).
    replace (slice 0 (h_size h) buf) with buf in Sl by (rewrite FS in Lb by apply I; rewrite <- Lb, slice_full; reflexivity). rewrite Sl, V in HT. cbn [rbind] in HT. congruence. }
  split.
  - destruct (dax_tag_read (R_E X) (R_cc X) (R_fd X) s1 h (R_junk X (h_size h))) as [((s8 & buf) & e)|] eqn:Q; [|unfold fetch_tag, lua_tag_read in HT; rewrite Q in HT; discriminate].
    destruct (Z.eq_dec e 0) as [->|Ne]; [rewrite (RR _ _ _ eq_refl eq_refl); left; reflexivity|]. right. unfold fetch_tag, lua_tag_read in HT. rewrite Q in HT. cbn [rbind] in HT.
    replace (e =? 0) with false in HT by lia. cbn [negb] in HT. cbv iota in HT. injection HT as _ <-. reflexivity.
  - intros w Ty Hc Hs. destruct (C45_read_succeeds (R_E X) (R_cc X) (R_fd X) s1 h (R_junk X (h_size h)) b w (proj1 C1) S1 NO Hz I Lj Ty Hc Hs) as (s8 & buf & Hr).
    rewrite (RR _ _ _ Hr eq_refl). reflexivity.
Qed.
(** static variables hold their configured value at the start of every run, and _firstrun tells whether the script has run before *)
Theorem C129_static : forall X l1 nm cv l2 first s t s' t' gs',
  reachable (R_E X) s -> looks_at_db X -> fresh_sizes X -> readable X s (l1 ++ add_static nm cv [] ++ l2) ->
  ~ In nm (map g_name l2) -> nm <> str "_firstrun" ->
  receive X (l1 ++ add_static nm cv [] ++ l2) first s t = Done (s', t', gs') ->
  getg nm t' = static_value cv /\ getg (str "_firstrun") t' = LBool first.
Proof.
  intros X l1 nm cv l2 first s t s' t' gs' R LK FS RD N NF H. unfold receive in H. apply rbind_done in H as (((s9 & t9) & gs9) & H & E). injection E as <- <- <-.
  split; [|apply getg_same]. rewrite getg_other by exact NF. apply receive_app in H as (s1 & t1 & a' & b' & H1 & H2 & ->).
  destruct (receive_spec X LK FS _ _ _ _ _ _ R ltac:(intros x hh tyy I; apply RD, in_or_app; left; exact I) H1) as (C1 & _ & _).
  assert (RD1 := readable_calm X _ _ _ _ LK C1 RD). cbn [add_static app receive_globals] in H2.
  apply rbind_done in H2 as ((g1 & t2) & HP & H2). cbv beta iota zeta in H2. apply rbind_done in H2 as ((s3 & t3) & HF & H2). cbv beta iota zeta in H2.
  apply rbind_done in H2 as (((s4 & t4) & gs1) & HR & H2). injection H2 as <- <- <-. unfold prepare in HP. cbn [g_mode g_ref g_name] in HP.
  change (Z.testbit (2 ^ B_STATIC + 2 ^ B_INIT) B_INIT) with true in HP. change (Z.testbit (2 ^ B_STATIC + 2 ^ B_INIT) B_STATIC) with true in HP. cbn [negb] in HP. injection HP as <- <-.
  unfold fetch in HF. cbn [g_mode] in HF. change (Z.testbit (2 ^ B_STATIC + 2 ^ B_INIT) B_READ) with false in HF. cbn [andb] in HF. injection HF as <- <-.
  destruct (receive_spec X LK FS _ _ _ _ _ _ (proj1 C1) ltac:(intros x hh tyy I; apply RD1, in_or_app; right; right; exact I) HR) as (_ & K4 & _).
  rewrite K4 by exact N. apply getg_same.
Qed.

(** *** after the script *)
Lemma send_is_write X s h ty v s' e k : send_tag X s h ty v = Done (s', e, k) ->
  lua_tag_write (R_E X) (R_L X) (R_cc X) (R_fd X) s h ty (R_junk X (h_size h)) v = Done (s', if e =? 0 then LOk LNil else LFail e).
Proof.
  intros H. unfold send_tag in H. unfold lua_tag_write. apply rbind_done in H as ((e1 & w) & -> & H). cbn [rbind] in *. destruct (negb (e1 =? 0)) eqn:Q.
  - injection H as <- <- _. replace (e1 =? 0) with false by lia. reflexivity.
  - apply rbind_done in H as ((s2 & e2) & -> & H). cbn [rbind]. injection H as <- <- _. reflexivity.
Qed.
(** what a WRITE global needs: its handle stands for a part of a live tag without mappings *)
Definition writable_at (s : server) (h : handle) : Prop :=
  aligned h /\ no_mapping s (h_index h) /\ exists b, stored s (h_index h) b /\ bytes_ok b /\ zlen b < 2147483648 /\ inside h b.
Definition writes (g : gvar) : bool := Z.testbit (g_mode g) B_WRITE && Z.testbit (g_mode g) B_INIT.
Definition writable (s : server) (gs : list gvar) (t : gtab) : Prop :=
  forall g h ty, In g gs -> writes g = true -> g_h g = Some (h, ty) -> writable_at s h /\ lbytes (getg (g_name g) t).
Definition fresh_bytes (X : renv) : Prop := forall n, bytes_ok (R_junk X n).
Lemma only_writable s s' i h : only_data s s' i -> (forall b, stored s i b -> exists b', stored s' i b' /\ bytes_ok b' /\ zlen b' = zlen b) ->
  writable_at s h -> writable_at s' h.
Proof.
  intros O S' (A & N & b & S & B & Z & I). split; [exact A|]. destruct (Z.eq_dec (h_index h) i) as [Q|Q].
  - destruct (S' b ltac:(rewrite <- Q; exact S)) as (b' & S2 & B2 & L2). rewrite Q in *. split; [eapply only_no_mapping; eassumption|]. exists b'.
    split; [exact S2|]. split; [exact B2|]. unfold inside in *. rewrite L2. split; assumption.
  - destruct O as (O1 & _). split; [intros tg T; apply N; rewrite <- O1 by exact Q; exact T|]. exists b. split; [|repeat split; assumption || apply I].
    destruct S as (tg & T & V). exists tg. rewrite O1 by exact Q. split; assumption.
Qed.
Lemma send_one X s h ty v s' k : reachable (R_E X) s -> fresh_sizes X -> fresh_bytes X -> writable_at s h -> lbytes v ->
  send_tag X s h ty v = Done (s', 0, k) ->
  reachable (R_E X) s' /\ only_data s s' (h_index h) /\ (forall b, stored s (h_index h) b -> exists b', stored s' (h_index h) b' /\ bytes_ok b' /\ zlen b' = zlen b) /\
  forall new, h_type h <> T_BOOL -> bytes_ok new -> zlen new = h_size h -> uniq ty -> ok_ty new ty (h_count h) 0 -> dax_to_lua new ty (h_count h) = Done v ->
    exists b', stored s' (h_index h) b' /\ dax_to_lua (slice (h_byte h) (h_size h) b') ty (h_count h) = Done v.
Proof.
  intros R FS FB (A & N & b & S & B & Z & I) V H. apply send_is_write in H. change (0 =? 0) with true in H. cbv iota in H.
  assert (Lj : zlen (R_junk X (h_size h)) = h_size h) by (apply FS; apply I).
  destruct (lua_write_masked _ _ _ _ _ _ _ _ _ _ _ R S B N Z I A V (FB _) Lj H) as (w & b' & HV & G & R1 & O1 & S1 & B1 & L1 & K).
  split; [exact R1|]. split; [exact O1|]. split; [intros b0 S0; assert (b0 = b) by (eapply stored_fun; eassumption); subst b0; eauto|].
  intros new T Bn Ln U OK RD. exists b'. split; [exact S1|]. assert (M := part_masked _ _ _ _ I L1 (g_mlen _ _ G) K).
  assert (Lk : zlen (R_junk X (h_size h)) = zlen new) by congruence.
  destruct (C78_store_partial (R_L X) ty (h_count h) new v (R_junk X (h_size h)) [] Bn U OK RD Lk) as (w0 & W0 & _ & X0). rewrite Ln in W0.
  unfold lua_value in HV. rewrite HV in W0. injection W0 as <-. eapply X0; [|apply bytes_ok_slice; exact B1|exact M].
  destruct I as (I1 & I2 & I3). rewrite zlen_slice; [congruence|apply in_bounds_iff; lia].
Qed.
Lemma send_spec X : fresh_sizes X -> fresh_bytes X -> forall gs s t s' k,
  reachable (R_E X) s -> writable s gs t -> send_globals X gs s t = Done (s', 0, k) ->
  reachable (R_E X) s' /\ (forall h, writable_at s h -> writable_at s' h) /\
  (forall j, (forall g h ty, In g gs -> writes g = true -> g_h g = Some (h, ty) -> h_index h <> j) -> znth (s_db s') j = znth (s_db s) j).
Proof.
  intros FS FB. induction gs as [|g gs IH]; intros s t s' k R W H; cbn [send_globals] in H; [injection H as <- _; split; [exact R|split; [intros h Wh; exact Wh|reflexivity]]|].
  change (Z.testbit (g_mode g) B_WRITE && Z.testbit (g_mode g) B_INIT) with (writes g) in H. destruct (writes g) eqn:Q.
  - destruct (g_h g) as [(h & ty)|] eqn:Qh; [|discriminate]. apply rbind_done in H as (((s1 & e1) & k1) & H1 & H). cbv beta iota zeta in H.
    destruct (e1 =? 0) eqn:Qe; cbn [negb] in H; [|discriminate]. assert (e1 = 0) by lia. subst e1.
    apply rbind_done in H as (((s2 & e2) & k2) & H2 & H). injection H as <- -> _.
    destruct (W g h ty (or_introl eq_refl) Q Qh) as (Wh & Wv). destruct (send_one _ _ _ _ _ _ _ R FS FB Wh Wv H1) as (R1 & O1 & S1 & _).
    assert (W1 : forall h', writable_at s h' -> writable_at s1 h') by (intros h'; eapply only_writable; eassumption).
    destruct (IH _ _ _ _ R1 ltac:(intros g' h' ty' I' Q' G'; destruct (W g' h' ty' (or_intror I') Q' G') as (X1 & X2); split; [apply W1; exact X1|exact X2]) H2) as (R2 & W2 & K2).
    split; [exact R2|]. split; [intros h' X1; apply W2, W1; exact X1|]. intros j J. rewrite K2 by (intros g' h' ty' I'; apply J; right; exact I').
    apply (proj1 O1). intros ->. exact (J g h ty (or_introl eq_refl) Q Qh eq_refl).
  - destruct (IH _ _ _ _ R ltac:(intros g' h' ty' I'; apply W; right; exact I') H) as (R2 & W2 & K2). split; [exact R2|]. split; [exact W2|].
    intros j J. apply K2. intros g' h' ty' I'. apply J. right. exact I'.
Qed.
Lemma send_app X a b : forall s t s' k, send_globals X (a ++ b) s t = Done (s', 0, k) ->
  exists s1 k1 k2, send_globals X a s t = Done (s1, 0, k1) /\ send_globals X b s1 t = Done (s', 0, k2).
Proof.
  induction a as [|g a IH]; intros s t s' k H; [exists s, 0, k; split; [reflexivity|exact H]|]. cbn [app send_globals] in *. destruct (_ && _).
  - destruct (g_h g) as [(h & ty)|]; [|discriminate]. apply rbind_done in H as (((s1 & e1) & k1) & H1 & H). cbv beta iota zeta in H. rewrite H1. cbn [rbind].
    destruct (negb (e1 =? 0)); [discriminate|]. apply rbind_done in H as (((s2 & e2) & k2) & H2 & H). injection H as <- -> _.
    destruct (IH _ _ _ _ H2) as (s3 & k3 & k4 & E1 & E2). rewrite E1. cbn [rbind]. exists s3, (k1 - 1 + k3), k4. split; [reflexivity|exact E2].
  - exact (IH _ _ _ _ H).
Qed.
(** After the script the tag of every WRITE global holds the value of its variable, and no other tag has changed.
    FULL STATEMENT: for every run, every WRITE global and every value that fits the tag.  MISSING: runs in which one of the writes is refused
    (C129_stop_refuted), BOOL slices and partial tables (C125, C126), tags with mappings, the same tag written by a later global. *)
Theorem C129_write_partial : forall X l1 g l2 s t s' k h ty new,
  reachable (R_E X) s -> fresh_sizes X -> fresh_bytes X -> writable s (l1 ++ g :: l2) t ->
  writes g = true -> g_h g = Some (h, ty) -> h_type h <> T_BOOL ->
  (forall g' h' ty', In g' l2 -> writes g' = true -> g_h g' = Some (h', ty') -> h_index h' <> h_index h) ->
  bytes_ok new -> zlen new = h_size h -> uniq ty -> ok_ty new ty (h_count h) 0 -> dax_to_lua new ty (h_count h) = Done (getg (g_name g) t) ->
  send_globals X (l1 ++ g :: l2) s t = Done (s', 0, k) ->
  (exists b', stored s' (h_index h) b' /\ dax_to_lua (slice (h_byte h) (h_size h) b') ty (h_count h) = Done (getg (g_name g) t)) /\
  forall j, (forall g' h' ty', In g' (l1 ++ g :: l2) -> writes g' = true -> g_h g' = Some (h', ty') -> h_index h' <> j) -> znth (s_db s') j = znth (s_db s) j.
Proof.
  intros X l1 g l2 s t s' k h ty new R FS FB W Q Qh T D Bn Ln U OK RD H. split; [|eapply send_spec; eassumption].
  apply send_app in H as (s1 & k1 & k2 & H1 & H2).
  destruct (send_spec X FS FB _ _ _ _ _ R ltac:(intros g' h' ty' I'; apply W, in_or_app; left; exact I') H1) as (R1 & W1 & _).
  cbn [send_globals] in H2. change (Z.testbit (g_mode g) B_WRITE && Z.testbit (g_mode g) B_INIT) with (writes g) in H2. rewrite Q, Qh in H2.
  apply rbind_done in H2 as (((s2 & e1) & k3) & H3 & H2). cbv beta iota zeta in H2.
  destruct (e1 =? 0) eqn:Qe; cbn [negb] in H2; [|discriminate]. assert (e1 = 0) by lia. subst e1. apply rbind_done in H2 as (((s3 & e2) & k4) & H4 & H2). injection H2 as <- -> _.
  assert (WW : forall g' h' ty', In g' (g :: l2) -> writes g' = true -> g_h g' = Some (h', ty') -> writable_at s1 h' /\ lbytes (getg (g_name g') t)).
  { intros g' h' ty' I' Q' G'. destruct (W g' h' ty' (in_or_app _ _ _ (or_intror I')) Q' G') as (X1 & X2). split; [apply W1; exact X1|exact X2]. }
  destruct (WW g h ty (or_introl eq_refl) Q Qh) as (Wh & Wv). destruct (send_one _ _ _ _ _ _ _ R1 FS FB Wh Wv H3) as (R2 & O2 & S2 & V2).
  destruct (V2 new T Bn Ln U OK RD) as (b' & SB & VB).
  destruct (send_spec X FS FB _ _ _ _ _ R2 ltac:(intros g' h' ty' I' Q' G'; destruct (WW g' h' ty' (or_intror I') Q' G') as (X1 & X2); split; [eapply only_writable; eassumption|exact X2]) H4) as (_ & _ & K).
  exists b'. split; [|exact VB]. destruct SB as (tg & Tg & V). exists tg. rewrite K by (intros g' h' ty' I' Q' G'; eapply D; eassumption). split; assumption.
Qed.
(** dax_tag_handle on the state of the server, for tags of elementary types *)
Fixpoint db_tag (db : list tag) (i : Z) (nm : name) : option ctag :=
  match db with
  | [] => None
  | t :: r => match t_name t with
              | Some n => if name_eqb n nm then Some (mk_ct nm i (t_type t) (t_count t) (t_attr t)) else db_tag r (i + 1) nm
              | None => db_tag r (i + 1) nm
              end
  end.
Definition look_el (s : server) (nm : name) : option (handle * lty) :=
  match tag_handle (s_types s) (db_tag (s_db s) 0) [] nm 0 with Done (_, inl h) => Some (h, LB (h_type h)) | _ => None end.
Definition demo_X (L : lenv) : renv := mkR env0 L [] 5 look_el (fun n => repeat 170 (Z.to_nat n)).
(** a is configured first, then b, both to be written; the script gives a right value to a and a number instead of a table to b: neither is written *)
Theorem C129_stop_refuted : forall L, let gs := add_global (str "b") (str "baz") 2 (add_global (str "a") (str "foo[1]") 2 []) in exists s1 t1 gs1 s2 k,
  receive (demo_X L) gs true demo [] = Done (s1, t1, gs1) /\
  send_globals (demo_X L) gs1 s1 (setg (str "b") (LInt 3) (setg (str "a") (LInt 7) t1)) = Done (s2, -1, k) /\ s_db s2 = s_db demo /\ 1 <= k /\
  exists s3 k3, send_globals (demo_X L) (rev gs1) s1 (setg (str "b") (LInt 3) (setg (str "a") (LInt 7) t1)) = Done (s3, -1, k3) /\
    exists b, stored s3 13 b /\ slice 4 4 b = [7; 0; 0; 0].
Proof.
  intros L; cbv zeta. do 5 eexists. split; [vm_compute; reflexivity|]. split; [vm_compute; reflexivity|]. split; [vm_compute; reflexivity|]. split; [lia|].
  do 2 eexists. split; [vm_compute; reflexivity|]. eexists. split; [find_tag; split; vm_compute; reflexivity|]. vm_compute. reflexivity.
Qed.
(** the tag is deleted and created again: the tag exists and can be read, but the variable stays nil in every later run *)
Definition again_server : server := after_ops env0 (demo_ops ++ [OpTagDel 5 13; OpTagAdd 5 (str "foo") T_DINT 10 0]).
Theorem C129_deleted_refuted : forall L, let X := demo_X L in let gs := add_global (str "a") (str "foo[0]") 1 [] in exists s1 t1 gs1 h ty v,
  receive X gs true demo [] = Done (s1, t1, gs1) /\ getg (str "a") t1 = LInt 0 /\
  reachable env0 again_server /\ look_el again_server (str "foo[0]") = Some (h, ty) /\ (exists s', fetch_tag X again_server h ty = Done (s', LOk v)) /\ v = LInt 0 /\
  exists s2 t2, receive X gs1 false again_server t1 = Done (s2, t2, gs1) /\ getg (str "a") t2 = LNil.
Proof.
  intros L; cbv zeta. do 6 eexists. split; [vm_compute; reflexivity|]. split; [vm_compute; reflexivity|]. split; [apply after_reachable; vm_compute; reflexivity|].
  split; [vm_compute; reflexivity|]. split; [eexists; vm_compute; reflexivity|]. split; [reflexivity|]. do 2 eexists. split; vm_compute; reflexivity.
Qed.
(** a is read from and written to foo[1], b is written to baz, c is static *)
Example C129_ex : forall L, let X := demo_X L in let gs := add_static (str "c") (LInt 4) (add_global (str "b") (str "baz") 2 (add_global (str "a") (str "foo[1]") 3 [])) in
  reachable env0 demo /\ looks_at_db X /\ fresh_sizes X /\ fresh_bytes X /\ NoDup (map g_name gs) /\
  exists s1 t1 gs1, receive X gs true demo [] = Done (s1, t1, gs1) /\ getg (str "a") t1 = LInt 67305985 /\ getg (str "c") t1 = LInt 4 /\ getg (str "_firstrun") t1 = LBool true /\
  map writes gs1 = [false; true; true] /\
  let t2 := setg (str "b") (LTab [(KI 4, LInt 4); (KI 3, LInt 3); (KI 2, LInt (-1)); (KI 1, LInt 1)]) (setg (str "a") (LInt 7) t1) in
  exists s2 k b1 b2, send_globals X gs1 s1 t2 = Done (s2, 0, k) /\ stored s2 13 b1 /\ slice 4 4 b1 = [7; 0; 0; 0] /\ stored s2 15 b2 /\ b2 = [1; 0; 255; 255; 3; 0; 4; 0].
Proof.
  intros L; cbv zeta. split; [exact demo_reachable|]. split; [intros s s' nm D T; cbn; unfold look_el; rewrite D, T; reflexivity|].
  split; [intros n Hn; cbn; unfold zlen; rewrite repeat_length; lia|]. split; [intros n; cbn; apply Forall_forall; intros x Hx; apply repeat_spec in Hx; subst; lia|].
  split; [repeat constructor; cbn; intuition discriminate|]. do 3 eexists. split; [vm_compute; reflexivity|]. do 4 (split; [vm_compute; reflexivity|]). do 4 eexists.
  split; [vm_compute; reflexivity|]. split; [find_tag; split; vm_compute; reflexivity|]. split; [vm_compute; reflexivity|]. split; [find_tag; split; vm_compute; reflexivity|]. vm_compute. reflexivity.
Qed.

(** ** C130: when a script runs *)
(** the runs that came to their end, and those that began *)
Fixpoint ended (es : list tev) (y : stag) : Z :=
  match es with [] => 0 | e :: r => (match e with TEnd _ => if y_busy y then 1 else 0 | _ => 0 end) + ended r (tstep y e) end.
Fixpoint begun (es : list tev) (y : stag) : Z :=
  match es with [] => 0 | e :: r => (match e with TBegin => if negb (y_busy y) && (0 <? y_wait y) then 1 else 0 | _ => 0 end) + begun r (tstep y e) end.
Lemma tsteps_cons e es y : tsteps (e :: es) y = tsteps es (tstep y e).
Proof. reflexivity. Qed.
Lemma tsteps_app a b y : tsteps (a ++ b) y = tsteps b (tsteps a y).
Proof. unfold tsteps. apply fold_left_app. Qed.
Lemma ended_pos es : forall y, 0 <= ended es y.
Proof. induction es as [|e es IH]; intros y; cbn [ended]; [lia|]. specialize (IH (tstep y e)). destruct e; try lia. destruct (y_busy y); lia. Qed.
Lemma take_command_keeps f : f_exec (take_command f) = f_exec f /\ f_first (take_command f) = f_first f /\ f_failed (take_command f) = f_failed f /\ f_foe (take_command f) = f_foe f /\ f_command (take_command f) = 0.
Proof. unfold take_command. destruct (f_command f =? 0) eqn:Q; [|repeat split]. repeat split. lia. Qed.
Lemma count_from es : forall y, f_exec (y_f (tsteps es y)) = (if ended es y =? 0 then f_exec (y_f y) else u64 (f_exec (y_f y) + ended es y)) /\
  f_first (y_f (tsteps es y)) = (f_first (y_f y) && (ended es y =? 0)).
Proof.
  induction es as [|e es IH]; intros y; [cbn; rewrite andb_true_r; split; reflexivity|]. rewrite tsteps_cons. cbn [ended]. destruct (IH (tstep y e)) as (A & B). rewrite A, B. assert (P := ended_pos es (tstep y e)).
  assert (KEEP : forall g, f_exec g = f_exec (y_f y) -> f_first g = f_first (y_f y) -> forall n, (if n =? 0 then f_exec g else u64 (f_exec g + n)) = (if 0 + n =? 0 then f_exec (y_f y) else u64 (f_exec (y_f y) + (0 + n))) /\ f_first g && (n =? 0) = f_first (y_f y) && (0 + n =? 0)).
  { intros g G1 G2 n. rewrite G1, G2. replace (0 + n) with n by lia. split; reflexivity. }
  destruct e as [rs| | |err|b|v|].
  - apply KEEP; cbn; apply take_command_keeps.
  - apply KEEP; clear; unfold tstep; destruct (negb (y_busy y) && _); reflexivity.
  - apply KEEP; clear; unfold tstep; destruct (y_busy y); reflexivity.
  - unfold tstep in *. destruct (y_busy y) eqn:Q; [|apply KEEP; reflexivity]. cbn [write_script_tag put_tag with_lock with_f y_f end_run f_exec f_first] in *.
    set (n := ended es _) in *. replace (1 + n =? 0) with false by lia. cbn [andb]. rewrite andb_false_r. split; [|reflexivity].
    destruct (n =? 0) eqn:Qn; [replace n with 0 by lia; f_equal; lia|]. unfold u64. rewrite Zplus_mod_idemp_l. f_equal. lia.
  - apply KEEP; reflexivity.
  - apply KEEP; reflexivity.
  - unfold tstep. destruct (y_queue y); apply KEEP; reflexivity.
Qed.
(** The member "executions" of the tag counts the completed runs, and _firstrun is true until one has come to its end, whatever the threads,
    the users of the tag and other scripts do. *)
Theorem C130_count : forall es nm enabled foe, let y0 := tag_start nm (new_flags enabled foe) in
  f_exec (y_f (tsteps es y0)) = u64 (ended es y0) /\ f_first (y_f (tsteps es y0)) = (ended es y0 =? 0).
Proof.
  intros es nm enabled foe y0. destruct (count_from es y0) as (A & B). rewrite A, B. cbn [y0 tag_start write_script_tag put_tag y_f new_flags f_exec f_first andb].
  split; [|reflexivity]. destruct (ended es y0 =? 0) eqn:Q; [replace (ended es y0) with 0 by lia; reflexivity|]. f_equal. 
Qed.
(** a message or a write that leaves the script disabled *)
Definition off (v : list Z) : Prop := Z.testbit (nthb v 32) 0 = false.
Definition resting (y : stag) : Prop := y_wait y = 0 /\ y_busy y = false.
Lemma image_parts nm f : exists p, zlen p = 32 /\ image nm f = p ++ [(if f_enabled f then 1 else 0) + (if f_failed f then 2 else 0)] ++ le_bytes 8 (f_exec f).
Proof.
  exists (firstn 32 nm ++ zeros (32 - zlen (firstn 32 nm))). unfold image. rewrite app_assoc. split; [|reflexivity].
  assert (zlen (firstn 32 nm) <= 32) by (unfold zlen; rewrite firstn_length; lia). rewrite zlen_app, zlen_zeros; lia.
Qed.
Lemma image_flag nm f : nthb (image nm f) 32 = (if f_enabled f then 1 else 0) + (if f_failed f then 2 else 0).
Proof.
  destruct (image_parts nm f) as (p & L & ->). unfold nthb. rewrite app_nth2 by (unfold zlen in L; lia). replace (Z.to_nat 32 - length p)%nat with 0%nat by (unfold zlen in L; lia). reflexivity.
Qed.
Lemma image_bit nm f : Z.testbit (nthb (image nm f) 32) 0 = f_enabled f.
Proof. rewrite image_flag. destruct (f_enabled f), (f_failed f); reflexivity. Qed.
Lemma image_len nm f : zlen (image nm f) = 41.
Proof. destruct (image_parts nm f) as (p & L & ->). rewrite !zlen_app, L. unfold zlen at 2. rewrite le_bytes_length. reflexivity. Qed.
Lemma image_differs nm f f' : f_enabled f <> f_enabled f' -> bytes_eqb (image nm f) (image nm f') = false.
Proof. intros H. destruct (bytes_eqb _ _) eqn:Q; [|reflexivity]. apply name_eqb_eq in Q. exfalso. apply H. rewrite <- (image_bit nm f), <- (image_bit nm f'). rewrite Q. reflexivity. Qed.
(** A disabled script does not run until it is enabled by a command, a trigger or a write to its tag. *)
Theorem C130_disabled : forall es y, resting y -> f_enabled (y_f y) = false -> f_command (y_f y) <> 1 -> Forall off (y_queue y) ->
  (forall e, In e es -> e <> TCmd true /\ forall v, e = TUser v -> off v) ->
  resting (tsteps es y) /\ begun es y = 0 /\ f_enabled (y_f (tsteps es y)) = false.
Proof.
  induction es as [|e es IH]; intros y (W & B) En Cm Q Es; [repeat split; assumption|]. rewrite tsteps_cons. cbn [begun].
  assert (OFF : off (image (y_name y) (y_f y))) by (unfold off; rewrite image_bit; exact En).
  assert (GO : forall y', resting y' -> f_enabled (y_f y') = false -> f_command (y_f y') <> 1 -> Forall off (y_queue y') -> resting (tsteps es y') /\ begun es y' = 0 /\ f_enabled (y_f (tsteps es y')) = false).
  { intros y' R1 E1 C1 Q1. apply IH; try assumption. intros e' I. apply Es. right. exact I. }
  destruct (Es e (or_introl eq_refl)) as (N1 & N2). destruct e as [rs| | |err|b|v|].
  - apply GO; cbn [tstep with_f with_lock y_wait y_busy y_f y_queue].
    + unfold will_run. replace (f_enabled (take_command (y_f y))) with false; [cbn [negb]; rewrite orb_true_r; cbn [orb negb]; split; [cbn [with_f with_lock y_wait]; lia|exact B]|].
      unfold take_command. destruct (f_command (y_f y) =? 0); [congruence|]. cbn [f_enabled]. replace (f_command (y_f y) =? 1) with false by lia. destruct (_ =? 2); congruence.
    + unfold take_command. destruct (f_command (y_f y) =? 0); [congruence|]. cbn [f_enabled]. replace (f_command (y_f y) =? 1) with false by lia. destruct (_ =? 2); congruence.
    + rewrite (proj2 (proj2 (proj2 (proj2 (take_command_keeps (y_f y)))))). discriminate.
    + exact Q.
  - unfold tstep. rewrite W. change (0 <? 0) with false. rewrite andb_false_r. apply GO; [split|..]; assumption.
  - unfold tstep. rewrite B. apply GO; [split|..]; assumption.
  - unfold tstep. rewrite B. apply GO; [split|..]; assumption.
  - apply GO; cbn; [split; assumption|assumption|destruct b; [exfalso; apply N1; reflexivity|discriminate]|assumption].
  - apply GO; cbn [tstep put_tag y_f y_queue]; [split; assumption|assumption|assumption|]. destruct (bytes_eqb _ _); [exact Q|]. apply Forall_app. split; [exact Q|]. constructor; [apply N2; reflexivity|constructor].
  - unfold tstep. destruct (y_queue y) as [|d q] eqn:Qq; [apply GO; [split|..]; try assumption; rewrite Qq; constructor|]. inversion Q as [|? ? Q1 Q2]. subst. red in Q1. rewrite Q1.
    assert (F : f_enabled (set_enabled false (y_f y)) = false) by reflexivity.
    apply GO; cbn [write_script_tag put_tag with_f y_wait y_busy y_f y_queue y_name y_tag]; [split; assumption|exact F|exact Cm|].
    destruct (bytes_eqb _ _); [exact Q2|]. apply Forall_app. split; [exact Q2|]. constructor; [unfold off; rewrite image_bit; exact F|constructor].
Qed.
(** A script that has failed never runs again, whatever happens, if no other run of it waits for the lock.
    FULL STATEMENT: after an error with fail_on_error no run begins.  MISSING: the runs that already wait (below). *)
Lemma failed_stays es : forall y, resting y -> f_failed (y_f y) = true -> resting (tsteps es y) /\ begun es y = 0 /\ ended es y = 0 /\ f_failed (y_f (tsteps es y)) = true.
Proof.
  induction es as [|e es IH]; intros y (W & B) F; [repeat split; assumption|]. rewrite tsteps_cons. cbn [begun ended].
  assert (GO : forall y', resting y' -> f_failed (y_f y') = true -> resting (tsteps es y') /\ 0 + begun es y' = 0 /\ 0 + ended es y' = 0 /\ f_failed (y_f (tsteps es y')) = true).
  { intros y' R1 F1. apply IH; assumption. }
  destruct e as [rs| | |err|b|v|].
  - apply GO; cbn [tstep with_f with_lock y_wait y_busy y_f]; [|rewrite (proj1 (proj2 (proj2 (take_command_keeps (y_f y))))); exact F].
    unfold will_run. rewrite (proj1 (proj2 (proj2 (take_command_keeps (y_f y))))), F. split; [cbn; lia|exact B].
  - unfold tstep. rewrite W. change (0 <? 0) with false. rewrite andb_false_r. apply GO; [split|]; assumption.
  - unfold tstep. rewrite B. apply GO; [split|]; assumption.
  - unfold tstep. rewrite B. apply GO; [split|]; assumption.
  - apply GO; [split|]; assumption.
  - apply GO; [split|]; assumption.
  - unfold tstep. destruct (y_queue y); apply GO; (split; assumption) || exact F.
Qed.
Theorem C130_failed_partial : forall es y, y_busy y = true -> y_wait y = 0 -> f_foe (y_f y) = true ->
  let y1 := tstep y (TEnd true) in resting (tsteps es y1) /\ begun es y1 = 0 /\ f_failed (y_f (tsteps es y1)) = true /\ f_exec (y_f (tsteps es y1)) = f_exec (y_f y1).
Proof.
  intros es y B W F y1. assert (R1 : resting y1) by (unfold y1, tstep; rewrite B; split; [exact W|reflexivity]).
  assert (F1 : f_failed (y_f y1) = true) by (unfold y1, tstep; rewrite B; cbn; rewrite F; apply orb_true_r).
  destruct (failed_stays es y1 R1 F1) as (A1 & A2 & A3 & A4). split; [exact A1|]. split; [exact A2|]. split; [exact A4|]. rewrite (proj1 (count_from es y1)), A3. reflexivity.
Qed.
(** two triggers put the script into the queue; both workers look at the flags before the first run fails, and the script runs a second time *)
Theorem C130_failed_refuted : forall nm, let es := [TCheck true; TCheck true; TBegin; TEnd true; TBegin] in let y := tag_start nm (new_flags true true) in
  f_failed (y_f (tsteps es y)) = true /\ begun es y = 2 /\ y_busy (tsteps es y) = true.
Proof. intros nm. repeat split. Qed.
(** disable_self is lost: the message about the write of the script's own tag, which says that the script is enabled, is still waiting *)
Theorem C130_self_refuted : forall nm foe, let es := [TCheck true; TBegin; TSelf; TCallback; TEnd false] in let y := tag_start nm (new_flags true foe) in
  f_enabled (y_f (tsteps (firstn 3 es) y)) = false /\ f_enabled (y_f (tsteps es y)) = true /\ resting (tsteps es y) /\ begun [TCheck true; TBegin] (tsteps es y) = 1.
Proof.
  intros nm foe es y. set (f0 := new_flags true foe) in *. assert (B0 : Z.testbit (nthb (image nm f0) 32) 0 = true) by apply image_bit.
  assert (D : bytes_eqb (image nm f0) (zeros 41) = false) by (destruct (bytes_eqb _ _) eqn:Q; [apply name_eqb_eq in Q; rewrite Q in B0; discriminate|reflexivity]).
  assert (Y : y = mkY f0 nm 0 false (image nm f0) [image nm f0]) by (unfold y, tag_start, write_script_tag, put_tag; cbn [y_f y_name y_wait y_busy y_tag y_queue]; rewrite D; reflexivity).
  clearbody y. subst y. split; [reflexivity|].
  assert (S4 : exists t q, tsteps (firstn 4 es) (mkY f0 nm 0 false (image nm f0) [image nm f0]) = mkY f0 nm 0 true t q).
  { cbn [es firstn]. rewrite !tsteps_cons. unfold tstep. cbn [y_busy y_wait y_f with_f with_lock y_name y_tag y_queue negb andb]. change (take_command f0) with f0. change (will_run true f0) with true.
    cbn [Z.add Z.ltb Z.compare Z.sub Z.opp Pos.sub Z.pos_sub negb andb with_lock y_wait y_f y_busy with_f y_queue y_name y_tag]. rewrite B0.
    unfold write_script_tag, put_tag. cbn [with_f y_f y_name y_wait y_busy y_tag y_queue]. change (set_enabled true (set_enabled false f0)) with f0. eexists. eexists. reflexivity. }
  destruct S4 as (t & q & S4). assert (S5 : tsteps es (mkY f0 nm 0 false (image nm f0) [image nm f0]) = tstep (mkY f0 nm 0 true t q) (TEnd false)).
  { change es with (firstn 4 es ++ [TEnd false]). rewrite tsteps_app, S4. reflexivity. }
  rewrite S5. repeat split.
Qed.
(** what a write to the tag comes to when the main thread has nothing else to do *)
Lemma set_same b f : f_enabled f = b -> set_enabled b f = f.
Proof. destruct f. cbn. intros ->. reflexivity. Qed.
Lemma user_settles nm f w bz v : bytes_eqb v (image nm f) = false -> let f1 := set_enabled (Z.testbit (nthb v 32) 0) f in
  tsteps [TUser v; TCallback; TCallback] (mkY f nm w bz (image nm f) []) = mkY f1 nm w bz (image nm f1) [].
Proof.
  intros D f1. rewrite tsteps_cons. replace (tstep (mkY f nm w bz (image nm f) []) (TUser v)) with (mkY f nm w bz v [v]) by (cbn [tstep put_tag]; unfold put_tag; cbn [y_f y_name y_wait y_busy y_tag y_queue]; rewrite D; reflexivity).
  rewrite tsteps_cons. replace (tstep (mkY f nm w bz v [v]) TCallback) with (mkY f1 nm w bz (image nm f1) (if bytes_eqb (image nm f1) v then [] else [image nm f1])) by reflexivity.
  destruct (bytes_eqb (image nm f1) v); [reflexivity|]. cbn [tsteps fold_left]. unfold tstep. cbn [y_queue y_f y_name y_wait y_busy y_tag]. rewrite image_bit, (set_same _ _ eq_refl).
  unfold write_script_tag, put_tag. cbn [with_f y_queue y_f y_name y_wait y_busy y_tag]. unfold bytes_eqb. rewrite name_eqb_refl. reflexivity.
Qed.
(** an older command overrules a newer write to the tag: a user disables the script, both the script and its tag say so, and it runs *)
Theorem C130_order_refuted : forall nm f v, f_failed f = false -> f_enabled f = true -> off v ->
  let y1 := tsteps [TCmd true; TUser v; TCallback; TCallback] (mkY f nm 0 false (image nm f) []) in
  f_enabled (y_f y1) = false /\ off (y_tag y1) /\ y_queue y1 = [] /\ begun [TCheck true; TBegin] y1 = 1.
Proof.
  intros nm f v F E O y1. set (g := set_command true f). assert (Y : y1 = mkY (set_enabled false g) nm 0 false (image nm (set_enabled false g)) []).
  { unfold y1. rewrite tsteps_cons. change (tstep (mkY f nm 0 false (image nm f) []) (TCmd true)) with (mkY g nm 0 false (image nm g) []). rewrite user_settles; [rewrite O; reflexivity|].
    destruct (bytes_eqb v (image nm g)) eqn:Q; [|reflexivity]. apply name_eqb_eq in Q. red in O. rewrite Q, image_bit in O. cbn [g set_command f_enabled] in O. congruence. }
  rewrite Y. split; [reflexivity|]. split; [unfold off; cbn [y_tag]; rewrite image_bit; reflexivity|]. split; [reflexivity|]. unfold begun. cbn [tstep y_f]. unfold take_command, will_run. cbn [g set_enabled set_command f_command].
  change (1 =? 0) with false. change (1 =? 1) with true. cbv iota. cbn. rewrite F. reflexivity.
Qed.
(** every run that raises an error leaves the message on the Lua stack *)
Definition failing : body_t := fun s t => (s, t, false, true).
Theorem C130_stack_refuted : forall X s t n, exists t', run_many X (repeat failing (Datatypes.S n)) (mkSR (new_flags true false) [] t 0) s =
  Done (s, mkSR (mkF true false false 0 false (u64 (Z.of_nat (Datatypes.S n)))) [] t' (Z.of_nat (Datatypes.S n))).
Proof.
  intros X s t n. assert (G : forall n f t k, f_enabled f = true -> f_failed f = false -> f_foe f = false -> f_command f = 0 -> exists t', run_many X (repeat failing (Datatypes.S n)) (mkSR f [] t k) s =
    Done (s, mkSR (mkF true false false 0 false (u64 (f_exec f + Z.of_nat (Datatypes.S n)))) [] t' (k + Z.of_nat (Datatypes.S n)))).
  { clear. induction n as [|n IH]; intros f t k E F O C.
    - cbn [repeat run_many]. unfold run_script. cbn [sr_f sr_gs sr_lua sr_stack]. unfold take_command. rewrite C. change (0 =? 0) with true. cbv iota. unfold will_run. rewrite E, F. cbn [orb negb receive receive_globals rbind failing send_globals].
      eexists. unfold end_run. rewrite E, F, O, C. cbn [orb andb]. f_equal. f_equal. f_equal. lia.
    - change (repeat failing (Datatypes.S (Datatypes.S n))) with (failing :: repeat failing (Datatypes.S n)). cbn [run_many]. unfold run_script at 1. cbn [sr_f sr_gs sr_lua sr_stack]. unfold take_command. rewrite C. change (0 =? 0) with true. cbv iota. unfold will_run. rewrite E, F.
      cbn [orb negb receive receive_globals rbind failing send_globals]. unfold end_run. rewrite E, F, O, C. cbn [orb andb].
      destruct (IH (mkF true false false 0 false (u64 (f_exec f + 1))) (setg (str "_firstrun") (LBool (f_first f)) t) (k + 1 + 0) eq_refl eq_refl eq_refl eq_refl) as (t' & ->). exists t'. cbn [f_exec].
      unfold u64. rewrite Zplus_mod_idemp_l. f_equal. f_equal. f_equal; [f_equal; f_equal|]; lia. }
  destruct (G n (new_flags true false) t 0 eq_refl eq_refl eq_refl eq_refl) as (t' & ->). exists t'. reflexivity.
Qed.
Example C130_ex : let y0 := tag_start (str "ctl") (new_flags true true) in let es := [TCheck true; TBegin; TEnd false; TCallback; TCallback; TCmd false; TCheck true; TCheck true; TCmd true; TCheck true; TBegin; TEnd true] in
  ended es y0 = 2 /\ begun es y0 = 2 /\ f_exec (y_f (tsteps es y0)) = 2 /\ f_failed (y_f (tsteps es y0)) = true /\
  resting (tsteps (firstn 8 es) y0) /\ f_enabled (y_f (tsteps (firstn 8 es) y0)) = false /\ y_queue (tsteps (firstn 8 es) y0) = [] /\ y_busy (tsteps (firstn 11 es) y0) = true.
Proof. vm_compute. repeat split. Qed.

(** ** C131: the tag of a script *)
(** the tag shows name, enabled, failed and number of runs *)
Definition shows (nm : name) (f : flags) (v : list Z) : Prop :=
  zlen v = 41 /\ slice 0 (zlen nm) v = nm /\ (forall i, zlen nm <= i < 32 -> nthb v i = 0) /\
  Z.testbit (nthb v 32) 0 = f_enabled f /\ Z.testbit (nthb v 32) 1 = f_failed f /\ le_val (slice 33 8 v) = f_exec f.
Lemma image_shows nm f : zlen nm <= 32 -> 0 <= f_exec f < 18446744073709551616 -> shows nm f (image nm f).
Proof.
  intros L X. split; [apply image_len|]. assert (F : firstn 32 nm = nm) by (apply firstn_all2; unfold zlen in L; lia).
  assert (I : image nm f = nm ++ (zeros (32 - zlen nm) ++ [(if f_enabled f then 1 else 0) + (if f_failed f then 2 else 0)] ++ le_bytes 8 (f_exec f))) by (unfold image; rewrite F; reflexivity).
  split; [|split; [|split; [apply image_bit|split]]].
  - rewrite I. unfold slice. cbn [skipn Z.to_nat]. unfold zlen. rewrite Nat2Z.id, firstn_app, firstn_all, Nat.sub_diag. cbn [firstn]. apply app_nil_r.
  - intros i Hi. rewrite I. unfold nthb. assert (0 <= zlen nm) by apply zlen_nonneg. unfold zlen in *. rewrite app_nth2 by lia. unfold zeros. rewrite app_nth1 by (rewrite repeat_length; lia).
    apply nth_repeat.
  - rewrite image_flag. destruct (f_enabled f), (f_failed f); reflexivity.
  - destruct (image_parts nm f) as (p & Lp & ->). replace (slice 33 8 (p ++ [_] ++ le_bytes 8 (f_exec f))) with (le_bytes 8 (f_exec f)).
    + rewrite le_val_le_bytes. apply Z.mod_small. exact X.
    + unfold slice. rewrite app_assoc, skipn_app. replace (length (p ++ [(if f_enabled f then 1 else 0) + (if f_failed f then 2 else 0)])) with 33%nat by (rewrite app_length; unfold zlen in Lp; cbn; lia).
      rewrite skipn_all2 by (rewrite app_length; unfold zlen in Lp; cbn; lia). cbn [app]. change (Z.to_nat 33 - 33)%nat with 0%nat. cbn [skipn]. symmetry. apply firstn_all2. rewrite le_bytes_length. cbn. lia.
Qed.
(** When a run has come to its end, the tag shows the state of the script. *)
Theorem C131_run : forall y err, y_busy y = true -> zlen (y_name y) <= 32 -> let y1 := tstep y (TEnd err) in
  shows (y_name y) (y_f y1) (y_tag y1) /\ f_exec (y_f y1) = u64 (f_exec (y_f y) + 1).
Proof.
  intros y err B L y1. unfold y1, tstep. rewrite B. cbn [write_script_tag put_tag with_lock with_f y_f y_name y_tag]. split; [|reflexivity].
  apply image_shows; [exact L|]. cbn [end_run f_exec]. apply Z.mod_pos_bound. reflexivity.
Qed.
(** a write to the tag enables or disables the script, and the tag shows its state again, if the main thread is not disturbed.
    FULL STATEMENT: under all interleavings.  MISSING: writes while messages wait (C131_livelock_refuted) and while a command waits (C130_order_refuted). *)
Theorem C131_user_partial : forall nm f w busy v, zlen nm <= 32 -> 0 <= f_exec f < 18446744073709551616 ->
  let y1 := tsteps [TUser v; TCallback; TCallback] (mkY f nm w busy (image nm f) []) in
  f_enabled (y_f y1) = Z.testbit (nthb v 32) 0 /\ f_failed (y_f y1) = f_failed f /\ f_exec (y_f y1) = f_exec f /\ shows nm (y_f y1) (y_tag y1) /\ y_queue y1 = [].
Proof.
  intros nm f w busy v L X y1. destruct (bytes_eqb v (image nm f)) eqn:Q.
  - assert (Y : y1 = mkY f nm w busy v []). { unfold y1. rewrite tsteps_cons. cbn [tstep]. unfold put_tag. cbn [y_tag y_queue y_f y_name y_wait y_busy]. rewrite Q. reflexivity. }
    rewrite Y. apply name_eqb_eq in Q. subst v. cbn [y_f y_tag y_queue]. rewrite image_bit. repeat split; try reflexivity; apply image_shows; assumption.
  - unfold y1. rewrite user_settles by exact Q. cbn [y_f y_tag y_queue set_enabled f_enabled f_failed f_exec]. split; [reflexivity|]. split; [reflexivity|]. split; [reflexivity|]. split; [apply image_shows; assumption|reflexivity].
Qed.
(** a script that another script disables: the tag says for ever that it is enabled *)
Theorem C131_stale_refuted : forall nm f n, let y1 := tsteps (TCmd false :: repeat (TCheck true) (Datatypes.S n)) (mkY f nm 0 false (image nm f) []) in f_enabled f = true ->
  f_enabled (y_f y1) = false /\ Z.testbit (nthb (y_tag y1) 32) 0 = true /\ y_queue y1 = [] /\ resting y1.
Proof.
  intros nm f n y1 E. assert (Y : y1 = mkY (mkF false (f_failed f) (f_first f) 0 (f_foe f) (f_exec f)) nm 0 false (image nm f) []).
  { unfold y1. rewrite tsteps_cons. cbn [repeat]. rewrite tsteps_cons. replace (tstep _ (TCheck true)) with (mkY (mkF false (f_failed f) (f_first f) 0 (f_foe f) (f_exec f)) nm 0 false (image nm f) []).
    - induction n as [|n IH]; [reflexivity|]. cbn [repeat]. rewrite tsteps_cons. replace (tstep _ (TCheck true)) with (mkY (mkF false (f_failed f) (f_first f) 0 (f_foe f) (f_exec f)) nm 0 false (image nm f) []); [exact IH|].
      cbn. unfold will_run, with_f, with_lock. cbn. rewrite orb_true_r. reflexivity.
    - cbn. unfold take_command, will_run, with_f, with_lock. cbn. rewrite orb_true_r. reflexivity. }
  rewrite Y. cbn [y_f y_tag y_queue f_enabled]. rewrite image_bit. repeat split. exact E.
Qed.
(** A user disables the script while it runs: the message about this write and the one about the write at the end of the run chase each
    other, and the script is enabled and disabled in turn for ever. *)
Theorem C131_livelock_refuted : forall nm f v, f_enabled f = true -> f_failed f = false -> f_command f = 0 -> off v -> let y0 := mkY f nm 0 false (image nm f) [] in
  forall k, let y := tsteps ([TCheck true; TBegin; TUser v; TEnd false] ++ repeat TCallback k) y0 in zlen (y_queue y) = 2 /\ f_enabled (y_f y) = Nat.even k.
Proof.
  intros nm f v E F C O y0 k y. set (g := end_run false f). assert (Eg : f_enabled g = true) by exact E.
  assert (D : forall f1, f_enabled f1 = true -> bytes_eqb v (image nm f1) = false /\ bytes_eqb (image nm f1) v = false).
  { intros f1 E1. assert (N : v <> image nm f1) by (intros N; red in O; rewrite N, image_bit in O; congruence).
    split; (destruct (bytes_eqb _ _) eqn:Q; [apply name_eqb_eq in Q; congruence|reflexivity]). }
  assert (TK : take_command f = f) by (unfold take_command; rewrite C; reflexivity). assert (WR : will_run true f = true) by (unfold will_run; rewrite E, F; reflexivity).
  assert (Y : tsteps [TCheck true; TBegin; TUser v; TEnd false] y0 = mkY g nm 0 false (image nm g) [v; image nm g]).
  { unfold y0. rewrite tsteps_cons. replace (tstep _ (TCheck true)) with (mkY f nm 1 false (image nm f) []) by (cbn [tstep y_f]; rewrite TK, WR; reflexivity).
    rewrite tsteps_cons. change (tstep _ TBegin) with (mkY f nm 0 true (image nm f) []). rewrite tsteps_cons.
    replace (tstep _ (TUser v)) with (mkY f nm 0 true v [v]) by (cbn [tstep]; unfold put_tag; cbn [y_f y_name y_wait y_busy y_tag y_queue]; rewrite (proj1 (D f E)); reflexivity).
    cbn [tsteps fold_left tstep y_busy write_script_tag]. unfold write_script_tag, put_tag. cbn [with_lock with_f y_f y_name y_wait y_busy y_tag y_queue]. fold g. rewrite (proj2 (D g Eg)). reflexivity. }
  set (g0 := set_enabled false g). assert (G1 : set_enabled true g = g) by (apply set_same; exact Eg).
  assert (ST : forall k v', off v' -> let y := tsteps (repeat TCallback k) (mkY g nm 0 false (image nm g) [v'; image nm g]) in zlen (y_queue y) = 2 /\ f_enabled (y_f y) = Nat.even k /\ True).
  { assert (S1 : forall v', off v' -> tstep (mkY g nm 0 false (image nm g) [v'; image nm g]) TCallback = mkY g0 nm 0 false (image nm g0) [image nm g; image nm g0]).
    { intros v' O'. unfold tstep. cbn [y_queue]. red in O'. rewrite O'. unfold write_script_tag, put_tag. cbn [with_f y_f y_name y_wait y_busy y_tag y_queue]. fold g0. rewrite image_differs by (cbn [g0 set_enabled f_enabled]; congruence). reflexivity. }
    assert (S2 : tstep (mkY g0 nm 0 false (image nm g0) [image nm g; image nm g0]) TCallback = mkY g nm 0 false (image nm g) [image nm g0; image nm g]).
    { unfold tstep. cbn [y_queue]. rewrite image_bit, Eg. unfold write_script_tag, put_tag. cbn [with_f y_f y_name y_wait y_busy y_tag y_queue]. change (set_enabled true g0) with (set_enabled true g). rewrite G1, image_differs by (cbn [g0 set_enabled f_enabled]; congruence). reflexivity. }
    intros k'. induction k' as [k' IH] using (well_founded_induction lt_wf). intros v' O' y'. destruct k' as [|[|k']].
    - repeat split. exact Eg.
    - unfold y'. cbn [repeat]. rewrite tsteps_cons, S1 by exact O'. repeat split.
    - unfold y'. cbn [repeat]. rewrite tsteps_cons, S1 by exact O'. rewrite tsteps_cons, S2. apply (IH k' ltac:(lia)). unfold off. rewrite image_bit. reflexivity. }
  unfold y. rewrite tsteps_app, Y. destruct (ST k v O) as (A & B & _). split; assumption.
Qed.
Example C131_ex : let f := mkF true false false 0 true 5 in let nm := str "ctl" in let v := repeat 0 41 in off v /\ image nm f = str "ctl" ++ zeros 29 ++ [1; 5; 0; 0; 0; 0; 0; 0; 0] /\
  y_queue (tsteps [TCheck true; TBegin; TEnd false; TCallback] (mkY f nm 0 false (image nm f) [])) = [] /\
  (let y := tsteps [TUser v; TCallback] (mkY f nm 0 false (image nm f) []) in f_enabled (y_f y) = false /\ y_tag y = str "ctl" ++ zeros 29 ++ [0; 5; 0; 0; 0; 0; 0; 0; 0]).
Proof. vm_compute. repeat split. Qed.

(** ** C132: names and numbers of scripts *)
Lemma find_hit nm : forall l1 l2 n, ~ In nm l1 -> find_script nm (map Some (l1 ++ nm :: l2)) n = Done (Some (n + zlen l1)).
Proof.
  induction l1 as [|x l1 IH]; intros l2 n N; cbn [app map find_script]; [rewrite name_eqb_refl; do 2 f_equal; cbn; lia|].
  destruct (name_eqb nm x) eqn:Q; [apply name_eqb_eq in Q; subst; exfalso; apply N; left; reflexivity|]. rewrite IH by (intros I; apply N; right; exact I). rewrite zlen_cons. do 2 f_equal. lia.
Qed.
Lemma find_miss nm : forall l n, ~ In nm l -> find_script nm (map Some l) n = Done None.
Proof.
  induction l as [|x l IH]; intros n N; cbn [map find_script]; [reflexivity|]. destruct (name_eqb nm x) eqn:Q; [apply name_eqb_eq in Q; subst; exfalso; apply N; left; reflexivity|].
  apply IH. intros I. apply N. right. exact I.
Qed.
(** Names and numbers lead to each other, and enable_script and disable_script take either.
    FULL STATEMENT: for every argument.  MISSING: negative numbers and numbers of more than 31 bits (below), scripts without a name (C133_refused_refuted). *)
Theorem C132_found_partial : forall L fmt (l1 : list name) (nm : name) l2, let names : list (option name) := map Some (l1 ++ nm :: l2) in let n := zlen l1 in
  ~ In nm l1 -> before_nul nm = nm -> zlen names < 2147483648 ->
  get_script_id fmt names (LStr nm) = Done (LOk (LInt n)) /\ get_script_name L names (LInt n) = Done (LOk (LStr nm)) /\
  command_target L names (LStr nm) = Done (Some n) /\ command_target L names (LInt n) = Done (Some n).
Proof.
  intros L fmt l1 nm l2 names n N B Z. assert (P : 0 <= n) by apply zlen_nonneg. assert (LN : zlen names = n + 1 + zlen l2) by (unfold names, zlen; rewrite map_length, app_length; cbn [length]; unfold n, zlen; lia).
  assert (P2 := zlen_nonneg l2). assert (ZN : znth names n = Some (Some nm)).
  { unfold names. rewrite map_app, znth_app2 by (unfold zlen; rewrite map_length; unfold n, zlen; lia). replace (n - zlen (map Some l1)) with 0 by (unfold zlen; rewrite map_length; unfold n, zlen; lia). reflexivity. }
  assert (FH : find_script nm names 0 = Done (Some n)) by (unfold names; rewrite find_hit by exact N; reflexivity). clearbody names n.
  unfold get_script_id, get_script_name, command_target. cbn [tostr tointx toint]. rewrite B, FH. cbn [rbind]. cbv zeta.
  rewrite s32_small by lia. replace (n <? zlen names) with true by lia. replace (0 <=? n) with true by lia. rewrite ZN. cbn [andb rbind]. repeat split.
Qed.
Theorem C132_unknown_partial : forall L fmt (l : list name) nm z, let names : list (option name) := map Some l in ~ In (before_nul nm) l -> zlen names <= z < 2147483648 ->
  get_script_id fmt names (LStr nm) = Done (LOk LNil) /\ get_script_name L names (LInt z) = Done (LOk LNil) /\
  command_target L names (LStr nm) = Done None /\ command_target L names (LInt z) = Done None /\ (forall y, -2147483648 <= y < 0 -> command_target L names (LInt y) = Done None).
Proof.
  intros L fmt l nm z names N Z. assert (P := zlen_nonneg names). unfold get_script_id, get_script_name, command_target. cbn [tostr tointx toint]. unfold names. rewrite find_miss by exact N. fold names. cbn [rbind].
  rewrite s32_small by lia. replace (z <? zlen names) with false by lia. rewrite andb_false_r. repeat split. intros y Hy. rewrite s32_small by lia. replace (0 <=? y) with false by lia. reflexivity.
Qed.
Theorem C132_negative_refuted : forall L names z, -2147483648 <= z < 0 -> get_script_name L names (LInt z) = Undef UOob.
Proof.
  intros L names z H. unfold get_script_name. cbn [tointx]. rewrite s32_small by lia. assert (P := zlen_nonneg names). replace (z <? zlen names) with true by lia. replace (znth names z) with (@None (option name)) by (symmetry; apply znth_none; lia). reflexivity.
Qed.
(** the number 4294967296 stands for the first script *)
Theorem C132_wrap_refuted : forall L (nm : name) l, command_target L (map Some (nm :: l)) (LInt 4294967296) = Done (Some 0) /\ get_script_name L (map Some (nm :: l)) (LInt 4294967296) = Done (LOk (LStr nm)).
Proof.
  intros L nm l. unfold command_target, get_script_name. cbn [toint tointx rbind]. change (s32 4294967296) with 0. assert (P := zlen_nonneg (map Some l)). cbn [map]. rewrite zlen_cons.
  replace (0 <? 1 + zlen (map Some l)) with true by lia. split; reflexivity.
Qed.
Example C132_ex : forall L fmt, let names := map Some [str "a"; str "b"; str "c"] in get_script_id fmt names (LStr (str "b")) = Done (LOk (LInt 1)) /\ get_script_id fmt names (LStr (str "d")) = Done (LOk LNil) /\
  command_target L names (LStr (str "c")) = Done (Some 2) /\ command_target L names (LInt 5) = Done None.
Proof. intros L fmt. repeat split. Qed.

(** ** C133: the configuration of a script *)
(** trigger [tr] is what the entry [v] of the table says *)
Definition configured (L : lenv) (fmt : lval -> list Z) (v : lval) (tr : option trigger) : Prop :=
  (v = LNil /\ tr = None) \/
  exists t tg ty, v = LTab t /\ tostr fmt (field (str "tag") t) = Some tg /\ tostr fmt (field (str "type") t) = Some ty /\ event_type ty <> 0 /\
    tr = Some (mkT tg (event_type ty) (s32 (toint L (field (str "count") t))) (tonum L (field (str "value") t))).
Lemma conf_spec L fmt v tr : conf_trigger L fmt v = Done (inl tr) -> configured L fmt v tr.
Proof.
  intros H. unfold conf_trigger in H. destruct v as [| | | | |t]; try discriminate; [left; split; [reflexivity|congruence]|]. right.
  unfold set_trigger in H. destruct (tostr fmt (field (str "tag") t)) as [tg|] eqn:Q1; [|discriminate]. destruct (tostr fmt (field (str "type") t)) as [ty|] eqn:Q2; [|discriminate].
  destruct (event_type ty =? 0) eqn:Q3; cbn [rbind] in H; [discriminate|]. exists t, tg, ty. split; [reflexivity|]. split; [exact Q1|]. split; [exact Q2|]. split; [lia|]. congruence.
Qed.
(** A table that is accepted adds one script that has what the table says; an entry that is not there has its documented default.
    FULL STATEMENT: also the default of auto_run.  MISSING: it is true (below). *)
Theorem C133_stored_partial : forall L fmt t ks ks', add_script L fmt (LTab t) ks = Done (ks', false) ->
  exists k nm, ks' = ks ++ [k] /\ tostr fmt (field (str "name") t) = Some nm /\ k_name k = Some nm /\ has_name nm ks = false /\
  k_thread k = tostr fmt (field (str "thread") t) /\ k_file k = Some (tostr fmt (field (str "filename") t)) /\
  (k_enabled k = true <-> (field (str "enable") t = LNil \/ tobool (field (str "enable") t) = true) /\ tostr fmt (field (str "filename") t) <> None) /\
  (k_foe k = true <-> (field (str "fail_on_error") t = LNil \/ tobool (field (str "fail_on_error") t) = true)) /\
  (k_reload k = true <-> tobool (field (str "auto_reload") t) = true) /\
  (field (str "auto_run") t <> LNil -> k_auto k = tobool (field (str "auto_run") t)) /\
  configured L fmt (field (str "trigger") t) (k_trig k) /\ configured L fmt (field (str "enable_trigger") t) (k_en k) /\ configured L fmt (field (str "disable_trigger") t) (k_dis k).
Proof.
  intros L fmt t ks ks' H. unfold add_script in H. cbv zeta in H. destruct (tostr fmt (field (str "name") t)) as [nm|]; [|discriminate]. destruct (has_name nm ks) eqn:HN; [discriminate|].
  apply rbind_done in H as ([tr|] & H1 & H); [|discriminate]. apply rbind_done in H as ([en|] & H2 & H); [|discriminate]. apply rbind_done in H as ([di|] & H3 & H); [|discriminate].
  injection H as <-. eexists. exists nm. split; [reflexivity|]. cbn [k_name k_thread k_file k_enabled k_foe k_auto k_reload k_trig k_en k_dis].
  split; [reflexivity|]. split; [reflexivity|]. split; [exact HN|]. split; [reflexivity|]. split; [reflexivity|]. split.
  - destruct (tostr fmt (field (str "filename") t)); destruct (field (str "enable") t); cbn [tobool]; intuition (try congruence; try discriminate).
  - split; [unfold flag_field; destruct (field (str "fail_on_error") t); cbn [tobool]; intuition (try congruence; try discriminate)|].
    split; [unfold flag_field; destruct (field (str "auto_reload") t); cbn [tobool]; intuition (try congruence; try discriminate)|].
    split; [intros N; unfold flag_field; destruct (field (str "auto_run") t); cbn [tobool]; congruence|].
    split; [apply conf_spec; exact H1|]. split; apply conf_spec; assumption.
Qed.
(** whatever the configuration file does, catching errors or not, no two scripts have the same name *)
Fixpoint add_all (L : lenv) (fmt : lval -> list Z) (vs : list lval) (ks : list sconf) : run (list sconf) :=
  match vs with [] => Done ks | v :: r => x <-- add_script L fmt v ks ;; add_all L fmt r (fst x) end.
Definition names_of (ks : list sconf) : list name := flat_map (fun k => match k_name k with Some n => [n] | None => [] end) ks.
Lemma has_name_spec nm ks : has_name nm ks = false -> ~ In nm (names_of ks).
Proof.
  induction ks as [|k ks IH]; intros H I; [exact I|]. cbn [has_name names_of flat_map] in *. destruct (k_name k) as [x|]; [|exact (IH H I)].
  apply orb_false_iff in H as (H1 & H2). cbn [app] in I. destruct I as [->|I]; [rewrite name_eqb_refl in H1; discriminate|exact (IH H2 I)].
Qed.
Lemma add_script_shape L fmt v ks ks' e : add_script L fmt v ks = Done (ks', e) ->
  ks' = ks \/ exists k, ks' = ks ++ [k] /\ forall nm, k_name k = Some nm -> has_name nm ks = false.
Proof.
  intros H. unfold add_script in H. destruct v as [| | | | |t]; try (injection H as <- _; left; reflexivity). cbv zeta in H.
  destruct (tostr fmt (field (str "name") t)) as [nm|]; [|injection H as <- _; right; eexists; split; [reflexivity|discriminate]].
  destruct (has_name nm ks) eqn:HN; [injection H as <- _; left; reflexivity|]. right.
  apply rbind_done in H as ([tr|] & _ & H); [|injection H as <- _; eexists; split; [reflexivity|]; intros nm' [= <-]; exact HN].
  apply rbind_done in H as ([en|] & _ & H); [|injection H as <- _; eexists; split; [reflexivity|]; intros nm' [= <-]; exact HN].
  apply rbind_done in H as ([di|] & _ & H); injection H as <- _; eexists; (split; [reflexivity|]); intros nm' [= <-]; exact HN.
Qed.
Theorem C133_names : forall L fmt vs ks ks', NoDup (names_of ks) -> add_all L fmt vs ks = Done ks' -> NoDup (names_of ks').
Proof.
  induction vs as [|v vs IH]; intros ks ks' N H; cbn [add_all] in H; [congruence|]. apply rbind_done in H as ((k1 & e) & H1 & H). eapply IH; [|exact H]. cbn [fst].
  apply add_script_shape in H1 as [->|(k & -> & K)]; [exact N|]. unfold names_of in *. rewrite flat_map_app. cbn [flat_map]. rewrite app_nil_r. destruct (k_name k) as [nm|]; [|rewrite app_nil_r; exact N].
  apply (Permutation_NoDup (Permutation_cons_append _ _)). constructor; [apply has_name_spec, K; reflexivity|exact N].
Qed.
Definition minimal : gtab := [(LuaConv.KS (str "name"), LStr (str "s")); (LuaConv.KS (str "filename"), LStr (str "s.lua"));
  (LuaConv.KS (str "trigger"), LTab [(LuaConv.KS (str "tag"), LStr (str "t")); (LuaConv.KS (str "type"), LStr (str "change"))])].
(** auto_run: "The default is false", but a triggered script is run once at the start *)
Theorem C133_auto_refuted : forall L fmt, field (str "auto_run") minimal = LNil /\ exists k, add_script L fmt (LTab minimal) [] = Done ([k], false) /\ k_auto k = true /\ auto_scripts [k] 0 = [0].
Proof. intros L fmt. split; [reflexivity|]. eexists. split; [reflexivity|]. split; reflexivity. Qed.
(** a trigger without a tag or without a type *)
Theorem C133_trigger_refuted : forall L fmt t tt ks nm, tostr fmt (field (str "name") t) = Some nm -> has_name nm ks = false -> field (str "trigger") t = LTab tt ->
  field (str "tag") tt = LNil \/ field (str "type") tt = LNil -> add_script L fmt (LTab t) ks = Undef UNull.
Proof.
  intros L fmt t tt ks nm N H T D. unfold add_script. rewrite N, H, T. cbn [conf_trigger]. unfold set_trigger. destruct D as [D|D]; rewrite D; [reflexivity|]. destruct (tostr fmt (field (str "tag") tt)); reflexivity.
Qed.
(** A table that is refused because it has no name stays in the list: the search for any script behind it uses NULL *)
Theorem C133_refused_refuted : forall L fmt t ks, field (str "name") t = LNil -> exists k, add_script L fmt (LTab t) ks = Done (ks ++ [k], true) /\ k_name k = None /\ k_file k = None /\
  forall nm l, ks = [] -> find_script nm (map k_name ([k] ++ l)) 0 = Undef UNull.
Proof. intros L fmt t ks N. unfold add_script. rewrite N. cbn [tostr]. eexists. split; [reflexivity|]. repeat split. Qed.
Example C133_ex : forall L fmt, exists ks, add_all L fmt [LTab minimal; LTab minimal; LTab [(LuaConv.KS (str "name"), LStr (str "u")); (LuaConv.KS (str "enable"), LBool false)]; LNil] [] = Done ks /\
  names_of ks = [str "s"; str "u"] /\ map k_enabled ks = [true; false] /\ map k_trig ks = [Some (mkT (str "t") EV_CHANGE 0 (FZ 0)); None].
Proof. intros L fmt. eexists. split; [vm_compute; reflexivity|]. repeat split. Qed.

(** ** C134: interval threads *)
(** A thread runs the scripts that name it, each once per round, in the order in which they were added. *)
Lemma thread_scripts_range tn : forall ks n i, In i (thread_scripts tn ks n) <-> exists k, n <= i /\ znth ks (i - n) = Some k /\ k_thread k = Some tn.
Proof.
  induction ks as [|k ks IH]; intros n i; cbn [thread_scripts]; [split; [intros []|]; intros (k & _ & H & _); apply znth_range in H; cbn in H; lia|].
  assert (TL : (exists k', n + 1 <= i /\ znth ks (i - (n + 1)) = Some k' /\ k_thread k' = Some tn) <-> (exists k', n < i /\ znth (k :: ks) (i - n) = Some k' /\ k_thread k' = Some tn)).
  { split; intros (k' & A & B & C); exists k'; (split; [lia|]); (split; [|exact C]).
    - replace (i - n) with (i - (n + 1) + 1) by lia. rewrite znth_S by lia. exact B.
    - replace (i - n) with (i - (n + 1) + 1) in B by lia. rewrite znth_S in B by lia. exact B. }
  assert (HD : forall P, (exists k', n <= i /\ znth (k :: ks) (i - n) = Some k' /\ P k') <-> (i = n /\ P k) \/ exists k', n < i /\ znth (k :: ks) (i - n) = Some k' /\ P k').
  { intros P. split.
    - intros (k' & A & B & C). destruct (Z.eq_dec i n) as [->|Q]; [left; rewrite Z.sub_diag, znth_0 in B; injection B as <-; split; [reflexivity|exact C]|right; exists k'; split; [lia|split; assumption]].
    - intros [(-> & C)|(k' & A & B & C)]; [exists k; split; [lia|]; rewrite Z.sub_diag, znth_0; split; [reflexivity|exact C]|exists k'; split; [lia|split; assumption]]. }
  rewrite (HD (fun k' => k_thread k' = Some tn)), <- TL, <- IH. destruct (k_thread k) as [x|]; [destruct (name_eqb tn x) eqn:Q|].
  - apply name_eqb_eq in Q. subst x. cbn [In]. split; [intros [->|I]; [left; split; reflexivity|right; exact I]|intros [(-> & _)|I]; [left; reflexivity|right; exact I]].
  - split; [intros I; right; exact I|intros [(_ & [= ->])|I]; [rewrite name_eqb_refl in Q; discriminate|exact I]].
  - split; [intros I; right; exact I|intros [(_ & C)|I]; [discriminate|exact I]].
Qed.
Lemma thread_scripts_sorted tn : forall ks n, StronglySorted Z.lt (thread_scripts tn ks n).
Proof.
  induction ks as [|k ks IH]; intros n; cbn [thread_scripts]; [constructor|]. destruct (k_thread k) as [x|]; [destruct (name_eqb tn x)|]; try apply IH.
  constructor; [apply IH|]. apply Forall_forall. intros i I. apply thread_scripts_range in I as (k' & A & _). lia.
Qed.
Theorem C134_scripts : forall tn ks, (forall i, In i (thread_scripts tn ks 0) <-> exists k, znth ks i = Some k /\ k_thread k = Some tn) /\ StronglySorted Z.lt (thread_scripts tn ks 0).
Proof.
  intros tn ks. split; [|apply thread_scripts_sorted]. intros i. rewrite thread_scripts_range. split.
  - intros (k & _ & B & C). rewrite Z.sub_0_r in B. exists k. split; assumption.
  - intros (k & B & C). exists k. assert (R := znth_range _ _ _ B). rewrite Z.sub_0_r. repeat split; [lia|assumption..].
Qed.
(** the time from the start of one round to the start of the next, in nanoseconds: the scripts and the sleep *)
Definition took (s0 n0 s1 n1 : Z) : Z := (s1 - s0) * 1000000000 + (n1 - n0).
(** The period of a thread is its interval.
    FULL STATEMENT: whenever the scripts take less than the interval.  MISSING: the nanoseconds are added instead of subtracted. *)
Theorem C134_period_partial : forall interval s0 n0 s1 n1 t, n0 = n1 -> sleep_time interval s0 n0 s1 n1 = Some t -> took s0 n0 s1 n1 + 1000 * t = interval * 1000000.
Proof.
  intros interval s0 n0 s1 n1 t <- H. unfold sleep_time in H. cbv zeta in H. destruct (_ <? 0) eqn:Q; [discriminate|]. injection H as <-. unfold took.
  replace (interval * 1000 * 1000 - (s1 - s0) * 1000000 * 1000 + (n0 - n0)) with ((interval * 1000 - (s1 - s0) * 1000000) * 1000) in * by lia. rewrite Z.quot_mul in * by lia. lia.
Qed.
(** the scripts begin and end in the same second: the time they take is added to the period twice *)
Theorem C134_period_refuted : forall interval s n0 n1, 0 <= interval -> n0 <= n1 -> exists t, sleep_time interval s n0 s n1 = Some t /\
  interval * 1000000 + 2 * took s n0 s n1 - 1000 < took s n0 s n1 + 1000 * t <= interval * 1000000 + 2 * took s n0 s n1.
Proof.
  intros interval s n0 n1 I N. unfold sleep_time, took. cbv zeta. replace (interval * 1000 * 1000 - (s - s) * 1000000 * 1000 + (n1 - n0)) with (interval * 1000000 + (n1 - n0)) by lia.
  rewrite Z.quot_div_nonneg by lia. replace ((interval * 1000000 + (n1 - n0)) / 1000 <? 0) with false by lia. eexists. split; [reflexivity|]. lia.
Qed.
(** 200 ms of an interval of 500 ms that reach into the next second count as an overrun, and the thread does not sleep *)
Theorem C134_overrun_refuted : sleep_time 500 7 900000000 8 100000000 = None /\ took 7 900000000 8 100000000 = 200000000.
Proof. split; reflexivity. Qed.
Example C134_ex : let k t := mkK true t None None None None None true true false in
  thread_scripts (str "fast") [k (Some (str "fast")); k None; k (Some (str "slow")); k (Some (str "fast"))] 0 = [0; 3] /\
  sleep_time 500 7 100000000 7 100000000 = Some 500000 /\ sleep_time 100 7 100000000 7 120000000 = Some 120000 /\ took 7 100000000 7 120000000 = 20000000.
Proof. repeat split. Qed.

(** ** C135: the events of the triggers *)
Definition pending (ps : list ptrig) : list Z := map p_id (filter (fun p => p_size p =? 0) ps).
Lemma round_spec ans k : (forall i rh re size, ans k i = (rh, re, size) -> rh = 0 -> re = 0 /\ size <> 0) -> forall ps fails ps' l,
  trigger_round ans k ps = (fails, ps', l) -> Permutation (pending ps) (l ++ pending ps') /\ fails = zlen (pending ps').
Proof.
  intros A. induction ps as [|p ps IH]; intros fails ps' l H; cbn [trigger_round] in H; [injection H as <- <- <-; split; [constructor|reflexivity]|].
  destruct (trigger_round ans k ps) as ((f1 & ps1) & l1) eqn:Q. destruct (IH _ _ _ eq_refl) as (I1 & I2). destruct (p_size p =? 0) eqn:Qp.
  - destruct (ans k (p_id p)) as ((rh & re) & size) eqn:Qa. destruct (rh =? 0) eqn:Qh; cbn [negb] in H.
    + destruct (A _ _ _ _ Qa ltac:(lia)) as (-> & Sz). change (negb (0 =? 0)) with false in H. cbv iota in H. injection H as <- <- <-.
      unfold pending in *. cbn [filter p_size]. rewrite Qp. replace (size =? 0) with false by lia. cbn [map app]. split; [constructor; exact I1|exact I2].
    + injection H as <- <- <-. unfold pending in *. cbn [filter p_size]. rewrite Qp. change (0 =? 0) with true. cbv iota. cbn [map p_id]. split; [apply Permutation_cons_app; exact I1|rewrite zlen_cons; lia].
  - injection H as <- <- <-. unfold pending in *. cbn [filter]. rewrite Qp. split; assumption.
Qed.
(** When the loop ends, every trigger has exactly one event.
    FULL STATEMENT: for every answer of the server.  MISSING: an answer that gives a handle and then refuses the event (below). *)
Theorem C135_once_partial : forall n ans ps ps' l, (forall k i rh re size, ans k i = (rh, re, size) -> rh = 0 -> re = 0 /\ size <> 0) ->
  (forall p, In p ps -> p_size p = 0) -> trigger_rounds n ans 0 ps = (true, ps', l) -> Permutation (map p_id ps) l.
Proof.
  intros n ans ps ps' l A Z H. assert (G : forall n k ps b ps' l, trigger_rounds n ans k ps = (b, ps', l) -> Permutation (pending ps) (l ++ pending ps') /\ (b = true -> pending ps' = [])).
  { clear - A. induction n as [|n IH]; intros k ps b ps' l H; cbn [trigger_rounds] in H; [injection H as <- <- <-; split; [apply Permutation_refl|discriminate]|].
    destruct (trigger_round ans k ps) as ((f1 & ps1) & l1) eqn:Q. destruct (round_spec ans k (A k) _ _ _ _ Q) as (I1 & I2). destruct (f1 =? 0) eqn:Qf.
    - injection H as <- <- <-. split; [exact I1|]. intros _. destruct (pending ps1) as [|x r]; [reflexivity|]. rewrite zlen_cons in I2. assert (P := zlen_nonneg r). lia.
    - destruct (trigger_rounds n ans (k + 1) ps1) as ((b1 & ps2) & l2) eqn:Q2. injection H as <- <- <-. destruct (IH _ _ _ _ _ Q2) as (J1 & J2). split; [|exact J2].
      rewrite <- app_assoc. eapply Permutation_trans; [exact I1|]. apply Permutation_app_head. exact J1. }
  destruct (G _ _ _ _ _ _ H) as (G1 & G2). rewrite (G2 eq_refl), app_nil_r in G1. replace (map p_id ps) with (pending ps); [exact G1|]. unfold pending. f_equal. clear - Z.
  induction ps as [|p ps IH]; [reflexivity|]. cbn [filter]. rewrite (Z p (or_introl eq_refl)). change (0 =? 0) with true. cbv iota. f_equal. apply IH. intros q I. apply Z. right. exact I.
Qed.
(** dax_event_add fails once: no event is ever created, and the module says that all were *)
Theorem C135_lost_refuted : forall n, trigger_rounds (Datatypes.S (Datatypes.S n)) (fun k i => if (k =? 0) && (i =? 7) then (0, -1, 4) else (0, 0, 4)) 0 [mkP 7 0; mkP 8 0] = (true, [mkP 7 4; mkP 8 4], [8]).
Proof. intros n. reflexivity. Qed.
Example C135_ex : trigger_rounds 3 (fun k i => if k <? i then (-3, 0, 0) else (0, 0, 4)) 0 [mkP 0 0; mkP 2 0; mkP 1 0] = (true, [mkP 0 4; mkP 2 4; mkP 1 4], [0; 1; 2]).
Proof. reflexivity. Qed.
