(** * Prop_Types: compound types (C37-C40) *)
From Verif Require Import Base Const Types State Events Atomic Server Lib SearchProofs Shape Inv Reach Spec Frame Effects Out DataFrame WRel ModInv IdInv Demo
  Prop_Tags TypeFrame TypesProofs ClientTypes ClientTypesProofs.

(** type id [ty] is registered with definition [c] *)
Definition denotes (s : server) (ty : Z) (c : cdt) : Prop := exists i, ty = cdt_type i /\ znth (s_types s) i = Some c.
(** fewer than 2^30 types: the index does not run into the flag bits of the id *)
Definition few (s : server) : Prop := zlen (s_types s) < 1073741824.

Lemma creates_prefix a b : creates a b -> exists x, b = a ++ x.
Proof.
  induction 1 as [a|a def b ty e c H _ (x & ->)]; [exists []; symmetry; apply app_nil_r|].
  destruct (create_cases _ _ _ _ _ H) as (nm & rest & _ & [(-> & _)|[(-> & _)|(ms & -> & _)]]); eauto. rewrite <- app_assoc. eauto.
Qed.
Lemma cdt_type_sum i : 0 <= i < 2147483648 -> cdt_type i = i + 2147483648.
Proof.
  intros H. unfold cdt_type, T_CUSTOM. assert (N : Z.land i 2147483648 = 0).
  { apply Z.bits_inj'. intros n Hn. rewrite Z.land_spec, Z.bits_0. change 2147483648 with (2 ^ 31) in *. rewrite Z.pow2_bits_eqb by lia. destruct (31 =? n) eqn:Q; [|apply andb_false_r].
    replace n with 31 by lia. rewrite Z.testbit_eqb by lia. rewrite Z.div_small by lia. reflexivity. }
  rewrite (Z.add_nocarry_lxor _ _ N), (Z.lxor_lor _ _ N). reflexivity.
Qed.

(** ** C40: type ids are permanent *)
Theorem C40_permanent : forall E s os s' ty c, exec E s os = Done s' -> denotes s ty c -> denotes s' ty c.
Proof.
  intros E s os s' ty c H (i & -> & Z). apply exec_creates, creates_prefix in H as [x K]. exists i. split; [reflexivity|].
  assert (R := znth_range _ _ _ Z). rewrite K, znth_app1 by lia. exact Z.
Qed.
Theorem C40_one_definition : forall E s ty c c', reachable E s -> few s -> denotes s ty c -> denotes s ty c' -> c = c'.
Proof.
  intros E s ty c c' R F (i & -> & Z) (j & K & Z'). unfold few in F. assert (R1 := znth_range _ _ _ Z). assert (R2 := znth_range _ _ _ Z').
  rewrite !cdt_type_sum in K by lia. assert (i = j) by lia. subst j. congruence.
Qed.
Theorem C40_names : forall E s ty ty' c c', reachable E s -> denotes s ty c -> denotes s ty' c' -> case_eqb (c_name c) (c_name c') = true -> ty = ty' /\ c = c'.
Proof.
  intros E s ty ty' c c' R (i & -> & Z) (j & -> & Z') C. assert (i = j) by (eapply same_name; [eapply reachable_wf; exact R | exact Z | exact Z' | exact C]). subst j. split; congruence.
Qed.
(** no compound type has the name of a base type *)
Theorem C40_base_names : forall E s ty c b t, reachable E s -> denotes s ty c -> In (b, t) base_names -> case_eqb (c_name c) b = false.
Proof.
  intros E s ty c b t R (i & _ & Z) I. assert (B := ty_base _ _ (wf_type _ (reachable_wf _ _ R) _ _ Z)). revert B I. generalize base_names.
  induction l as [|[b' t'] l IH]; [intros _ []|]. cbn [find_base]. destruct (case_eqb (c_name c) b') eqn:Q; [discriminate|]. intros B [K|K]; [injection K as <- <-; exact Q | auto].
Qed.

Lemma create_answer E s fd def s' : step E s (OpCdtCreate fd def) = Done s' -> exists ts ty e, cdt_create (s_types s) def = Done (ts, ty, e) /\ s_types s' = ts /\
  let res := match e with Some e => e | None => s32 (en_int E (s_step s)) end in
  s_out s' = s_out s ++ [if res <? 0 then OErr fd MSG_CDT_CREATE res else OResp fd MSG_CDT_CREATE (le_bytes 4 ty)].
Proof.
  intros H. apply step_inv in H as (s1 & u & H & ->). cbn [handle_op] in H. unfold h_cdt_create in H. inv1 H.
  apply bind_done in H as (s2 & [[ts ty] e] & H1 & H). unfold lift in H1. destruct (cdt_create (s_types s) def) as [[[ts' ty'] e']|] eqn:C; [|discriminate]. injection H1 as <- <- <- <-.
  apply bind_done in H as (s3 & v & H1 & H). unfold modify in H1. injection H1 as <- <-. exists ts', ty', e'. split; [reflexivity|]. cbv zeta.
  destruct (_ <? 0).
  - unfold reply_err, emit, modify in H. injection H as <- _. auto.
  - unfold respond in H. change (zlen (le_bytes 4 ty')) with 4 in H. cbn in H. unfold emit, modify in H. injection H as <- _. auto.
Qed.
(** a type id the server has answered denotes the definition that was sent *)
Theorem C40_answer : forall E s fd def s' ty, reachable E s -> few s -> 0 <= ty < 4294967296 ->
  step E s (OpCdtCreate fd def) = Done s' -> answered s s' (OResp fd MSG_CDT_CREATE (le_bytes 4 ty)) ->
  exists c rest, denotes s' ty c /\ strtok 58 def = Some (c_name c, rest).
Proof.
  intros E s fd def s' ty R F Ht H A. unfold few in F. assert (W := reachable_wf _ _ R). destruct (create_answer _ _ _ _ _ H) as (ts & ty' & e & C & Ts & O). cbv zeta in O.
  assert (A' : answered s s' (if match e with Some e => e | None => s32 (en_int E (s_step s)) end <? 0 then OErr fd MSG_CDT_CREATE match e with Some e => e | None => s32 (en_int E (s_step s)) end else OResp fd MSG_CDT_CREATE (le_bytes 4 ty')))
    by (exists []; split; [exact O | constructor]).
  assert (K := answered_fun _ _ _ _ A A'). clear A A' O. destruct (_ <? 0) eqn:Neg; [discriminate|].
  assert (Zl := zlen_nonneg (s_types s)). assert (T : 0 <= ty' < 4294967296 -> ty = ty').
  { intros Ht'. assert (X : le_bytes 4 ty = le_bytes 4 ty') by congruence. assert (Y := le_val_le_bytes 4 ty). assert (Y' := le_val_le_bytes 4 ty'). change (256 ^ Z.of_nat 4) with 4294967296 in *. rewrite Z.mod_small in Y, Y' by lia. congruence. }
  destruct (create_cases _ _ _ _ _ C) as (nm & rest & St & [(_ & _ & c & -> & Hc)|[(Tt & -> & Ty & Nz & Se)|(ms & Tt & _ & Ty & _)]]).
  - lia.
  - destruct (get_type_spec (s_types s) nm) as [Q|[(b & I & Q)|(_ & j & c & Z & Q & T')]].
    + congruence.
    + exfalso. rewrite <- Ty in I. assert (Hb := base_names_types _ _ I). destruct (base_not_custom _ Hb) as [Nc _]. unfold serialize_datatype in Se. destruct (_ <=? _); [discriminate|].
      destruct (znth (s_types s) (cdt_index ty')) as [c|] eqn:Z; [|discriminate]. apply rbind_done in Se as (r & Sr & Se). injection Se as Se.
      assert (Tk := wf_type _ W _ _ Z). destruct (valid_plain _ (ty_name _ _ Tk)) as (A1 & A2 & _). destruct (not_plain_44 _ A2) as [_ F58].
      assert (Hn : strtok 58 def = Some (c_name c, tl r)).
      { rewrite <- Se. destruct (c_members c) as [|m l] eqn:M; cbn [serialize_members] in Sr; [injection Sr as <-; rewrite app_nil_r; apply strtok_end; assumption|].
        destruct (cdt_get_name (s_types s) (cm_type m)); [|discriminate]. apply rbind_done in Sr as (y & _ & Sr). injection Sr as <-. apply strtok_mid; assumption. }
      assert (nm = c_name c) by congruence. subst nm. assert (Bn := ty_base _ _ Tk). revert Bn I Q. generalize base_names. clear.
      induction l as [|[b' t'] l IH]; [intros _ []|]. cbn [find_base]. destruct (case_eqb (c_name c) b') eqn:P; [discriminate|]. intros B [K|K] Q; [injection K as <- <-; congruence | auto].
    + rewrite <- Ty in T'. assert (Rj := znth_range _ _ _ Z). assert (ty = ty') by (apply T; rewrite T', cdt_type_sum by lia; lia). subst ty. rewrite T' in Se.
      destruct (describe_back _ _ _ W ltac:(lia) Z) as (a & x & d & _ & _ & Sd & _ & ds & Ed & _). assert (Dd : d = def) by congruence. rewrite Dd in Ed.
      destruct (valid_plain _ (ty_name _ _ (wf_type _ W _ _ Z))) as (A1 & A2 & _). destruct (not_plain_44 _ A2) as [_ F58]. exists c, (tl (concat (map (fun d => 58 :: d) ds))). split.
      * exists j. split; [exact T' | rewrite Ts, Tt; exact Z].
      * rewrite Ed. destruct ds as [|y ds]; [cbn [map concat]; rewrite app_nil_r; apply strtok_end; assumption | apply strtok_mid; assumption].
  - assert (ty = ty') by (apply T; rewrite Ty, cdt_type_sum by lia; lia). subst ty. exists (mk_cdt nm ms), rest. split; [|exact St]. exists (zlen (s_types s)). split; [exact Ty|]. rewrite Ts, Tt. apply znth_last.
Qed.

(** ** C39: definitions survive the wire *)
Lemma get_answer E s fd ty s' d : step E s (OpCdtGetType fd ty) = Done s' -> answered s s' (OResp fd MSG_CDT_GET (le_bytes 4 ty ++ d ++ [0])) ->
  serialize_datatype (s_types s) ty = Done (inl d).
Proof.
  intros H A. apply step_inv in H as (s1 & u & H & ->). cbn [handle_op] in H. unfold h_cdt_get in H. inv1 H.
  apply bind_done in H as (s2 & x & H1 & H). unfold lift in H1. destruct (serialize_datatype (s_types s) ty) as [y|] eqn:S; [|discriminate]. injection H1 as <- <-.
  assert (K : forall e, reply_err fd MSG_CDT_GET e s = Done (s1, u) -> False).
  { intros e Q. unfold reply_err, emit, modify in Q. injection Q as <- _. destruct A as (ev & A & _). cbn in A. apply app_inv_head in A. destruct ev as [|? ev]; [discriminate|].
    cbn in A. injection A as _ A. symmetry in A. apply app_eq_nil in A as [_ A]. discriminate. }
  destruct y as [d'|e]; [|exfalso; eauto]. destruct (MSG_DATA_SIZE - 4 <? zlen d' + 1) eqn:Q; [exfalso; eauto|].
  unfold respond in H. assert (Z1 : zlen (le_bytes 4 ty ++ d' ++ [0]) = zlen d' + 5) by (rewrite !zlen_app; change (zlen (le_bytes 4 ty)) with 4; change (zlen [0]) with 1; lia). rewrite Z1 in H.
  replace (MSG_DATA_SIZE <? zlen d' + 5) with false in H by (unfold MSG_DATA_SIZE in *; lia). unfold emit, modify in H. injection H as <- _. destruct A as (ev & A & _). cbn in A. apply app_inv_head in A.
  destruct ev as [|? ev]; [|cbn in A; injection A as _ A; symmetry in A; apply app_eq_nil in A as [_ A]; discriminate]. cbn in A. injection A as A. apply app_inv_tail in A. rewrite A. reflexivity.
Qed.
(** the description the server sends for a type, sent to a server that has the types before it, makes the same type there *)
Theorem C39_roundtrip : forall E s fd ty c s' d E2 s2 fd2, reachable E s -> few s -> denotes s ty c ->
  step E s (OpCdtGetType fd ty) = Done s' -> answered s s' (OResp fd MSG_CDT_GET (le_bytes 4 ty ++ d ++ [0])) ->
  (exists x, s_types s = s_types s2 ++ c :: x) ->
  exists s3, step E2 s2 (OpCdtCreate fd2 d) = Done s3 /\ s_types s3 = s_types s2 ++ [c] /\ answered s2 s3 (OResp fd2 MSG_CDT_CREATE (le_bytes 4 ty)).
Proof.
  intros E s fd ty c s' d E2 s2 fd2 R F (i & -> & Z) H A (x & Ex). unfold few in F. assert (W := reachable_wf _ _ R). assert (H0 := get_answer _ _ _ _ _ _ H A). clear H. rename H0 into H.
  destruct (describe_back _ _ _ W ltac:(lia) Z) as (a & x' & d' & Ea & La & Sd & Cr & _). assert (d' = d) by congruence. subst d'.
  assert (Ei : i = zlen (s_types s2)).
  { eapply same_name; [exact W | exact Z | rewrite Ex; rewrite znth_app2 by lia; rewrite Z.sub_diag; apply znth_0 | apply case_refl]. }
  assert (a = s_types s2).
  { assert (Q : firstn (length a) (a ++ c :: x') = firstn (length (s_types s2)) (s_types s2 ++ c :: x)) by (f_equal; [unfold zlen in *; lia | congruence]).
    rewrite !firstn_app, !Nat.sub_diag, !firstn_all in Q. cbn [firstn] in Q. rewrite !app_nil_r in Q. exact Q. }
  subst a. unfold step. cbn [handle_op]. unfold h_cdt_create, get, lift, modify, bind. rewrite Cr. cbn [Z.ltb Z.compare]. unfold respond. change (zlen (le_bytes 4 (cdt_type i))) with 4. cbn.
  eexists. split; [reflexivity|]. split; [reflexivity|]. exists []. split; [reflexivity | constructor].
Qed.
(** a type is never registered a second time, whatever the definition says *)
Theorem C39_never_twice : forall E s fd def s' nm rest ty c, reachable E s -> strtok 58 def = Some (nm, rest) -> denotes s ty c -> case_eqb nm (c_name c) = true ->
  step E s (OpCdtCreate fd def) = Done s' -> s_types s' = s_types s.
Proof.
  intros E s fd def s' nm rest ty c R St (i & _ & Z) Q H. destruct (create_answer _ _ _ _ _ H) as (ts & ty' & e & C & -> & _).
  destruct (create_cases _ _ _ _ _ C) as (nm' & rest' & St' & [(-> & _)|[(-> & _)|(ms & _ & _ & _ & _ & G & _)]]); [reflexivity | reflexivity|].
  exfalso. assert (nm' = nm) by congruence. subst nm'. apply get_type_zero in G as [_ G]. rewrite (G c (znth_In _ _ _ Z)) in Q. discriminate.
Qed.
(** repeating the definition: the registry stays and the same id is answered, provided the uninitialised status word is not negative *)
Theorem C39_again_partial : forall E s fd ty c d, reachable E s -> few s -> denotes s ty c -> serialize_datatype (s_types s) ty = Done (inl d) ->
  exists s', step E s (OpCdtCreate fd d) = Done s' /\ s_types s' = s_types s /\
    (0 <= s32 (en_int E (s_step s)) -> answered s s' (OResp fd MSG_CDT_CREATE (le_bytes 4 ty))).
Proof.
  intros E s fd ty c d R F (i & -> & Z) Sd. unfold few in F. assert (W := reachable_wf _ _ R). assert (T := wf_type _ W _ _ Z). assert (Ri := znth_range _ _ _ Z).
  destruct (describe_back _ _ _ W ltac:(lia) Z) as (a & x' & d' & Ea & La & Sd' & _ & ds & Ed & _). assert (Dd : d' = d) by congruence. rewrite Dd in Ed.
  destruct (valid_plain _ (ty_name _ _ T)) as (A1 & A2 & _). destruct (not_plain_44 _ A2) as [_ F58].
  assert (St : exists rest, strtok 58 d = Some (c_name c, rest)).
  { rewrite Ed. destruct ds as [|y ds]; [exists []; cbn [map concat]; rewrite app_nil_r; apply strtok_end; assumption | eexists; apply strtok_mid; assumption]. }
  destruct St as [rest St]. assert (G : cdt_get_type (s_types s) (c_name c) = cdt_type i).
  { unfold cdt_get_type. rewrite (ty_base _ _ T), (find_cdt_unique _ 0 _ _ (wf_names _ W) Z). reflexivity. }
  assert (Cr : cdt_create (s_types s) d = Done (s_types s, cdt_type i, None)).
  { unfold cdt_create. rewrite St, (ty_name _ _ T), G. cbn [Z.eqb negb]. replace (cdt_type i =? 0) with false by (assert (Q := cdt_type_nz i ltac:(lia)); lia). cbn [negb]. rewrite Sd. cbn [rbind].
    rewrite name_eqb_refl. reflexivity. }
  unfold step. cbn [handle_op]. unfold h_cdt_create, get, lift, modify, bind. rewrite Cr. destruct (s32 (en_int E (s_step s)) <? 0) eqn:N.
  - eexists. split; [reflexivity|]. split; [reflexivity | lia].
  - unfold respond. change (zlen (le_bytes 4 (cdt_type i))) with 4. eexists. split; [reflexivity|]. split; [reflexivity|]. intros _. exists []. split; [reflexivity | constructor].
Qed.

(** the client's cache agrees with the server's registry: every slot is unused or holds the registered definition *)
Definition agrees (s : server) (cc : ctypes) : Prop :=
  forall i, slot cc i = no_slot \/ exists c, znth (s_types s) i = Some c /\ slot cc i = mk_cs (Some (c_name c)) (c_members c).
(** every count is one the client can read, and every description fits in one message *)
Definition readable (s : server) : Prop :=
  (forall ty c m, denotes s ty c -> In m (c_members c) -> 1 <= cm_count m < 2147483648) /\
  (forall ty c d, denotes s ty c -> serialize_datatype (s_types s) ty = Done (inl d) -> zlen d <= 4083).
Lemma readable_regular s : readable s -> regular (s_types s).
Proof.
  intros [A B]. constructor.
  - intros i c m Z I. exact (A (cdt_type i) c m (ex_intro _ i (conj eq_refl Z)) I).
  - intros i d R S. destruct (znth (s_types s) i) as [c|] eqn:Z; [|apply znth_none in Z; lia]. exact (B (cdt_type i) c d (ex_intro _ i (conj eq_refl Z)) S).
Qed.
Lemma agrees_empty s : agrees s [].
Proof. intros i. left. unfold slot. rewrite (proj2 (znth_none _ _)); [reflexivity | change (zlen (@nil cslot)) with 0; lia]. Qed.
(** the registry only grows, so a cache that agrees keeps agreeing *)
Lemma agrees_later E s os s' cc : exec E s os = Done s' -> agrees s cc -> agrees s' cc.
Proof.
  intros H A i. apply exec_creates, creates_prefix in H as [x K]. destruct (A i) as [Q|(c & Z & Q)]; [left; exact Q|]. right. exists c. split; [|exact Q].
  assert (R := znth_range _ _ _ Z). rewrite K, znth_app1 by lia. exact Z.
Qed.
(** a type the client has not got yet arrives complete *)
Theorem C39_client_partial : forall E s cc ty c, reachable E s -> few s -> readable s -> agrees s cc -> denotes s ty c -> slot cc (cdt_index ty) = no_slot ->
  exists cc', dax_cdt_get (s_types s) cc (ByType ty) = Done (cc', 0) /\ agrees s cc' /\ slot cc' (cdt_index ty) = mk_cs (Some (c_name c)) (c_members c).
Proof.
  intros E s cc ty c R F Rd A (i & -> & Z) Sl. unfold few in F. assert (W := reachable_wf _ _ R). assert (Rg := readable_regular _ Rd). assert (Ri := znth_range _ _ _ Z).
  destruct (custom_type i ltac:(lia)) as [C1 C2]. rewrite C2 in *. destruct (mirror_slot _ W ltac:(lia) Rg cc i c A Z) as (cc' & E' & O' & H & Rz).
  exists cc'. split; [|split; [exact O' | exact H]]. unfold type_to_string in E'. rewrite C1, C2 in E'.
  assert (G : (x <-- dax_cdt_get (s_types s) cc (ByType (cdt_type i)) ;; (let '(cc, e) := x in if negb (e =? 0) then Done (cc, None)
    else match znth cc i with Some s => Done (cc, cs_name s) | None => Undef UOob end)) = Done (cc', Some (c_name c)) -> dax_cdt_get (s_types s) cc (ByType (cdt_type i)) = Done (cc', 0)).
  { clear E'. intros E'. apply rbind_done in E' as ([cc1 e] & E1 & E'). destruct (e =? 0) eqn:Q; cbn [negb] in E'; [|discriminate]. destruct (znth cc1 i); [|discriminate]. injection E' as -> _. rewrite E1. f_equal. f_equal. lia. }
  unfold slot in Sl. destruct (znth cc i) as [[[n|] ms]|]; [discriminate | exact (G E') | exact (G E')].
Qed.

(** ** C38: client and server agree on sizes *)
Theorem C38_partial : forall E s cc ty n, reachable E s -> few s -> readable s -> agrees s cc -> (In ty base_types \/ exists c, denotes s ty c) ->
  type_size (s_types s) ty = Done n -> 0 < n -> exists cc', dax_get_typesize (s_types s) cc ty = Done (cc', n) /\ agrees s cc'.
Proof.
  intros E s cc ty n R F Rd A Ty H Hn. unfold few in F. apply (sizes_agree _ (reachable_wf _ _ R) ltac:(lia) (readable_regular _ Rd)); [|exact H | exact Hn | exact A].
  destruct Ty as [B|(c & i & -> & Z)]; [auto|]. right. exists i. split; [exact (znth_range _ _ _ Z) | reflexivity].
Qed.

(** ** C37: layout *)
(** bits of one element of each base type *)
Definition widths : list (Z * Z) :=
  [(T_BOOL, 1); (T_BYTE, 8); (T_SINT, 8); (T_CHAR, 8); (T_WORD, 16); (T_INT, 16); (T_UINT, 16); (T_DWORD, 32); (T_DINT, 32); (T_UDINT, 32); (T_REAL, 32);
   (T_LWORD, 64); (T_LINT, 64); (T_ULINT, 64); (T_TIME, 64); (T_LREAL, 64)].
(** the bits member [m] takes *)
Inductive needs (ts : list cdt) (m : cmember) : Z -> Prop :=
| needs_base w : In (cm_type m, w) widths -> needs ts m (w * cm_count m)
| needs_cdt n : is_custom (cm_type m) = true -> type_size ts (cm_type m) = Done n -> needs ts m (8 * n * cm_count m).
(** a placement gives every member a first bit and a length *)
Definition placement := list (cmember * Z * Z).
Definition layout (ts : list cdt) (ms : list cmember) (size : Z) (pl : placement) : Prop :=
  0 <= size /\ map (fun x => fst (fst x)) pl = ms /\
  Forall (fun x => let '(m, p, l) := x in needs ts m l /\ 0 <= p /\ p + l <= 8 * size /\ (cm_type m <> T_BOOL -> p mod 8 = 0)) pl /\
  ForallOrdPairs (fun x y => let '(_, p, l) := x in let '(_, p', _) := y in p + l <= p') pl.
(** BOOLs follow the member before without a gap, everything else after less than a byte *)
Fixpoint packed (pos : Z) (pl : placement) : Prop :=
  match pl with
  | [] => True
  | (m, p, l) :: r => (if cm_type m =? T_BOOL then p = pos else pos <= p < pos + 8) /\ packed (p + l) r
  end.

Lemma size_f_more : forall k ts t n, type_size_f k ts t = Done n -> type_size_f (S k) ts t = Done n.
Proof.
  induction k as [|k IH]; intros ts t n H; [discriminate|]. cbn [type_size_f] in H. change (type_size_f (S (S k)) ts t) with
    (if negb (checktype ts t) then Done E_NOTFOUND else if is_custom t then match znth ts (cdt_index t) with None => Undef UOob
      | Some c => pos <-- members_bits (type_size_f (S k) ts) (c_members c) 0 ;; Done (bits_to_bytes pos) end else Done (typesize_bits t / 8)).
  destruct (negb (checktype ts t)); [exact H|]. destruct (is_custom t); [|exact H]. destruct (znth ts (cdt_index t)) as [c|]; [|exact H].
  apply rbind_done in H as (p & Hp & H). assert (Q : forall ms pos, members_bits (type_size_f k ts) ms pos = Done p -> members_bits (type_size_f (S k) ts) ms pos = Done p).
  { clear -IH. induction ms as [|m ms Hm]; intros pos H; cbn [members_bits] in *; [exact H|]. destruct (_ =? _); [auto|]. cbv zeta in *. destruct (is_custom _); [|auto].
    apply rbind_done in H as (z & Hz & H). rewrite (IH _ _ _ Hz). cbn [rbind]. destruct (0 <? z); [auto | discriminate]. }
  rewrite (Q _ _ Hp). exact H.
Qed.
Lemma widths_fun t w : In (t, w) widths -> w = typesize_bits t /\ 0 < w /\ is_custom t = false /\ (t = T_BOOL -> w = 1) /\ (t <> T_BOOL -> w mod 8 = 0).
Proof. intros H. cbn in H. repeat (destruct H as [H|H]; [injection H as <- <-; split; [reflexivity|]; split; [lia|]; split; [reflexivity|]; split; [intros; reflexivity || discriminate | intros Q; reflexivity || (elim Q; reflexivity)]|]). destruct H. Qed.
Lemma base_width t : In t base_types -> exists w, In (t, w) widths.
Proof. intros H. cbn in H. repeat (destruct H as [<-|H]; [eexists; cbn; tauto|]). destruct H. Qed.
(** the end of the greedy placement, without machine arithmetic *)
Definition up8 (p : Z) : Z := (p + 7) / 8 * 8.
Fixpoint greedy (lens : list (cmember * Z)) (pos : Z) : Z :=
  match lens with [] => pos | (m, l) :: r => greedy r ((if cm_type m =? T_BOOL then pos else up8 pos) + l) end.
Lemma greedy_mono : forall ls p q, p <= q -> greedy ls p <= greedy ls q.
Proof.
  induction ls as [|[t l] ls IH]; intros p q H; cbn [greedy]; [exact H|]. apply IH. destruct (cm_type t =? T_BOOL); [lia|]. unfold up8. lia.
Qed.
Lemma greedy_ge : forall ls p, Forall (fun x => 0 <= snd x) ls -> p <= greedy ls p.
Proof.
  induction ls as [|[t l] ls IH]; intros p F; cbn [greedy]; [lia|]. assert (F1 := Forall_inv F). assert (F2 := Forall_inv_tail F). cbn in F1.
  etransitivity; [|apply IH; exact F2]. destruct (cm_type t =? T_BOOL); [lia|]. unfold up8. lia.
Qed.
Lemma up8_align p : 0 <= p < 4294967288 -> align8 p = up8 p.
Proof.
  intros H. unfold align8, up8. destruct (p mod 8 =? 0) eqn:Q; [lia|].
  assert (E : Z.lor p 7 = p / 8 * 8 + 7).
  { assert (K : p = Z.lor (p / 8 * 8) (p mod 8)).
    { symmetry. rewrite <- Z.lxor_lor, <- Z.add_nocarry_lxor; [lia| |].
      all: apply Z.bits_inj'; intros n Hn; rewrite Z.land_spec, Z.bits_0; change 8 with (2 ^ 3); destruct (Z_lt_dec n 3);
        [rewrite Z.mul_pow2_bits_low by lia; reflexivity | rewrite (Z.mod_pow2_bits_high p 3 n) by lia; apply andb_false_r]. }
    rewrite K at 1. rewrite <- Z.lor_assoc. assert (K7 : Z.lor (p mod 8) 7 = 7) by (assert (M : 0 <= p mod 8 < 8) by (apply Z.mod_pos_bound; lia); clear - M;
      assert (X : p mod 8 = 0 \/ p mod 8 = 1 \/ p mod 8 = 2 \/ p mod 8 = 3 \/ p mod 8 = 4 \/ p mod 8 = 5 \/ p mod 8 = 6 \/ p mod 8 = 7) by lia; revert X; generalize (p mod 8); intros z X;
      destruct X as [->|[->|[->|[->|[->|[->|[->| ->]]]]]]]; reflexivity).
    rewrite K7. rewrite <- Z.lxor_lor, <- Z.add_nocarry_lxor; [reflexivity| |].
    all: apply Z.bits_inj'; intros n Hn; rewrite Z.land_spec, Z.bits_0; change 8 with (2 ^ 3); destruct (Z_lt_dec n 3);
        [rewrite Z.mul_pow2_bits_low by lia; reflexivity | replace (Z.testbit 7 n) with false by (symmetry; change 7 with (Z.ones 3); apply Z.ones_spec_high; lia); apply andb_false_r]. }
  rewrite E. unfold u32. rewrite Z.mod_small by lia. lia.
Qed.
Lemma needs_fun ts m l l' : needs ts m l -> needs ts m l' -> l = l'.
Proof.
  intros H H'. destruct H as [w I|n C H]; destruct H' as [w' I'|n' C' H'].
  - apply widths_fun in I as (-> & _). apply widths_fun in I' as (-> & _). reflexivity.
  - apply widths_fun in I as (_ & _ & K & _). congruence.
  - apply widths_fun in I' as (_ & _ & K & _). congruence.
  - congruence.
Qed.
Lemma below_greedy ts size : forall pl pos, pos <= 8 * size -> Forall (fun x => let '(m, p, l) := x in needs ts m l /\ 0 <= p /\ p + l <= 8 * size /\ (cm_type m <> T_BOOL -> p mod 8 = 0)) pl ->
  ForallOrdPairs (fun x y => let '(_, p, l) := x in let '(_, p', _) := y in p + l <= p') pl -> Forall (fun x => let '(_, p, _) := x in pos <= p) pl ->
  greedy (map (fun x => let '(m, _, l) := x in (m, l)) pl) pos <= 8 * size.
Proof.
  induction pl as [|[[m p] l] pl IH]; intros pos B F O S; cbn [map greedy]; [exact B|].
  assert (F1 := Forall_inv F). apply Forall_inv_tail in F. assert (S1 := Forall_inv S). cbn in F1, S1. destruct F1 as (_ & _ & F1 & F2).
  inversion_clear O as [|x y O1 O2]. etransitivity; [apply greedy_mono with (q := p + l)|].
  - destruct (cm_type m =? T_BOOL) eqn:Q; [lia|]. assert (p mod 8 = 0) by (apply F2; lia). unfold up8. lia.
  - apply IH; auto.
Qed.
Lemma members_greedy ts : forall ml pos e, Forall (fun x => needs ts (fst x) (snd x) /\ 0 <= cm_count (fst x)) ml -> 0 <= pos ->
  members_bits (type_size_f (length ts) ts) (map fst ml) pos = Done e -> greedy ml pos < 4294967280 -> Forall (fun x => 0 <= snd x) ml /\ e = greedy ml pos.
Proof.
  induction ml as [|[m l] ml IH]; intros pos e F P H G; cbn [map members_bits greedy fst] in *; [injection H as <-; split; [constructor | reflexivity]|].
  assert (F1 := Forall_inv F). apply Forall_inv_tail in F. cbn [fst snd] in F1. destruct F1 as [N C].
  assert (L : forall q e, 0 <= q -> members_bits (type_size_f (length ts) ts) (map fst ml) q = Done e -> Forall (fun x => 0 <= snd x) ml).
  { clear -F. induction ml as [|[m l] ml IH]; intros q e Q H; [constructor|]. assert (F1 := Forall_inv F). apply Forall_inv_tail in F. cbn [map members_bits fst snd] in *. destruct F1 as [N C].
    destruct (cm_type m =? T_BOOL) eqn:B.
    - constructor; [cbn [snd] | eapply (IH F); [|exact H]; apply Z.mod_pos_bound; lia]. destruct N as [w I|n K _]; [apply widths_fun in I as (_ & W & _); nia|].
      assert (E : cm_type m = T_BOOL) by lia. rewrite E in K. discriminate.
    - destruct (is_custom (cm_type m)) eqn:K.
      + apply rbind_done in H as (z & Hz & H). destruct (0 <? z) eqn:Zp; [|discriminate]. constructor; [cbn [snd] | eapply (IH F); [|exact H]; apply Z.mod_pos_bound; lia].
        destruct N as [w I|n _ N]; [apply widths_fun in I as (_ & _ & W & _); congruence|]. apply size_f_more in Hz. unfold type_size in N. assert (n = z) by congruence. nia.
      + constructor; [cbn [snd] | eapply (IH F); [|exact H]; apply Z.mod_pos_bound; lia]. destruct N as [w I|n K' _]; [apply widths_fun in I as (_ & W & _); nia | congruence]. }
  destruct (cm_type m =? T_BOOL) eqn:B.
  - assert (E : cm_type m = T_BOOL) by lia. assert (El : l = cm_count m).
    { destruct N as [w I|n K _]; [|rewrite E in K; discriminate]. apply widths_fun in I as (_ & _ & _ & W & _). rewrite (W E). lia. }
    assert (Fl := L _ _ (proj1 (Z.mod_pos_bound (pos + cm_count m) 4294967296 eq_refl)) H). assert (Gp := greedy_ge ml (pos + l) Fl).
    replace (u32 (pos + cm_count m)) with (pos + l) in H by (unfold u32; rewrite Z.mod_small; lia).
    apply IH in H; [|exact F | lia | exact G]. destruct H as [_ ->]. split; [constructor; [cbn; lia | exact Fl] | reflexivity].
  - assert (Fl : Forall (fun x => 0 <= snd x) ml) by (destruct (is_custom _); [apply rbind_done in H as (z & _ & H); destruct (0 <? z); [|discriminate]|]; eapply L; try exact H; apply Z.mod_pos_bound; lia).
    assert (Gp := greedy_ge ml (up8 pos + l) Fl). assert (U : pos <= up8 pos) by (unfold up8; lia).
    assert (Lp : 0 <= l).
    { destruct N as [w I|n K N]; [apply widths_fun in I as (_ & W & _); nia|]. rewrite K in H. apply rbind_done in H as (z & Hz & H). destruct (0 <? z) eqn:Zp; [|discriminate].
      apply size_f_more in Hz. unfold type_size in N. assert (n = z) by congruence. nia. }
    rewrite up8_align in H by lia. split; [constructor; [exact Lp | exact Fl]|].
    destruct (is_custom (cm_type m)) eqn:K.
    + apply rbind_done in H as (z & Hz & H). destruct (0 <? z) eqn:Zp; [|discriminate]. assert (El : l = 8 * z * cm_count m).
      { destruct N as [w I|n _ N]; [apply widths_fun in I as (_ & _ & W & _); congruence|]. apply size_f_more in Hz. unfold type_size in N. assert (n = z) by congruence. subst n. reflexivity. }
      assert (Zc : 0 <= z * cm_count m) by nia.
      replace (u32 (up8 pos + u32 (u32 (z * cm_count m) * 8))) with (up8 pos + l) in H.
      * apply IH in H; [tauto | exact F | lia | exact G].
      * assert (X : l = z * cm_count m * 8) by lia. generalize dependent (z * cm_count m). intros k Zc X. generalize dependent (up8 pos). intros. unfold u32. rewrite (Z.mod_small k) by lia. rewrite (Z.mod_small (k * 8)) by lia. rewrite Z.mod_small by lia. lia.
    + assert (El : l = typesize_bits (cm_type m) * cm_count m) by (destruct N as [w I|n K' _]; [apply widths_fun in I as (-> & _); reflexivity | congruence]).
      rewrite <- El in H. replace (u32 (up8 pos + u32 l)) with (up8 pos + l) in H by (clear - Gp G U P Lp; generalize dependent (up8 pos); intros; unfold u32; rewrite (Z.mod_small l) by lia; rewrite Z.mod_small by lia; reflexivity).
      apply IH in H; [tauto | exact F | lia | exact G].
Qed.
(** the greedy placement is a layout *)
Lemma greedy_layout ts : forall ml pos, Forall (fun x => needs ts (fst x) (snd x) /\ 0 <= snd x) ml -> 0 <= pos ->
  exists pl, map (fun x => fst (fst x)) pl = map fst ml /\
  Forall (fun x => let '(m, p, l) := x in needs ts m l /\ 0 <= p /\ p + l <= greedy ml pos /\ (cm_type m <> T_BOOL -> p mod 8 = 0)) pl /\
  ForallOrdPairs (fun x y => let '(_, p, l) := x in let '(_, p', _) := y in p + l <= p') pl /\ Forall (fun x => let '(_, p, _) := x in pos <= p) pl /\ packed pos pl.
Proof.
  induction ml as [|[m l] ml IH]; intros pos F P; [exists []; cbn; repeat constructor|]. assert (F1 := Forall_inv F). apply Forall_inv_tail in F. cbn [fst snd] in F1. destruct F1 as [N L].
  set (p := if cm_type m =? T_BOOL then pos else up8 pos). assert (Pp : pos <= p) by (unfold p, up8; destruct (_ =? _); lia).
  destruct (IH (p + l) F ltac:(lia)) as (pl & M & A & O & S & K). exists ((m, p, l) :: pl).
  split; [cbn; f_equal; exact M|]. cbn [greedy]. fold p. split.
  { constructor; [|exact A]. split; [exact N|]. split; [lia|]. split; [apply greedy_ge; eapply Forall_impl; [|exact F]; cbn; tauto|]. unfold p. intros T. replace (cm_type m =? T_BOOL) with false by lia. unfold up8. lia. }
  split; [constructor; [|exact O]; eapply Forall_impl; [|exact S]; intros [[? ?] ?]; tauto|]. split; [constructor; [lia|]; eapply Forall_impl; [|exact S]; intros [[? ?] ?]; lia|].
  cbn [packed]. split; [|exact K]. unfold p. destruct (cm_type m =? T_BOOL) eqn:Q; [reflexivity|]. unfold up8. lia.
Qed.

(** C37 for a type whose members fit somewhere below the limit of the bit counter: the server's size admits a
    layout, packed as described, and no layout is smaller.  Missing: types beyond that limit
    (C37_wrap_refuted) and types with a member of an empty type (C37_abort_refuted). *)
Theorem C37_partial : forall E s ty c n n0 pl0, reachable E s -> few s -> denotes s ty c -> type_size (s_types s) ty = Done n ->
  layout (s_types s) (c_members c) n0 pl0 -> n0 < 536870910 ->
  (exists pl, layout (s_types s) (c_members c) n pl /\ packed 0 pl) /\ forall n' pl', layout (s_types s) (c_members c) n' pl' -> n <= n'.
Proof.
  intros E s ty c n n0 pl0 R Fw (i & -> & Z) H L B. assert (W := wf_type _ (reachable_wf _ _ R) _ _ Z). assert (Zr := znth_range _ _ _ Z). unfold few in Fw.
  assert (Ty := cdt_type_sum i ltac:(lia)). unfold type_size in H. cbn [type_size_f] in H. 
  assert (Cu : is_custom (cdt_type i) = true) by (apply custom_type; lia). assert (Ix : cdt_index (cdt_type i) = i) by (apply custom_type; lia).
  rewrite Cu, Ix, Z in H. destruct (checktype _ _) eqn:Ck.
  2: { exfalso. revert Ck. unfold checktype. replace (Z.clearbit (cdt_type i) 30) with (cdt_type i); [cbv zeta; rewrite Cu, Ix; cbn [andb]; destruct (existsb _ _); cbn [orb]; [discriminate|]; lia|].
    apply Z.bits_inj'. intros k Hk. rewrite Z.clearbit_eqb by lia. destruct (30 =? k) eqn:K; cbn [negb]; rewrite ?andb_true_r, ?andb_false_r; [|reflexivity].
    assert (k = 30) by lia. subst k. unfold cdt_type, T_CUSTOM. rewrite Z.lor_spec. change (2 ^ 31) with 2147483648. replace (Z.testbit i 30) with false; [reflexivity|].
    symmetry. destruct (Z.eq_dec i 0) as [->|]; [reflexivity|]. apply Z.bits_above_log2; [lia|]. apply Z.log2_lt_pow2; [lia|]. change (2 ^ 30) with 1073741824. lia. }
  cbn [negb] in H. apply rbind_done in H as (e & He & H). injection H as <-.
  assert (T : forall size pl, layout (s_types s) (c_members c) size pl -> exists ml, map fst ml = c_members c /\ Forall (fun x => needs (s_types s) (fst x) (snd x)) ml /\ greedy ml 0 <= 8 * size).
  { intros size pl (S0 & M & A & O). exists (map (fun x => let '(m, _, l) := x in (m, l)) pl). split; [|split].
    - rewrite <- M, map_map. apply map_ext. intros [[? ?] ?]. reflexivity.
    - rewrite Forall_map. eapply Forall_impl; [|exact A]. intros [[? ?] ?]. cbn. tauto.
    - eapply below_greedy; [lia | exact A | exact O |]. eapply Forall_impl; [|exact A]. intros [[? ?] ?]. tauto. }
  destruct (T _ _ L) as (ml & M & A & G). rewrite <- M in He.
  assert (A' : Forall (fun x => needs (s_types s) (fst x) (snd x) /\ 0 <= cm_count (fst x)) ml).
  { assert (Q := ty_members _ _ W). rewrite <- M, Forall_map in Q. clear - A Q. induction ml; constructor; [|apply IHml; [apply Forall_inv_tail in A | apply Forall_inv_tail in Q]; assumption].
    split; [exact (Forall_inv A)|]. apply Forall_inv in Q as (_ & Q & _). lia. }
  destruct (members_greedy _ _ _ _ A' (Z.le_refl 0) He ltac:(lia)) as [Ps ->].
  assert (Gp := greedy_ge ml 0 Ps). assert (Bt : forall z, 0 <= z -> z <= 8 * bits_to_bytes z /\ forall k, z <= 8 * k -> bits_to_bytes z <= k /\ 0 <= bits_to_bytes z) by (intros z Hz; unfold bits_to_bytes; destruct (z =? 0) eqn:Q; split; lia).
  destruct (Bt _ Gp) as [B1 B2]. split.
  - destruct (greedy_layout (s_types s) ml 0) as (pl & P1 & P2 & P3 & P4 & P5); [|lia|].
    { clear - A Ps. induction ml; constructor; [|apply IHml; [apply Forall_inv_tail in A | apply Forall_inv_tail in Ps]; assumption]. split; [exact (Forall_inv A) | exact (Forall_inv Ps)]. }
    exists pl. split; [|exact P5]. split; [apply (B2 n0); lia|]. split; [congruence|]. split; [|exact P3]. eapply Forall_impl; [|exact P2]. intros [[m p] l] (X1 & X2 & X3 & X4). repeat split; auto; lia.
  - intros n' pl' L'. destruct (T _ _ L') as (ml' & M' & A2 & G'). assert (Q : ml' = ml).
    { clear - M M' A A2. revert ml' M' A2. rewrite <- M. clear M. induction ml as [|[m l] ml IH]; intros [|[m' l'] ml'] M A2; try discriminate; [reflexivity|]. cbn in M. injection M as Em M. subst m'.
      f_equal; [f_equal; eapply needs_fun; [exact (Forall_inv A2) | exact (Forall_inv A)] | apply IH; [exact (Forall_inv_tail A) | exact M | exact (Forall_inv_tail A2)]]. }
    subst ml'. apply B2. exact G'.
Qed.

(** the size of a registered type is a number unless the server aborts: members refer to earlier types only *)
Lemma size_f_total ts : wf ts -> zlen ts < 2147483648 -> forall k t, (In t base_types /\ (0 < k)%nat \/ exists j, 0 <= j < zlen ts /\ t = cdt_type j /\ j < Z.of_nat k) ->
  (exists n, type_size_f k ts t = Done n) \/ type_size_f k ts t = Undef UAbort.
Proof.
  intros W L. induction k as [|k IH]; intros t H; [destruct H as [[_ H]|(j & ? & _ & ?)]; lia|]. cbn [type_size_f].
  destruct (negb _); [left; eexists; reflexivity|]. destruct H as [[I _]|(j & J & -> & K)]; [replace (is_custom t) with false by (symmetry; apply base_not_custom; exact I); left; eexists; reflexivity|].
  replace (is_custom (cdt_type j)) with true by (symmetry; apply custom_type; lia). replace (cdt_index (cdt_type j)) with j by (symmetry; apply custom_type; lia).
  destruct (znth ts j) as [c|] eqn:Z; [|apply znth_none in Z; lia]. assert (M := ty_members _ _ (wf_type _ W _ _ Z)).
  assert (Q : forall pos, (exists n, members_bits (type_size_f k ts) (c_members c) pos = Done n) \/ members_bits (type_size_f k ts) (c_members c) pos = Undef UAbort).
  { clear Z. induction M as [|m ms Hm M IHm]; intros pos; cbn [members_bits]; [left; eexists; reflexivity|]. destruct (_ =? _); [apply IHm|]. cbv zeta. destruct (is_custom _) eqn:C; [|apply IHm].
    destruct Hm as (_ & _ & [I|(i & Hi & Et)]); [exfalso; assert (Bc : is_custom (cm_type m) = false) by (apply base_not_custom; exact I); congruence|].
    destruct (IH (cm_type m)) as [[z ->]| ->]; [right; exists i; repeat split; try lia; exact Et | | right; reflexivity]. cbn [rbind]. destruct (0 <? z); [apply IHm | right; reflexivity]. }
  destruct (Q 0) as [[z ->]| ->]; [left; eexists; reflexivity | right; reflexivity].
Qed.
Theorem C37_defined : forall E s ty c, reachable E s -> few s -> denotes s ty c -> (exists n, type_size (s_types s) ty = Done n) \/ type_size (s_types s) ty = Undef UAbort.
Proof.
  intros E s ty c R F (i & -> & Z). assert (Zr := znth_range _ _ _ Z). unfold few in F. apply size_f_total; [eapply reachable_wf; exact R | lia |]. right. exists i. unfold zlen in *. repeat split; lia.
Qed.

(** ** What goes wrong, on concrete states *)
Definition ty_ops : list op :=
  [OpRegister 5 (str "alpha"); OpCdtCreate 5 (str "Pt:flag,BOOL,3:x,INT,2"); OpCdtCreate 5 (str "Box:on,BOOL,1:p,Pt,2:ok,BOOL,9")].
Definition ty_state : server := after_ops envS ty_ops.
Lemma ty_reachable : reachable envS ty_state.
Proof. apply after_reachable. vm_compute. reflexivity. Qed.
Definition ty_wild : server := after_ops envS (ty_ops ++ [OpCdtCreate 5 (str "Big:x,LINT,536870912"); OpCdtCreate 5 (str "Empty"); OpCdtCreate 5 (str "Nest:e,Empty,1");
  OpCdtCreate 5 (str "Zc:x,INT,0:y,INT,1")]).
Lemma wild_reachable : reachable envS ty_wild.
Proof. apply after_reachable. vm_compute. reflexivity. Qed.
Definition c_pt : cdt := mk_cdt (str "Pt") [mk_cm (str "flag") T_BOOL 3; mk_cm (str "x") T_INT 2].
Definition c_box : cdt := mk_cdt (str "Box") [mk_cm (str "on") T_BOOL 1; mk_cm (str "p") (cdt_type 2) 2; mk_cm (str "ok") T_BOOL 9].
Definition c_big : cdt := mk_cdt (str "Big") [mk_cm (str "x") T_LINT 536870912].
Lemma denotes_check s i c : znth (s_types s) i = Some c -> denotes s (cdt_type i) c.
Proof. intros H. exists i. auto. Qed.
Lemma few_check s : (zlen (s_types s) <? 1073741824) = true -> few s.
Proof. unfold few. lia. Qed.
Definition readable_chk (ts : list cdt) : bool :=
  forallb (fun c => forallb (fun m => (1 <=? cm_count m) && (cm_count m <? 2147483648)) (c_members c)) ts &&
  forallb (fun k => match serialize_datatype ts (cdt_type (Z.of_nat k)) with Done (inl d) => zlen d <=? 4083 | _ => true end) (seq 0 (length ts)).
Lemma readable_check s : readable_chk (s_types s) = true -> readable s.
Proof.
  intros H. apply andb_true_iff in H as [A B]. rewrite forallb_forall in A, B. split.
  - intros ty c m (i & _ & Z) I. specialize (A c (znth_In _ _ _ Z)). rewrite forallb_forall in A. specialize (A m I). lia.
  - intros ty c d (i & -> & Z) S. assert (R := znth_range _ _ _ Z). specialize (B (Z.to_nat i)). rewrite Z2Nat.id in B by lia. rewrite S in B.
    assert (X : In (Z.to_nat i) (seq 0 (length (s_types s)))) by (apply in_seq; unfold zlen in R; lia). apply B in X. lia.
Qed.

(** a type beyond the bit counter gets size 0 although its only member needs 2^35 bits *)
Theorem C37_wrap_refuted : exists E s ty c, reachable E s /\ few s /\ denotes s ty c /\ type_size (s_types s) ty = Done 0 /\
  (exists pl, layout (s_types s) (c_members c) 4294967296 pl) /\ ~ exists pl, layout (s_types s) (c_members c) 0 pl.
Proof.
  exists envS, ty_wild, (cdt_type 4), c_big. split; [exact wild_reachable|]. split; [apply few_check; vm_compute; reflexivity|]. split; [apply denotes_check; vm_compute; reflexivity|].
  split; [vm_compute; reflexivity|]. split.
  - exists [(mk_cm (str "x") T_LINT 536870912, 0, 34359738368)]. split; [lia|]. split; [reflexivity|]. split; [|repeat constructor]. constructor; [|constructor].
    split; [|repeat split; lia]. apply (needs_base _ (mk_cm (str "x") T_LINT 536870912) 64). cbn. tauto.
  - intros (pl & _ & M & A & _). destruct pl as [|[[m p] l] pl]; [discriminate|]. cbn in M. injection M as -> M. apply Forall_inv in A. destruct A as (N & P & B & _).
    destruct N as [w I|n K _]; [|discriminate]. apply widths_fun in I as (-> & _). cbn [cm_type cm_count] in B. change (typesize_bits T_LINT) with 64 in B. lia.
Qed.
(** a member of an empty type aborts the server when the type is first used *)
Theorem C37_abort_refuted : exists E s ty c, reachable E s /\ denotes s ty c /\ type_size (s_types s) ty = Undef UAbort /\ step E s (OpTagAdd 5 (str "t") ty 1 0) = Undef UAbort.
Proof.
  exists envS, ty_wild, (cdt_type 6), (mk_cdt (str "Nest") [mk_cm (str "e") (cdt_type 5) 1]). split; [exact wild_reachable|]. split; [apply denotes_check; vm_compute; reflexivity|].
  split; vm_compute; reflexivity.
Qed.
(** an empty type: 0 for the server, 1 for the client *)
Theorem C38_empty_refuted : exists E s ty c cc, reachable E s /\ denotes s ty c /\ type_size (s_types s) ty = Done 0 /\ dax_get_typesize (s_types s) [] ty = Done (cc, 1).
Proof.
  exists envS, ty_wild, (cdt_type 5), (mk_cdt (str "Empty") []). eexists. split; [exact wild_reachable|]. split; [apply denotes_check; vm_compute; reflexivity|].
  split; vm_compute; reflexivity.
Qed.
(** a member with count 0: the client cannot load the type at all; this is also the counterexample to C39's "parses back" *)
Theorem C38_count_refuted : exists E s ty c cc e, reachable E s /\ denotes s ty c /\ type_size (s_types s) ty = Done 2 /\ dax_get_typesize (s_types s) [] ty = Done (cc, e) /\ e < 0 /\
  dax_cdt_get (s_types s) [] (ByType ty) = Done (cc, e).
Proof.
  exists envS, ty_wild, (cdt_type 7), (mk_cdt (str "Zc") [mk_cm (str "x") T_INT 0; mk_cm (str "y") T_INT 1]). eexists. exists E_ARG. split; [exact wild_reachable|]. split; [apply denotes_check; vm_compute; reflexivity|].
  split; [vm_compute; reflexivity|]. split; [vm_compute; reflexivity|]. split; [reflexivity|]. vm_compute. reflexivity.
Qed.
(** looking up a name nobody has registered makes the client fetch the first type again; its members are appended and its size grows *)
Theorem C38_cache_refuted : exists E s cc1 cc2 cc3 n n', reachable E s /\ readable s /\
  dax_string_to_type (s_types s) [] (str "nope") = Done (cc1, 0) /\ dax_string_to_type (s_types s) cc1 (str "nope") = Done (cc2, 0) /\
  type_size (s_types s) (cdt_type 0) = Done n /\ dax_get_typesize (s_types s) cc2 (cdt_type 0) = Done (cc3, n') /\ n < n'.
Proof.
  exists envS, ty_state. do 3 eexists. exists 78, 156. split; [exact ty_reachable|]. split; [apply readable_check; vm_compute; reflexivity|].
  split; [vm_compute; reflexivity|]. split; [vm_compute; reflexivity|]. split; [vm_compute; reflexivity|]. split; [vm_compute; reflexivity | lia].
Qed.
(** the identical definition: with a negative value in the uninitialised status word the answer is an error *)
Definition envN : env :=
  mk_env true (fun _ => 0) (fun _ => true) (fun _ => 0) (fun _ _ => 165) (fun _ _ => true) (fun _ => 4294967295) (fun _ _ _ => 0) (fun _ _ _ => 0) [].
Theorem C39_again_refuted : exists E s ty c def s', reachable E s /\ denotes s ty c /\ serialize_datatype (s_types s) ty = Done (inl def) /\
  step E s (OpCdtCreate 5 def) = Done s' /\ answered s s' (OErr 5 MSG_CDT_CREATE (-1)).
Proof.
  exists envN, (after_ops envN ty_ops), (cdt_type 2), c_pt, (str "Pt:flag,BOOL,3:x,INT,2").
  exists (match step envN (after_ops envN ty_ops) (OpCdtCreate 5 (str "Pt:flag,BOOL,3:x,INT,2")) with Done s => s | Undef _ => empty_server 0 empty_ret end).
  split; [apply after_reachable; vm_compute; reflexivity|]. split; [apply denotes_check; vm_compute; reflexivity|]. split; [vm_compute; reflexivity|].
  split; [vm_compute; reflexivity|]. exists []. split; [vm_compute; reflexivity | constructor].
Qed.
(** the same members spelt differently are refused *)
Theorem C39_spelling_refuted : exists E s ty c def ts ms s', reachable E s /\ denotes s ty c /\ cdt_create [] (str "Pt" ++ def) = Done (ts, cdt_type 0, Some 0) /\ ts = [mk_cdt (str "Pt") ms] /\ ms = c_members c /\
  step E s (OpCdtCreate 5 (str "Pt" ++ def)) = Done s' /\ answered s s' (OErr 5 MSG_CDT_CREATE E_DUPL).
Proof.
  exists envS, ty_state, (cdt_type 2), c_pt, (str ":flag,bool,3:x,INT,0x2"). do 2 eexists.
  exists (match step envS ty_state (OpCdtCreate 5 (str "Pt:flag,bool,3:x,INT,0x2")) with Done s => s | Undef _ => empty_server 0 empty_ret end).
  split; [exact ty_reachable|]. split; [apply denotes_check; vm_compute; reflexivity|]. split; [vm_compute; reflexivity|]. split; [reflexivity|]. split; [reflexivity|].
  split; [vm_compute; reflexivity|]. exists []. split; [vm_compute; reflexivity | constructor].
Qed.
(** fetching a type twice leaves the client with every member twice *)
Theorem C39_refetch_refuted : exists E s ty c cc1 cc2 sl, reachable E s /\ readable s /\ denotes s ty c /\ dax_cdt_get (s_types s) [] (ByType ty) = Done (cc1, 0) /\
  dax_cdt_get (s_types s) cc1 (ByType ty) = Done (cc2, 0) /\ znth cc2 (cdt_index ty) = Some sl /\ cs_members sl = c_members c ++ c_members c /\ c_members c <> [].
Proof.
  exists envS, ty_state, (cdt_type 2), c_pt. do 3 eexists. split; [exact ty_reachable|]. split; [apply readable_check; vm_compute; reflexivity|]. split; [apply denotes_check; vm_compute; reflexivity|].
  split; [vm_compute; reflexivity|]. split; [vm_compute; reflexivity|]. split; [vm_compute; reflexivity|]. split; [reflexivity | discriminate].
Qed.

(** cases that meet the hypotheses of C37_partial, C38_partial, C39_* and C40_* *)
Definition box_place : placement := [(mk_cm (str "on") T_BOOL 1, 0, 1); (mk_cm (str "p") (cdt_type 2) 2, 8, 80); (mk_cm (str "ok") T_BOOL 9, 88, 9)].
Example C37_ex : reachable envS ty_state /\ few ty_state /\ denotes ty_state (cdt_type 3) c_box /\ type_size (s_types ty_state) (cdt_type 3) = Done 13 /\
  layout (s_types ty_state) (c_members c_box) 13 box_place.
Proof.
  split; [exact ty_reachable|]. split; [apply few_check; vm_compute; reflexivity|]. split; [apply denotes_check; vm_compute; reflexivity|]. split; [vm_compute; reflexivity|].
  split; [lia|]. split; [reflexivity|]. split.
  - constructor; [split; [apply (needs_base _ (mk_cm (str "on") T_BOOL 1) 1); cbn; tauto | repeat split; lia]|].
    constructor; [split; [apply (needs_cdt _ (mk_cm (str "p") (cdt_type 2) 2) 5); vm_compute; reflexivity | repeat split; lia]|].
    constructor; [split; [apply (needs_base _ (mk_cm (str "ok") T_BOOL 9) 1); cbn; tauto | repeat split; try lia; intros K; elim K; reflexivity]|]. constructor.
  - repeat constructor; lia.
Qed.
Example C38_ex : readable ty_state /\ agrees ty_state [] /\ exists cc, dax_get_typesize (s_types ty_state) [] (cdt_type 3) = Done (cc, 13).
Proof. split; [apply readable_check; vm_compute; reflexivity|]. split; [apply agrees_empty|]. eexists. vm_compute. reflexivity. Qed.
Example C39_ex : let s2 := after_ops envS [OpRegister 5 (str "alpha")] in let q := OpCdtGetType 5 (cdt_type 2) in
  let s' := match step envS ty_state q with Done s => s | Undef _ => ty_state end in
  step envS ty_state q = Done s' /\ answered ty_state s' (OResp 5 MSG_CDT_GET (le_bytes 4 (cdt_type 2) ++ str "Pt:flag,BOOL,3:x,INT,2" ++ [0])) /\
  s_types ty_state = s_types s2 ++ c_pt :: [c_box] /\ serialize_datatype (s_types ty_state) (cdt_type 2) = Done (inl (str "Pt:flag,BOOL,3:x,INT,2")) /\
  strtok 58 (str "pT:a,INT,1") = Some (str "pT", str "a,INT,1") /\ case_eqb (str "pT") (c_name c_pt) = true /\ slot [] (cdt_index (cdt_type 2)) = no_slot.
Proof.
  cbv zeta. split; [vm_compute; reflexivity|]. split; [exists []; split; [vm_compute; reflexivity | constructor]|]. split; [vm_compute; reflexivity|]. split; [vm_compute; reflexivity|].
  split; [vm_compute; reflexivity|]. split; vm_compute; reflexivity.
Qed.
Example C40_ex : denotes ty_state (cdt_type 2) c_pt /\ denotes ty_state (cdt_type 3) c_box /\ exec envS ty_state [OpTagAdd 5 (str "t") (cdt_type 3) 2 0] <> Undef UAbort.
Proof. split; [apply denotes_check; vm_compute; reflexivity|]. split; [apply denotes_check; vm_compute; reflexivity|]. vm_compute. discriminate. Qed.
