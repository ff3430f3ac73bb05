(** * C144, C145: types made by modules and scripts *)
From Verif Require Import Base Const Types State Events Atomic Server Lib Spec Shape Inv Reach TypeFrame TypesProofs ClientTypes ClientTypesProofs ClientData Demo Prop_Types Prop_ClientOvr CdtNew.

(** ** Words of the statements *)
(** a name: up to 32 letters, digits and underscores, no digit in front *)
Definition identifier (n : name) : Prop :=
  zlen n <= 32 /\ (exists c r, n = c :: r /\ (isalpha c = true \/ c = 95)) /\ forall c, In c n -> isalpha c = true \/ isdigit c = true \/ c = 95.
(** the name of a type of the server *)
Definition type_name (s : server) (t : Z) (n : name) : Prop := In (n, t) base_names \/ exists c, denotes s t c /\ n = c_name c.
(** a new type: a free name, at least one member, different names, types that exist and counts above 0 *)
Record wish (s : server) (nm : name) (ms : list cmember) : Prop := {
  wi_name : identifier nm;
  wi_free : forall t n, type_name s t n -> case_eqb nm n = false;
  wi_some : ms <> [];
  wi_members : forall m, In m ms -> identifier (cm_name m) /\ (exists n, type_name s (cm_type m) n) /\ 1 <= cm_count m < 2147483648;
  wi_distinct : ForallOrdPairs (fun a b => case_eqb (cm_name a) (cm_name b) = false) ms }.
(** the text that describes it, and that this fits one message *)
Inductive spelled (s : server) : list cmember -> name -> Prop :=
| sp_end : spelled s [] []
| sp_more m n ms r : type_name s (cm_type m) n -> spelled s ms r -> spelled s (m :: ms) (str ":" ++ cm_name m ++ str "," ++ n ++ str "," ++ print_d (cm_count m) ++ r).
Definition fits (s : server) (nm : name) (ms : list cmember) : Prop := exists t, spelled s ms t /\ zlen nm + zlen t <= 4083.
(** afterwards the server has exactly one type more, and the client knows it completely *)
Definition made (s : server) (nm : name) (ms : list cmember) (ty : Z) (cc' : ctypes) (s' : server) : Prop :=
  s_types s' = s_types s ++ [mk_cdt nm ms] /\ denotes s' ty (mk_cdt nm ms) /\ s_db s' = s_db s /\ agrees s' cc' /\ slot cc' (cdt_index ty) = mk_cs (Some nm) ms.

(** ** Helpers *)
Lemma identifier_valid n : identifier n -> validate_name n = 0.
Proof.
  intros (L & (c & r & -> & H) & A). unfold validate_name, TAGNAME_SIZE. replace (32 <? zlen (c :: r)) with false by lia.
  replace (negb (isalpha c) && negb (c =? 95)) with false by (destruct H as [-> | ->]; [reflexivity | rewrite andb_comm; reflexivity]).
  replace (forallb _ r) with true; [reflexivity|]. symmetry. apply forallb_forall. intros x I. destruct (A x (or_intror I)) as [-> | [-> | ->]]; [reflexivity | apply orb_true_r | rewrite orb_true_r; reflexivity].
Qed.
Lemma type_name_ty s t n : type_name s t n -> In t base_types \/ exists j, 0 <= j < zlen (s_types s) /\ t = cdt_type j.
Proof. intros [I|(c & (i & -> & Z) & _)]; [left; eapply base_names_types; exact I | right; exists i; split; [eapply znth_range; exact Z | reflexivity]]. Qed.
Lemma type_name_get s t n : few s -> type_name s t n -> cdt_get_name (s_types s) t = Some n.
Proof.
  unfold few. intros F [I|(c & (i & -> & Z) & ->)].
  - cbn in I. repeat (destruct I as [I|I]; [injection I as <- <-; reflexivity|]). contradiction.
  - assert (R := znth_range _ _ _ Z). destruct (custom_type i ltac:(lia)) as [C1 C2]. unfold cdt_get_name. rewrite C1, C2, Z. reflexivity.
Qed.
Lemma nodup_snoc {A} (l : list A) x : NoDup l -> ~ In x l -> NoDup (l ++ [x]).
Proof. intros N I. assert (X := proj2 (NoDup_Add (Add_app x l []))). rewrite app_nil_r in X. apply X; auto. Qed.
(** ** The proof *)
Section Make.
Context (E : env) (s : server) (R : reachable E s) (F : few s) (Rd : readable s).
Let W : wf (s_types s) := reachable_wf _ _ R.
Lemma text_of cc t n : agrees s cc -> type_name s t n -> exists cc', type_to_string (s_types s) cc t = Done (cc', Some n) /\ agrees s cc'.
Proof.
  intros A [I|(c & (i & -> & Z) & ->)].
  - exists cc. split; [|exact A]. cbn in I. repeat (destruct I as [I|I]; [injection I as <- <-; reflexivity|]). contradiction.
  - unfold few in F. destruct (mirror_slot _ W ltac:(lia) (readable_regular _ Rd) cc i c A Z) as (cc' & H & A' & _). eauto.
Qed.
Lemma texts ms t : spelled s ms t -> forall cc, agrees s cc -> exists cc', cdt_text (s_types s) cc ms = Done (cc', t) /\ agrees s cc'.
Proof.
  induction 1 as [|m n ms r T S IH]; intros cc A; cbn [cdt_text]; [eauto|]. destruct (text_of _ _ _ A T) as (cc1 & -> & A1). cbn [rbind]. destruct (IH _ A1) as (cc2 & -> & A2). cbn [rbind]. eauto.
Qed.
Lemma spelled_serial ms t : spelled s ms t -> serialize_members (s_types s) ms = Done t.
Proof. induction 1 as [|m n ms r T S IH]; [reflexivity|]. cbn [serialize_members]. rewrite (type_name_get _ _ _ F T), IH. reflexivity. Qed.
Lemma member_step cc d m : agrees s cc -> identifier (cm_name m) -> (exists n, type_name s (cm_type m) n) -> 1 <= cm_count m < 2147483648 ->
  (forall x, In x (nc_members d) -> case_eqb (cm_name x) (cm_name m) = false) ->
  exists cc', dax_cdt_member (s_types s) cc d (Some (cm_name m)) (cm_type m) (cm_count m) = Done (cc', inl (mk_nc (nc_name d) (nc_members d ++ [m]))) /\ agrees s cc'.
Proof.
  intros A (L & _) (n & T) C D. unfold dax_cdt_member. destruct (text_of _ _ _ A T) as (cc' & H & A').
  replace (existsb _ (nc_members d)) with false.
  - rewrite H. cbn [rbind]. unfold TAGNAME_SIZE. replace (32 <? zlen (cm_name m)) with false by lia. replace (u32 (cm_count m)) with (cm_count m) by (unfold u32; rewrite Z.mod_small; lia). exists cc'. destruct m; auto.
  - symmetry. apply not_true_is_false. intros X. apply existsb_exists in X as (x & I & X). apply name_eqb_eq in X. assert (Y := D x I). rewrite <- X, case_refl in Y. discriminate.
Qed.
Lemma wishes ms : (forall m, In m ms -> identifier (cm_name m) /\ (exists n, type_name s (cm_type m) n) /\ 1 <= cm_count m < 2147483648) ->
  ForallOrdPairs (fun a b => case_eqb (cm_name a) (cm_name b) = false) ms ->
  forall cc d, agrees s cc -> (forall x m, In x (nc_members d) -> In m ms -> case_eqb (cm_name x) (cm_name m) = false) ->
  exists cc', add_wishes (s_types s) cc d ms = Done (cc', inl (mk_nc (nc_name d) (nc_members d ++ ms))) /\ agrees s cc'.
Proof.
  induction ms as [|m ms IH]; intros M P cc d A D; cbn [add_wishes]; [rewrite app_nil_r; destruct d; eauto|]. inversion P as [|? ? P1 P2]; subst. rewrite Forall_forall in P1.
  destruct (M m (or_introl eq_refl)) as (M1 & M2 & M3). destruct (member_step cc d m A M1 M2 M3 (fun x I => D x m I (or_introl eq_refl))) as (cc1 & -> & A1). cbn [rbind].
  destruct (IH (fun x I => M x (or_intror I)) P2 cc1 (mk_nc (nc_name d) (nc_members d ++ [m])) A1) as (cc2 & H & A2).
  { cbn [nc_members]. intros x y I J. apply in_app_or in I as [I|[<-|[]]]; [apply D; [exact I | right; exact J] | apply P1; exact J]. }
  exists cc2. split; [|exact A2]. rewrite H. cbn [nc_name nc_members]. rewrite <- app_assoc. reflexivity.
Qed.
Lemma distinct_low ms : ForallOrdPairs (fun a b => case_eqb (cm_name a) (cm_name b) = false) ms -> NoDup (map (fun m => low (cm_name m)) ms).
Proof.
  induction 1 as [|m ms H _ IH]; [constructor|]. cbn [map]. constructor; [|exact IH]. intros I. apply in_map_iff in I as (x & Q & I). rewrite Forall_forall in H. specialize (H x I).
  symmetry in Q. apply case_low in Q. congruence.
Qed.
Lemma create_step cc fd nm ms : wish s nm ms -> fits s nm ms -> agrees s cc ->
  exists cc' s' ty, dax_cdt_create E cc fd s (mk_nc nm ms) = Done (cc', s', 0, ty, true) /\ made s nm ms ty cc' s'.
Proof.
  intros Wi (t & Sp & Le) A. set (ts := s_types s) in *. set (c := mk_cdt nm ms). set (i := zlen ts). set (ts' := ts ++ [c]). unfold few in F. fold ts i in F. assert (I0 := zlen_nonneg ts).
  assert (Zc : znth ts' i = Some c) by apply znth_last. assert (L' : zlen ts' = i + 1) by (unfold ts'; rewrite zlen_app; reflexivity).
  (* the registry with the new type *)
  assert (Tc : type_ok i c).
  { constructor; cbn [c_name c_members c].
    - apply identifier_valid, (wi_name _ _ _ Wi).
    - destruct (find_base nm base_names) as [b|] eqn:Q; [|reflexivity]. exfalso. apply find_base_in in Q as (x & I & Q). rewrite (wi_free _ _ _ Wi b x (or_introl I)) in Q. discriminate.
    - apply Forall_forall. intros m I. destruct (wi_members _ _ _ Wi m I) as (M1 & (n & M2) & M3). split; [apply identifier_valid; exact M1|]. split; [lia|]. exact (type_name_ty _ _ _ M2).
    - apply distinct_low, (wi_distinct _ _ _ Wi). }
  assert (W' : wf ts').
  { constructor.
    - intros j x Z. assert (Rj := znth_range _ _ _ Z). rewrite L' in Rj. destruct (Z.eq_dec j i) as [->|N]; [congruence|]. unfold ts' in Z. rewrite znth_app1 in Z by (fold i; lia). exact (wf_type _ W _ _ Z).
    - unfold ts'. rewrite map_app. apply nodup_snoc; [exact (wf_names _ W)|]. intros I. apply in_map_iff in I as (x & Q & I). destruct (In_znth _ _ I) as (k & Zk).
      assert (X := wi_free _ _ _ Wi (cdt_type k) (c_name x) (or_intror (ex_intro _ x (conj (ex_intro _ k (conj eq_refl Zk)) eq_refl)))).
      symmetry in Q. apply case_low in Q. cbn [c_name c] in Q. congruence. }
  destruct (describe_back ts' i c W' ltac:(lia) Zc) as (a & x & d & Ea & La & Sd & Cr & _).
  assert (Da : a = ts). { unfold ts' in Ea. destruct x as [|y x]; [apply app_inj_tail in Ea as [Ea _]; congruence|]. exfalso. assert (Q : zlen (ts ++ [c]) = zlen (a ++ c :: y :: x)) by (rewrite Ea; reflexivity).
    rewrite !zlen_app, !zlen_cons in Q. change (zlen (@nil cdt)) with 0 in Q. fold i in Q. assert (Zx := zlen_nonneg x). lia. }
  subst a. assert (Ser := spelled_serial _ _ Sp). fold ts in Ser. assert (Ser' := serialize_prefix _ [c] _ _ Ser). fold ts' in Ser'. destruct (custom_type i ltac:(lia)) as [C1 C2].
  assert (Dd : d = nm ++ t). { unfold serialize_datatype in Sd. rewrite C2 in Sd. replace (zlen ts' <=? i) with false in Sd by lia. rewrite Zc in Sd. cbn [c_members c_name c] in Sd. rewrite Ser' in Sd. cbn [rbind] in Sd. injection Sd as <-. reflexivity. }
  subst d. assert (Rg := readable_regular _ Rd). fold ts in Rg. assert (Rg' : regular ts').
  { constructor.
    - intros j y m Z I. assert (Rj := znth_range _ _ _ Z). rewrite L' in Rj. destruct (Z.eq_dec j i) as [->|N]; [assert (y = c) by congruence; subst y; apply (wi_members _ _ _ Wi m I)|].
      unfold ts' in Z. rewrite znth_app1 in Z by (fold i; lia). exact (rg_count _ Rg _ _ _ Z I).
    - intros j d Rj Sj. rewrite L' in Rj. destruct (Z.eq_dec j i) as [->|N]; [rewrite Sd in Sj; injection Sj as <-; rewrite zlen_app; lia|].
      destruct (znth ts j) as [y|] eqn:Z; [|apply znth_none in Z; fold i in Z; lia]. destruct (describe_back ts j y W ltac:(fold i; lia) Z) as (_ & _ & d0 & _ & _ & S0 & _).
      replace d with d0; [apply (rg_fits _ Rg j d0); [fold i; lia | exact S0]|]. destruct (custom_type j ltac:(lia)) as [_ C2']. unfold serialize_datatype in Sj, S0. rewrite C2' in Sj, S0.
      replace (zlen ts' <=? j) with false in Sj by lia. replace (zlen ts <=? j) with false in S0 by (fold i; lia). rewrite Z in S0. unfold ts' in Sj at 1. rewrite znth_app1 in Sj by (fold i; lia). rewrite Z in Sj.
      apply rbind_done in S0 as (r0 & S1 & S2). assert (S1' := serialize_prefix _ [c] _ _ S1). fold ts' in S1'. rewrite S1' in Sj. cbn [rbind] in Sj. congruence. }
  (* the request *)
  destruct (texts _ _ Sp cc A) as (cc1 & H1 & A1). destruct (texts _ _ Sp cc1 A1) as (cc2 & H2 & A2). fold ts in H1, H2.
  assert (K : MSG_DATA_SIZE <? zlen nm + zlen t + 1 = false) by (unfold MSG_DATA_SIZE; lia).
  assert (St : exists s', ask E s (OpCdtCreate fd (nm ++ t)) = Done (s', inl (le_bytes 4 (cdt_type i))) /\ s_types s' = ts' /\ s_db s' = s_db s).
  { unfold ask, step. cbn [handle_op]. unfold h_cdt_create, get, lift, modify, bind. fold ts. rewrite Cr. cbn [Z.ltb Z.compare]. unfold respond. change (zlen (le_bytes 4 (cdt_type i))) with 4. cbn.
    eexists. rewrite rev_unit. split; [reflexivity|]. split; reflexivity. }
  destruct St as (s' & Ask & Ts & Tg).
  assert (A3 : mirrors ts' cc2). { intros j. destruct (A2 j) as [Q|(y & Z & Q)]; [left; exact Q|]. right. exists y. split; [|exact Q]. assert (Rj := znth_range _ _ _ Z). unfold ts'. rewrite znth_app1 by (fold ts in Rj; lia). exact Z. }
  assert (Sl : slot cc2 i = no_slot). { destruct (A2 i) as [Q|(y & Z & Q)]; [exact Q|]. apply znth_range in Z. fold ts i in Z. lia. }
  assert (Ox := proj1 (mirrors_okx ts' cc2) A3).
  assert (Sc : server_cdt ts' (ByType (cdt_type i)) = Done (inl (cdt_type i, nm ++ t))).
  { unfold server_cdt. cbv zeta. rewrite Sd. cbn [rbind]. rewrite zlen_app. replace (MSG_DATA_SIZE - 4 <? zlen nm + zlen t + 1) with false by (unfold MSG_DATA_SIZE; lia). reflexivity. }
  assert (Fe : forall b, i < b -> exists cc', add_cdt (dax_cdt_get ts') cc2 (cdt_type i) (nm ++ t) = Done (cc', 0) /\ okx ts' b cc' /\ holds (slot cc' i) c).
  { intros b Hb. destruct (fetch_ok ts' W' ltac:(lia) Rg' i ltac:(lia) c (Datatypes.S (Datatypes.S (length ts'))) cc2 b (ByType (cdt_type i)) (nm ++ t) Zc ltac:(unfold zlen in L'; lia) Hb (Ox b) Sl Sd Sc) as (cc' & H & O' & Ho & _).
    exists cc'. split; [|auto]. change (cdt_fetch (Datatypes.S (Datatypes.S (length ts'))) ts' cc2 (ByType (cdt_type i))) with
      (x <-- server_cdt ts' (ByType (cdt_type i)) ;; match x with inr e => Done (cc2, e) | inl (t, d) => add_cdt (dax_cdt_get ts') cc2 t d end) in H. rewrite Sc in H. exact H. }
  destruct (Fe (i + 1) ltac:(lia)) as (cc' & Ha & _ & Ho).
  exists cc', s', (cdt_type i). split.
  - unfold dax_cdt_create. cbn [nc_members nc_name]. destruct ms as [|m0 ms0] eqn:Em; [elim (wi_some _ _ _ Wi); reflexivity|]. rewrite <- Em in *. fold ts. rewrite H1. cbn [rbind]. rewrite K, H2. cbn [rbind]. rewrite K. cbv zeta. rewrite Ask. cbn [rbind].
    replace (le_val (slice 0 4 (le_bytes 4 (cdt_type i)))) with (cdt_type i); [rewrite Ts, Ha; reflexivity|].
    change (slice 0 4 (le_bytes 4 (cdt_type i))) with (le_bytes 4 (cdt_type i)). assert (X := le_val_le_bytes 4 (cdt_type i)). change (256 ^ Z.of_nat 4) with 4294967296 in X. rewrite X. symmetry. apply Z.mod_small. rewrite cdt_type_sum by lia. lia.
  - split; [exact Ts|]. split; [exists i; split; [reflexivity | rewrite Ts; exact Zc]|]. split; [exact Tg|]. split; [|rewrite C2; exact Ho].
    unfold agrees. rewrite Ts. apply (mirrors_okx ts' cc'). intros b. apply (okx_weaken ts' (Z.max b (i + 1))); [lia|]. destruct (Fe (Z.max b (i + 1)) ltac:(lia)) as (cc3 & H3 & O3 & _). congruence.
Qed.
End Make.

(** a name in any mix of upper and lower case denotes its type *)
Definition refers (s : server) (tn : name) (t : Z) : Prop := exists n, type_name s t n /\ case_eqb tn n = true.
Lemma base_apart : forallb (fun x => forallb (fun y => negb (case_eqb (fst x) (fst y)) || (snd x =? snd y)) base_names) base_names = true.
Proof. vm_compute. reflexivity. Qed.
Lemma find_base_hit n b t : In (b, t) base_names -> case_eqb n b = true -> find_base n base_names = Some t.
Proof.
  intros I C. destruct (find_base n base_names) as [u|] eqn:Q.
  - apply find_base_in in Q as (x & J & D). f_equal. assert (B := base_apart). rewrite forallb_forall in B. specialize (B _ J). rewrite forallb_forall in B. specialize (B _ I). cbn [fst snd] in B.
    assert (K : case_eqb x b = true) by (eapply case_trans; [rewrite case_sym; exact D | exact C]). rewrite K in B. cbn [negb orb] in B. lia.
  - exfalso. revert Q. clear - I C. induction base_names as [|[x u] l IH]; [contradiction|]. cbn [find_base]. destruct I as [I|I]; [injection I as -> ->; rewrite C; discriminate|]. destruct (case_eqb n x); [discriminate | exact (IH I)].
Qed.
Lemma case_len a b : case_eqb a b = true -> zlen a = zlen b.
Proof. intros H. apply case_low in H. unfold low in H. assert (L := f_equal (@length Z) H). rewrite !map_length in L. unfold zlen. lia. Qed.
Section Script.
Context (E : env) (s : server) (R : reachable E s) (F : few s) (Rd : readable s).
Let W : wf (s_types s) := reachable_wf _ _ R.
Lemma named_type cc tn t : agrees s cc -> refers s tn t -> exists cc', dax_string_to_type (s_types s) cc tn = Done (cc', t) /\ agrees s cc'.
Proof.
  intros A (n & [I|(c & (i & -> & Z) & ->)] & C); unfold dax_string_to_type, string_to_type; [rewrite (find_base_hit _ _ _ I C); eauto|].
  assert (T := wf_type _ W _ _ Z). assert (Nb : find_base tn base_names = None).
  { destruct (find_base tn base_names) as [u|] eqn:Q; [|reflexivity]. exfalso. apply find_base_in in Q as (b & I & D). assert (X := ty_base _ _ T). rewrite (find_base_hit _ _ _ I) in X; [discriminate|].
    eapply case_trans; [rewrite case_sym; exact C | exact D]. }
  assert (Rz := znth_range _ _ _ Z). assert (Ox := proj1 (mirrors_okx (s_types s) cc) A). unfold few in F. assert (Rg := readable_regular _ Rd).
  rewrite Nb, (find_hit _ _ _ _ _ _ W (Ox (i + 1)) Z C). destruct (cs_name (slot cc i)) as [m|] eqn:N; [eauto|].
  assert (Em : slot cc i = no_slot). { destruct (A i) as [K|(c' & Z' & K)]; [exact K|]. rewrite K in N. discriminate. }
  destruct (valid_plain _ (ty_name _ _ T)) as (_ & _ & Ln). destruct (server_answers _ _ _ W ltac:(lia) Rg Z) as (d & Sd & _ & Sn). assert (Lt := case_len _ _ C).
  assert (St := Sn tn C ltac:(lia) Nb). assert (Hi : (Z.to_nat i < Datatypes.S (length (s_types s)))%nat) by (unfold zlen in Rz; lia).
  destruct (fetch_ok (s_types s) W ltac:(lia) Rg i ltac:(lia) c _ cc (i + 1) (ByName tn) d Z Hi ltac:(lia) (Ox _) Em Sd St) as (cc' & Q & O1 & H & _).
  exists cc'. unfold dax_cdt_get. rewrite Q. cbn [rbind Z.eqb negb]. rewrite (find_hit _ _ _ _ _ _ W O1 Z C). unfold holds in H. rewrite H. cbn [cs_name]. split; [reflexivity|].
  apply mirrors_okx. intros b. apply (okx_weaken (s_types s) (Z.max b (i + 1))); [lia|].
  destruct (fetch_ok (s_types s) W ltac:(lia) Rg i ltac:(lia) c _ cc (Z.max b (i + 1)) (ByName tn) d Z Hi ltac:(lia) (Ox _) Em Sd St) as (cc2 & Q2 & O2 & _). congruence.
Qed.
(** the table of the script asks for the members [ms] *)
Definition asks (ms : list cmember) (l : list (option lmember)) : Prop :=
  Forall2 (fun m x => exists tn, x = Some (mk_lm (Some (cm_name m)) (Some tn) (cm_count m)) /\ refers s tn (cm_type m)) ms l.
Lemma script_wishes ms l : asks ms l -> (forall m, In m ms -> identifier (cm_name m) /\ (exists n, type_name s (cm_type m) n) /\ 1 <= cm_count m < 2147483648) ->
  ForallOrdPairs (fun a b => case_eqb (cm_name a) (cm_name b) = false) ms ->
  forall cc d, agrees s cc -> (forall x m, In x (nc_members d) -> In m ms -> case_eqb (cm_name x) (cm_name m) = false) ->
  exists cc', lua_members (s_types s) cc d l = Done (cc', inl (mk_nc (nc_name d) (nc_members d ++ ms))) /\ agrees s cc'.
Proof.
  induction 1 as [|m x ms l (tn & -> & Rf) _ IH]; intros M P cc d A D; cbn [lua_members]; [rewrite app_nil_r; destruct d; eauto|]. inversion P as [|? ? P1 P2]; subst. rewrite Forall_forall in P1.
  cbn [lm_type lm_name lm_count]. destruct (named_type cc tn (cm_type m) A Rf) as (cc0 & -> & A0). cbn [rbind].
  destruct (M m (or_introl eq_refl)) as (M1 & M2 & M3).
  replace (s32 (cm_count m)) with (cm_count m) by (unfold s32; rewrite Z.mod_small by lia; cbv zeta; destruct (cm_count m <? 2147483648) eqn:Q; lia).
  destruct (member_step E s R F Rd cc0 d m A0 M1 M2 M3 (fun x I => D x m I (or_introl eq_refl))) as (cc1 & -> & A1). cbn [rbind].
  destruct (IH (fun x I => M x (or_intror I)) P2 cc1 (mk_nc (nc_name d) (nc_members d ++ [m])) A1) as (cc2 & H & A2).
  { cbn [nc_members]. intros x y I J. apply in_app_or in I as [I|[<-|[]]]; [apply D; [exact I | right; exact J] | apply P1; exact J]. }
  exists cc2. split; [|exact A2]. rewrite H. cbn [nc_name nc_members]. rewrite <- app_assoc. reflexivity.
Qed.
End Script.

(** ** C144 *)
(** a well-formed wish is granted: the server has exactly the members asked for, in this order, and the client knows the type *)
Theorem C144_made_partial : forall E cc fd s nm ms, reachable E s -> few s -> readable s -> agrees s cc -> wish s nm ms -> fits s nm ms ->
  exists cc' s' ty, make_type E cc fd s nm ms = Done (cc', s', inl ty) /\ made s nm ms ty cc' s'.
Proof.
  intros E cc fd s nm ms R F Rd A Wi Fi. unfold make_type. destruct (wi_name _ _ _ Wi) as (L & _). unfold dax_cdt_new, TAGNAME_SIZE. replace (32 <? zlen nm) with false by lia. cbn [rbind].
  destruct (wishes E s R F Rd ms (wi_members _ _ _ Wi) (wi_distinct _ _ _ Wi) cc (mk_nc nm []) A (fun x m I => match I with end)) as (cc1 & -> & A1). cbn [rbind nc_name nc_members app].
  destruct (create_step E s R F Rd cc1 fd nm ms Wi Fi A1) as (cc' & s' & ty & Hc & M). exists cc', s', ty. split; [|exact M]. rewrite Hc. reflexivity.
Qed.

(** ** C145 *)
(** the same for a script, which gives the types by name, in any mix of upper and lower case *)
Theorem C145_made_partial : forall E cc fd s nm ms l, reachable E s -> few s -> readable s -> agrees s cc -> wish s nm ms -> fits s nm ms -> asks s ms l ->
  exists cc' s' ty, lua_cdt_create E cc fd s (Some nm) (Some l) = Done (cc', s', inl ty) /\ made s nm ms ty cc' s'.
Proof.
  intros E cc fd s nm ms l R F Rd A Wi Fi As. unfold lua_cdt_create. destruct (wi_name _ _ _ Wi) as (L & _). unfold dax_cdt_new, TAGNAME_SIZE. replace (32 <? zlen nm) with false by lia. cbn [rbind].
  destruct (script_wishes E s R F Rd ms l As (wi_members _ _ _ Wi) (wi_distinct _ _ _ Wi) cc (mk_nc nm []) A (fun x m I => match I with end)) as (cc1 & -> & A1). cbn [rbind nc_name nc_members app].
  destruct (create_step E s R F Rd cc1 fd nm ms Wi Fi A1) as (cc' & s' & ty & Hc & M). exists cc', s', ty. split; [|exact M]. rewrite Hc. reflexivity.
Qed.
(** a member without a type is refused wherever it stands behind members that are in order, and the server is not asked *)
Lemma members_app ts r : forall l cc d cc' d', lua_members ts cc d l = Done (cc', inl d') -> lua_members ts cc d (l ++ r) = lua_members ts cc' d' r.
Proof.
  induction l as [|[m|] l IH]; intros cc d cc' d' H; cbn [lua_members app] in *; [injection H as -> ->; reflexivity | | discriminate].
  apply rbind_done in H as ((c1 & t) & Q1 & H). apply rbind_done in H as ((c2 & y) & Q2 & H). cbv beta iota zeta in H. rewrite Q1. cbn [rbind]. rewrite Q2. cbn [rbind]. destruct y; [apply IH; exact H | discriminate].
Qed.
Theorem C145_untyped : forall E cc fd s nm ms l x c rest, reachable E s -> few s -> readable s -> agrees s cc -> wish s nm ms -> asks s ms l ->
  exists cc', lua_cdt_create E cc fd s (Some nm) (Some (l ++ Some (mk_lm (Some x) None c) :: rest)) = Done (cc', s, inr tt).
Proof.
  intros E cc fd s nm ms l x c rest R F Rd A Wi As. unfold lua_cdt_create. destruct (wi_name _ _ _ Wi) as (L & _). unfold dax_cdt_new, TAGNAME_SIZE. replace (32 <? zlen nm) with false by lia. cbn [rbind].
  destruct (script_wishes E s R F Rd ms l As (wi_members _ _ _ Wi) (wi_distinct _ _ _ Wi) cc (mk_nc nm []) A (fun x m I => match I with end)) as (cc1 & H & A1). rewrite (members_app _ _ _ _ _ _ _ H).
  cbn [lua_members lm_type lm_name lm_count rbind nc_name nc_members app]. unfold dax_cdt_member. cbn [nc_members]. destruct (existsb _ _); [cbn [rbind]; eauto|]. cbn. eauto.
Qed.
(** REFUTED without the premise on counts: a member without a count is registered on the server for good, the library releases the description and then reports an error, and the
    script library releases the description once more *)
Theorem C145_count_refuted : exists E cc fd s nm m, reachable E s /\ few s /\ readable s /\ agrees s cc /\ identifier nm /\ refers s (str "INT") T_INT /\ m = mk_cm (str "a") T_INT 0 /\
  lua_cdt_create E cc fd s (Some nm) (Some [Some (mk_lm (Some (cm_name m)) (Some (str "INT")) (cm_count m))]) = Undef UUaf /\
  exists cc' s' e ty, dax_cdt_create E cc fd s (mk_nc nm [m]) = Done (cc', s', e, ty, true) /\ e < 0 /\ s_types s' = s_types s ++ [mk_cdt nm [m]].
Proof.
  exists envS, [], 5, ty_state, (str "New"), (mk_cm (str "a") T_INT 0). split; [exact ty_reachable|]. split; [apply few_check; vm_compute; reflexivity|]. split; [apply readable_check; vm_compute; reflexivity|].
  split; [apply agrees_empty|]. split. { split; [vm_compute; discriminate|]. split; [exists 78, [101; 119]; split; [reflexivity | left; reflexivity]|]. intros c [<-|[<-|[<-|[]]]]; left; reflexivity. }
  split; [exists (str "INT"); split; [left; cbn; tauto | reflexivity]|]. split; [reflexivity|]. split; [vm_compute; reflexivity|]. do 4 eexists. split; [vm_compute; reflexivity|]. split; [reflexivity | vm_compute; reflexivity].
Qed.
(** REFUTED for other shapes of the table: a member that is no table, and a first member without a name *)
Theorem C145_shape_refuted : exists E cc fd s nm, reachable E s /\ agrees s cc /\ identifier nm /\
  lua_cdt_create E cc fd s (Some nm) (Some [None]) = Undef UOob /\ lua_cdt_create E cc fd s (Some nm) (Some [Some (mk_lm None (Some (str "INT")) 1)]) = Undef UNull /\
  lua_cdt_create E cc fd s None (Some []) = Undef UNull.
Proof.
  exists envS, [], 5, ty_state, (str "New"). split; [exact ty_reachable|]. split; [apply agrees_empty|].
  split. { split; [vm_compute; discriminate|]. split; [exists 78, [101; 119]; split; [reflexivity | left; reflexivity]|]. intros c [<-|[<-|[<-|[]]]]; left; reflexivity. }
  split; [vm_compute; reflexivity|]. split; vm_compute; reflexivity.
Qed.

(** ** More on C144 *)
(** REFUTED without the premise on names: nobody checks the name of a member in the library, and the server reads it as part of the description *)
Theorem C144_inject_refuted : exists E cc fd s nm m cc' s' ty c, reachable E s /\ few s /\ readable s /\ agrees s cc /\ zlen (cm_name m) <= 32 /\
  make_type E cc fd s nm [m] = Done (cc', s', inl ty) /\ denotes s' ty c /\ zlen (c_members c) = 2 /\ forall x, In x (c_members c) -> cm_name x <> cm_name m.
Proof.
  exists envS, [], 5, ty_state, (str "New"), (mk_cm (str "a,INT,1:b") T_INT 1). do 3 eexists. exists (mk_cdt (str "New") [mk_cm (str "a") T_INT 1; mk_cm (str "b") T_INT 1]).
  split; [exact ty_reachable|]. split; [apply few_check; vm_compute; reflexivity|]. split; [apply readable_check; vm_compute; reflexivity|].
  split; [apply agrees_empty|]. split; [vm_compute; discriminate|]. split; [vm_compute; reflexivity|]. split; [exists 4; split; vm_compute; reflexivity|]. split; [reflexivity|].
  intros x [<-|[<-|[]]]; vm_compute; discriminate.
Qed.
(** REFUTED for a type that the same module has made before: the server knows it and agrees, but the library notes the members a second time, so that the sizes of server and library differ *)
Theorem C144_again_refuted : exists E cc fd s nm ms cc1 s1 cc2 s2 ty, reachable E s /\ few s /\ readable s /\ agrees s cc /\
  make_type E cc fd s nm ms = Done (cc1, s1, inl ty) /\ make_type E cc1 fd s1 nm ms = Done (cc2, s2, inl ty) /\ s_types s2 = s_types s1 /\
  type_size (s_types s2) ty = Done 2 /\ exists cc3, dax_get_typesize (s_types s2) cc2 ty = Done (cc3, 4).
Proof.
  assert (X : exists cc1 s1 cc2 s2 ty, make_type envS [] 5 ty_state (str "New") [mk_cm (str "a") T_INT 1] = Done (cc1, s1, inl ty) /\ make_type envS cc1 5 s1 (str "New") [mk_cm (str "a") T_INT 1] = Done (cc2, s2, inl ty) /\ s_types s2 = s_types s1 /\
    type_size (s_types s2) ty = Done 2 /\ exists cc3, dax_get_typesize (s_types s2) cc2 ty = Done (cc3, 4)).
  { do 5 eexists. split; [vm_compute; reflexivity|]. split; [vm_compute; reflexivity|]. split; [vm_compute; reflexivity|]. split; [vm_compute; reflexivity|]. eexists. vm_compute. reflexivity. }
  destruct X as (cc1 & s1 & cc2 & s2 & ty & X). exists envS, [], 5, ty_state, (str "New"), [mk_cm (str "a") T_INT 1], cc1, s1, cc2, s2, ty.
  split; [exact ty_reachable|]. split; [apply few_check; vm_compute; reflexivity|]. split; [apply readable_check; vm_compute; reflexivity|]. split; [apply agrees_empty | exact X].
Qed.

(** ** Cases *)
Definition free_chk (ts : list cdt) (nm : name) : bool := forallb (fun x => negb (case_eqb nm (fst x))) base_names && forallb (fun c => negb (case_eqb nm (c_name c))) ts.
Lemma free_check s nm : free_chk (s_types s) nm = true -> forall t n, type_name s t n -> case_eqb nm n = false.
Proof.
  intros H t n T. apply andb_prop in H as [H1 H2]. rewrite forallb_forall in H1, H2. destruct T as [I|(c & (i & _ & Z) & ->)].
  - specialize (H1 _ I). cbn [fst] in H1. destruct (case_eqb nm n); [discriminate | reflexivity].
  - specialize (H2 _ (znth_In _ _ _ Z)). destruct (case_eqb nm (c_name c)); [discriminate | reflexivity].
Qed.
Definition ident_chk (n : name) : bool :=
  (zlen n <=? 32) && match n with c :: _ => isalpha c || (c =? 95) | [] => false end && forallb (fun c => isalpha c || isdigit c || (c =? 95)) n.
Lemma ident_check n : ident_chk n = true -> identifier n.
Proof.
  intros H. apply andb_prop in H as [H H3]. apply andb_prop in H as [H1 H2]. split; [lia|]. split.
  - destruct n as [|c r]; [discriminate|]. exists c, r. split; [reflexivity|]. apply orb_prop in H2 as [H2|H2]; [left; exact H2 | right; lia].
  - intros c I. rewrite forallb_forall in H3. specialize (H3 c I). apply orb_prop in H3 as [H3|H3]; [apply orb_prop in H3 as [H3|H3]; auto | right; right; lia].
Qed.
Definition new_members : list cmember := [mk_cm (str "on") T_BOOL 9; mk_cm (str "p") (cdt_type 2) 2; mk_cm (str "x_1") T_LREAL 1].
Lemma pt_named : type_name ty_state (cdt_type 2) (str "Pt").
Proof. right. exists c_pt. split; [apply denotes_check; vm_compute; reflexivity | reflexivity]. Qed.
Example C144_ex : reachable envS ty_state /\ few ty_state /\ readable ty_state /\ agrees ty_state [] /\ wish ty_state (str "New") new_members /\ fits ty_state (str "New") new_members.
Proof.
  split; [exact ty_reachable|]. split; [apply few_check; vm_compute; reflexivity|]. split; [apply readable_check; vm_compute; reflexivity|]. split; [apply agrees_empty|]. split.
  - constructor.
    + apply ident_check. reflexivity.
    + apply free_check. vm_compute. reflexivity.
    + discriminate.
    + intros m [<-|[<-|[<-|[]]]]; (split; [apply ident_check; reflexivity|]); (split; [|cbn; lia]); eexists; [left; cbn; tauto | exact pt_named | left; cbn; tauto].
    + repeat constructor.
  - eexists. split; [apply (sp_more _ _ (str "BOOL")); [left; cbn; tauto|]; apply (sp_more _ _ (str "Pt")); [exact pt_named|]; apply (sp_more _ _ (str "LREAL")); [left; cbn; tauto | apply sp_end]|]. apply Z.leb_le. vm_compute. reflexivity.
Qed.
Example C145_ex : asks ty_state new_members
  [Some (mk_lm (Some (str "on")) (Some (str "bool")) 9); Some (mk_lm (Some (str "p")) (Some (str "PT")) 2); Some (mk_lm (Some (str "x_1")) (Some (str "LReal")) 1)].
Proof.
  apply Forall2_cons; [eexists; split; [reflexivity|]; exists (str "BOOL"); split; [left; cbn; tauto | reflexivity]|].
  apply Forall2_cons; [eexists; split; [reflexivity|]; exists (str "Pt"); split; [exact pt_named | reflexivity]|].
  apply Forall2_cons; [eexists; split; [reflexivity|]; exists (str "LREAL"); split; [left; cbn; tauto | reflexivity]|]. apply Forall2_nil.
Qed.
