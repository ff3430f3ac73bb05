(** * TypesProofs: the well-formedness of the type registry and the inverse of serialisation *)
From Verif Require Import Base Const Types State Events Atomic Server Lib Inv Reach TypeFrame.

(** ** Names *)
Lemma case_refl a : case_eqb a a = true.
Proof. apply name_eqb_refl. Qed.
Lemma case_sym a b : case_eqb a b = case_eqb b a.
Proof.
  unfold case_eqb. destruct (name_eqb (map lower a) (map lower b)) eqn:H.
  - apply name_eqb_eq in H. rewrite H. symmetry. apply name_eqb_refl.
  - symmetry. apply name_eqb_neq. apply name_eqb_neq in H. congruence.
Qed.
Lemma case_trans a b c : case_eqb a b = true -> case_eqb b c = true -> case_eqb a c = true.
Proof. unfold case_eqb. rewrite !name_eqb_eq. congruence. Qed.
Definition plain (c : Z) : bool := isalpha c || (c =? 95) || isdigit c.
Lemma valid_plain n : validate_name n = 0 -> n <> [] /\ forallb plain n = true /\ zlen n <= 32.
Proof.
  unfold validate_name, TAGNAME_SIZE. destruct (32 <? zlen n) eqn:L; [discriminate|]. destruct n as [|c r]; [discriminate|].
  destruct (negb (isalpha c) && negb (c =? 95)) eqn:Q; [discriminate|].
  destruct (forallb (fun c => isalpha c || (c =? 95) || isdigit c) r) eqn:F; [|discriminate].
  intros _. split; [discriminate|]. split; [|lia]. cbn [forallb]. unfold plain at 1. fold plain in F. destruct (isalpha c); cbn in *; [exact F|]. destruct (c =? 95); [exact F | discriminate].
Qed.
Definition free (d : Z) (l : name) : Prop := ~ In d l.
Lemma plain_free d l : forallb plain l = true -> plain d = false -> free d l.
Proof. intros F P I. rewrite forallb_forall in F. apply F in I. congruence. Qed.

(** ** strtok *)
Lemma take_free d a r : free d a -> take_tok d (a ++ d :: r) = (a, r).
Proof.
  induction a as [|c a IH]; intros F; cbn [app take_tok]; [rewrite Z.eqb_refl; reflexivity|].
  destruct (c =? d) eqn:Q; [exfalso; apply F; left; lia|]. rewrite IH; [reflexivity|]. intros I; apply F; right; exact I.
Qed.
Lemma take_end d a : free d a -> take_tok d a = (a, []).
Proof.
  induction a as [|c a IH]; intros F; cbn [take_tok]; [reflexivity|].
  destruct (c =? d) eqn:Q; [exfalso; apply F; left; lia|]. rewrite IH; [reflexivity|]. intros I; apply F; right; exact I.
Qed.
Lemma skip_free d a r : free d a -> a <> [] -> skip_delim d (a ++ r) = a ++ r.
Proof. destruct a as [|c a]; [congruence|]. intros F _. cbn. destruct (c =? d) eqn:Q; [exfalso; apply F; left; lia | reflexivity]. Qed.
Lemma strtok_mid d a r : free d a -> a <> [] -> strtok d (a ++ d :: r) = Some (a, r).
Proof.
  intros F N. unfold strtok. rewrite skip_free by assumption. destruct (a ++ d :: r) eqn:Q; [destruct a; discriminate|].
  rewrite <- Q. rewrite take_free by exact F. reflexivity.
Qed.
Lemma strtok_end d a : free d a -> a <> [] -> strtok d a = Some (a, []).
Proof.
  intros F N. unfold strtok. assert (Q := skip_free d a [] F N). rewrite app_nil_r in Q. rewrite Q. destruct a; [congruence|]. rewrite take_end by exact F. reflexivity.
Qed.
Lemma take_tok_spec d : forall l a r, take_tok d l = (a, r) -> free d a /\ (l = a ++ d :: r \/ l = a /\ r = []).
Proof.
  induction l as [|c l IH]; intros a r H; cbn [take_tok] in H; [injection H as <- <-; split; [intros [] | auto]|].
  destruct (c =? d) eqn:Q; [injection H as <- <-; split; [intros [] | left; cbn; f_equal; lia]|].
  destruct (take_tok d l) as [a' r'] eqn:T. injection H as <- <-. destruct (IH _ _ eq_refl) as [F [K|[K1 K2]]].
  - split; [intros [E|I]; [lia | exact (F I)] | left; cbn; congruence].
  - split; [intros [E|I]; [lia | exact (F I)] | right; split; congruence].
Qed.
Lemma skip_delim_len d : forall s, (length (skip_delim d s) <= length s)%nat.
Proof. induction s as [|c r IH]; cbn; [lia|]. destruct (c =? d); cbn; lia. Qed.
Lemma skip_delim_hd d : forall s, match skip_delim d s with c :: _ => c <> d | [] => True end.
Proof. induction s as [|c r IH]; cbn; [exact Logic.I|]. destruct (c =? d) eqn:Q; [exact IH | lia]. Qed.
Lemma strtok_spec d s a r : strtok d s = Some (a, r) -> a <> [] /\ free d a /\ (length r < length s)%nat /\ (length a <= length s)%nat.
Proof.
  unfold strtok. assert (L := skip_delim_len d s). assert (Hd := skip_delim_hd d s). destruct (skip_delim d s) as [|c l] eqn:Q; [discriminate|]. intros H.
  assert (H1 : take_tok d (c :: l) = (a, r)) by congruence.
  apply take_tok_spec in H1 as K. destruct K as [F K]. split; [|split; [exact F|]].
  - intros ->. cbn [app] in K. destruct K as [K|[K _]]; congruence.
  - destruct K as [K|[K ->]]; rewrite K in L; [rewrite app_length in L; cbn [length] in *; lia | subst a; cbn [length] in *; lia].
Qed.

(** ** Numbers *)
Definition digit (c : Z) : bool := isdigit c.
Lemma digits_app : forall l acc d, forallb isdigit l = true -> 0 <= d < 10 -> digits 10 acc (l ++ [48 + d]) = digits 10 acc l * 10 + d.
Proof.
  induction l as [|c l IH]; intros acc d F D; cbn [app digits].
  - unfold digit_val, isdigit. replace ((48 <=? 48 + d) && (48 + d <=? 57)) with true by lia. replace (48 + d - 48 <? 10) with true by lia. lia.
  - cbn [forallb] in F. apply andb_true_iff in F as [F1 F2]. unfold digit_val. rewrite F1. unfold isdigit in F1. replace (c - 48 <? 10) with true by lia. apply IH; assumption.
Qed.
Lemma dec_rev_spec : forall f n, 0 <= n < 10 ^ Z.of_nat f -> (0 < f)%nat ->
  forallb isdigit (rev (dec_rev f n)) = true /\ digits 10 0 (rev (dec_rev f n)) = n /\ (n <> 0 -> exists c r, rev (dec_rev f n) = c :: r /\ c <> 48) /\ rev (dec_rev f n) <> [].
Proof.
  induction f as [|f IH]; intros n H F; [lia|]. cbn [dec_rev]. destruct (n <? 10) eqn:Q.
  - cbn [rev app]. split; [cbn [forallb]; unfold isdigit; lia|]. split; [|split; [|discriminate]].
    + change [48 + n] with ([] ++ [48 + n]). rewrite digits_app by (reflexivity || lia). cbn. lia.
    + intros N. exists (48 + n), []. split; [reflexivity | lia].
  - cbn [rev]. assert (H2 : 0 <= n / 10 < 10 ^ Z.of_nat f).
    { rewrite Nat2Z.inj_succ, Z.pow_succ_r in H by lia. split; [lia|]. apply Z.div_lt_upper_bound; lia. }
    destruct f as [|f]; [change (10 ^ Z.of_nat 0) with 1 in H2; lia|].
    destruct (IH (n / 10) H2 ltac:(lia)) as (A & B & C & D). assert (M : 0 <= n mod 10 < 10) by (apply Z.mod_pos_bound; lia).
    split; [rewrite forallb_app, A; cbn [forallb]; unfold isdigit; lia|]. split; [rewrite digits_app, B by assumption; lia|]. split.
    + intros _. destruct C as (c & r & -> & C); [lia|]. exists c, (r ++ [48 + n mod 10]). auto.
    + intros K. apply app_eq_nil in K as [_ K]. discriminate.
Qed.
Lemma dec_str_spec n : 0 <= n < 2 ^ 64 ->
  forallb isdigit (dec_str n) = true /\ digits 10 0 (dec_str n) = n /\ (n <> 0 -> exists c r, dec_str n = c :: r /\ c <> 48) /\ dec_str n <> [].
Proof. intros H. apply dec_rev_spec; [|lia]. change (10 ^ Z.of_nat 20) with 100000000000000000000. lia. Qed.
Lemma strtol_mag_dec n : 0 <= n < 2 ^ 64 -> strtol_mag (dec_str n) = n.
Proof.
  intros H. destruct (Z.eq_dec n 0) as [->|N]; [reflexivity|]. destruct (dec_str_spec n H) as (A & B & C & _). destruct (C N) as (c & r & E & C1).
  rewrite E in *. unfold strtol_mag. destruct c as [|c|c]; try exact B.
  repeat match goal with |- match ?x with _ => _ end = _ => is_var x; destruct x; try exact B end; congruence.
Qed.
Lemma print_d_spec n : 0 <= n < 4294967296 -> u32 (strtol0 (print_d n)) = n /\ print_d n <> [] /\ (forall c, In c (print_d n) -> c = 45 \/ isdigit c = true).
Proof.
  intros H. unfold print_d. assert (S : -2147483648 <= s32 n < 2147483648 /\ u32 (s32 n) = n).
  { unfold s32, u32. rewrite Z.mod_small by lia. cbv zeta. destruct (n <? 2147483648) eqn:Q; split; lia. }
  destruct S as [S1 S2]. cbv zeta. destruct (s32 n <? 0) eqn:Q.
  - destruct (dec_str_spec (- s32 n) ltac:(lia)) as (A & B & C & D). unfold strtol0. cbn [skip_space]. replace (isspace 45) with false by reflexivity.
    rewrite strtol_mag_dec by lia. unfold sat64. split; [rewrite <- S2 at 2; f_equal; lia|]. split; [discriminate|]. intros c [<-|I]; [auto|]. right. rewrite forallb_forall in A. auto.
  - destruct (dec_str_spec (s32 n) ltac:(lia)) as (A & B & C & D). assert (M : strtol0 (dec_str (s32 n)) = sat64 (strtol_mag (dec_str (s32 n)))).
    { unfold strtol0. destruct (dec_str (s32 n)) as [|c r] eqn:E; [congruence|]. cbn [forallb] in A. apply andb_true_iff in A as [A _].
      cbn [skip_space]. replace (isspace c) with false by (unfold isdigit, isspace in *; lia). destruct c as [|c|c]; try reflexivity.
      repeat match goal with |- match ?x with _ => _ end = _ => is_var x; destruct x; try reflexivity end; exfalso; unfold isdigit in A; lia. }
    rewrite M, strtol_mag_dec by lia. unfold sat64. split; [rewrite <- S2 at 2; f_equal; lia|]. split; [exact D|]. intros c I. right. rewrite forallb_forall in A. auto.
Qed.

(** ** The registry *)
Definition low (n : name) : name := map lower n.
Lemma case_low a b : case_eqb a b = true <-> low a = low b.
Proof. apply name_eqb_eq. Qed.
(** a member of type number [k]: valid name, count a uint32_t, type a base type or an earlier compound type *)
Definition member_ok (k : Z) (m : cmember) : Prop :=
  validate_name (cm_name m) = 0 /\ 0 <= cm_count m < 4294967296 /\ (In (cm_type m) base_types \/ exists j, 0 <= j < k /\ cm_type m = cdt_type j).
Record type_ok (k : Z) (c : cdt) : Prop := {
  ty_name : validate_name (c_name c) = 0;
  ty_base : find_base (c_name c) base_names = None;
  ty_members : Forall (member_ok k) (c_members c);
  ty_distinct : NoDup (map (fun m => low (cm_name m)) (c_members c)) }.
Record wf (ts : list cdt) : Prop := {
  wf_type : forall i c, znth ts i = Some c -> type_ok i c;
  wf_names : NoDup (map (fun c => low (c_name c)) ts) }.
Lemma wf_nil : wf [].
Proof. constructor; [|constructor]. intros i c H. apply znth_range in H. change (zlen (@nil cdt)) with 0 in H. lia. Qed.

Lemma find_base_in n l t : find_base n l = Some t -> exists b, In (b, t) l /\ case_eqb n b = true.
Proof. induction l as [|[b t'] l IH]; cbn; [discriminate|]. destruct (case_eqb n b) eqn:Q; [injection 1 as ->; eauto|]. intros H. destruct (IH H) as (x & I & C). eauto. Qed.
Lemma find_cdt_spec n : forall ts i j, find_cdt n ts i = Some j -> i <= j /\ exists c, znth ts (j - i) = Some c /\ case_eqb n (c_name c) = true.
Proof.
  induction ts as [|c ts IH]; intros i j H; cbn [find_cdt] in H; [discriminate|]. destruct (case_eqb n (c_name c)) eqn:Q.
  - injection H as <-. split; [lia|]. exists c. rewrite Z.sub_diag. rewrite znth_0. auto.
  - apply IH in H as [L (c' & H & C)]. split; [lia|]. exists c'. split; [|exact C]. replace (j - i) with (j - (i + 1) + 1) by lia. rewrite znth_S by lia. exact H.
Qed.
Lemma find_cdt_none n : forall ts i, find_cdt n ts i = None -> forall c, In c ts -> case_eqb n (c_name c) = false.
Proof.
  induction ts as [|c ts IH]; intros i H x I; [destruct I|]. cbn [find_cdt] in H. destruct (case_eqb n (c_name c)) eqn:Q; [discriminate|].
  destruct I as [<-|I]; [exact Q | eapply IH; eassumption].
Qed.
Lemma cdt_type_nz i : 0 <= i -> cdt_type i <> 0.
Proof. intros H K. apply Z.lor_eq_0_iff in K as [_ K]. discriminate. Qed.
Lemma get_type_spec ts n : let t := cdt_get_type ts n in t = 0 \/ (exists b, In (b, t) base_names /\ case_eqb n b = true) \/
  (find_base n base_names = None /\ exists j c, znth ts j = Some c /\ case_eqb n (c_name c) = true /\ t = cdt_type j).
Proof.
  cbv zeta. unfold cdt_get_type. destruct (find_base n base_names) as [t|] eqn:F; [right; left; apply find_base_in; exact F|].
  destruct (find_cdt n ts 0) as [j|] eqn:G; [|auto]. apply find_cdt_spec in G as [L (c & G & C)]. rewrite Z.sub_0_r in G. right; right. split; [reflexivity|]. eauto.
Qed.
Lemma get_type_zero ts n : cdt_get_type ts n = 0 -> find_base n base_names = None /\ forall c, In c ts -> case_eqb n (c_name c) = false.
Proof.
  unfold cdt_get_type. destruct (find_base n base_names) as [t|] eqn:F.
  - apply find_base_in in F as (b & I & _). intros ->. exfalso. revert I. vm_compute. intuition discriminate.
  - destruct (find_cdt n ts 0) as [j|] eqn:G; [apply find_cdt_spec in G as [L _]; intros K; exfalso; exact (cdt_type_nz j L K)|].
    intros _. split; [reflexivity|]. exact (find_cdt_none _ _ _ G).
Qed.
Lemma base_names_types b t : In (b, t) base_names -> In t base_types.
Proof. intros H. cbn in H. repeat (destruct H as [H|H]; [injection H as <- <-; cbn; tauto|]). destruct H. Qed.

Lemma append_ok ts ms s ms' : Forall (member_ok (zlen ts)) ms -> NoDup (map (fun m => low (cm_name m)) ms) -> cdt_append ts ms s = inl ms' ->
  Forall (member_ok (zlen ts)) ms' /\ NoDup (map (fun m => low (cm_name m)) ms').
Proof.
  intros F D H. unfold cdt_append in H. destruct (strtok 44 s) as [[nm s1]|]; [|discriminate]. destruct (strtok 44 s1) as [[tn s2]|]; [|discriminate].
  destruct (strtok 44 s2) as [[cs s3]|]; [|discriminate]. destruct (validate_name nm =? 0) eqn:V; [|discriminate]. cbn [negb] in H.
  destruct (cdt_get_type ts tn =? 0) eqn:Q; [discriminate|]. destruct (existsb _ ms) eqn:X; [discriminate|]. injection H as <-. split.
  - apply Forall_app. split; [exact F|]. constructor; [|constructor]. split; [cbn; lia|]. split; [apply Z.mod_pos_bound; lia|]. cbn [cm_type].
    destruct (get_type_spec ts tn) as [K|[(b & I & _)|(_ & j & c & Hj & _ & ->)]]; [lia | left; eapply base_names_types; exact I | right].
    exists j. split; [apply znth_range in Hj; exact Hj | reflexivity].
  - rewrite map_app. cbn [map cm_name]. apply NoDup_Add with (a := low nm) (l := map (fun m => low (cm_name m)) ms); [|split; [exact D|]].
    + assert (A := Add_app (low nm) (map (fun m => low (cm_name m)) ms) []). rewrite app_nil_r in A. exact A.
    + intros I. apply in_map_iff in I as (m & E & I). assert (existsb (fun m => case_eqb nm (cm_name m)) ms = true); [|congruence].
      apply existsb_exists. exists m. split; [exact I|]. apply case_low. congruence.
Qed.
Lemma append_all_ok ts : forall f ms s ms', Forall (member_ok (zlen ts)) ms -> NoDup (map (fun m => low (cm_name m)) ms) ->
  append_all f ts ms s = Done (inl ms') -> Forall (member_ok (zlen ts)) ms' /\ NoDup (map (fun m => low (cm_name m)) ms').
Proof.
  induction f as [|f IH]; intros ms s ms' F D H; cbn [append_all] in H; [discriminate|].
  destruct (strtok 58 s) as [[m s']|]; [|injection H as <-; auto]. destruct (cdt_append ts ms m) as [x|] eqn:A; [|discriminate].
  destruct (append_ok _ _ _ _ F D A) as [F' D']. eapply IH; eassumption.
Qed.
Lemma validate_neg n : validate_name n <> 0 -> validate_name n < 0.
Proof. unfold validate_name. destruct (_ <? _); [unfold E_2BIG; lia|]. destruct n; [unfold E_ARG; lia|]. destruct (_ && _); [unfold E_ARG; lia|]. destruct (forallb _ _); unfold E_ARG; lia. Qed.
Lemma append_all_err ts c : forall f l r, append_all f ts l r = Done (inr c) -> c < 0.
Proof.
  induction f as [|f IH]; intros l r A; cbn [append_all] in A; [discriminate|].
  destruct (strtok 58 r) as [[m r']|]; [|discriminate]. destruct (cdt_append ts l m) as [x|x] eqn:P; [eapply IH; exact A|]. injection A as ->.
  unfold cdt_append in P. destruct (strtok 44 m) as [[a1 a2]|]; [|injection P as <-; reflexivity]. destruct (strtok 44 a2) as [[b1 b2]|]; [|injection P as <-; reflexivity].
  destruct (strtok 44 b2) as [[c1 c2]|]; [|injection P as <-; reflexivity]. destruct (validate_name a1 =? 0) eqn:V; cbn [negb] in P; [|injection P as <-; apply validate_neg; lia].
  destruct (cdt_get_type ts b1 =? 0); [injection P as <-; reflexivity|]. destruct (existsb _ l); [injection P as <-; reflexivity | discriminate].
Qed.
(** what a type creation does to the registry *)
Lemma create_cases ts s ts' ty e : cdt_create ts s = Done (ts', ty, e) ->
  exists nm rest, strtok 58 s = Some (nm, rest) /\
  ((ts' = ts /\ ty = 0 /\ exists c, e = Some c /\ c < 0) \/
   (ts' = ts /\ e = None /\ ty = cdt_get_type ts nm /\ ty <> 0 /\ serialize_datatype ts ty = Done (inl s)) \/
   (exists ms, ts' = ts ++ [mk_cdt nm ms] /\ e = Some 0 /\ ty = cdt_type (zlen ts) /\ validate_name nm = 0 /\ cdt_get_type ts nm = 0 /\
      append_all (S (length rest)) ts [] rest = Done (inl ms))).
Proof.
  unfold cdt_create. destruct (strtok 58 s) as [[nm rest]|]; [|discriminate]. intros H. exists nm, rest. split; [reflexivity|].
  destruct (validate_name nm =? 0) eqn:V; cbn [negb] in H; [|injection H as <- <- <-; left; split; [reflexivity|]; split; [reflexivity|]; eexists; split; [reflexivity | apply validate_neg; lia]].
  destruct (cdt_get_type ts nm =? 0) eqn:Q; cbn [negb] in H.
  - apply rbind_done in H as (r & A & H). destruct r as [ms|c].
    + injection H as <- <- <-. right; right. exists ms. split; [reflexivity|]. split; [reflexivity|]. split; [reflexivity|]. split; [lia|]. split; [lia | exact A].
    + injection H as <- <- <-. left. split; [reflexivity|]. split; [reflexivity|]. exists c. split; [reflexivity|].
      exact (append_all_err _ _ _ _ _ A).
  - apply rbind_done in H as (r & A & H). destruct r as [s'|]; [|discriminate]. destruct (name_eqb s' s) eqn:N.
    + injection H as <- <- <-. apply name_eqb_eq in N. subst s'. right; left. repeat split; [lia | exact A].
    + injection H as <- <- <-. left. split; [reflexivity|]. split; [reflexivity|]. exists E_DUPL. split; reflexivity.
Qed.
Lemma create_wf ts s ts' ty e : wf ts -> cdt_create ts s = Done (ts', ty, e) -> wf ts'.
Proof.
  intros W H. destruct (create_cases _ _ _ _ _ H) as (nm & rest & _ & [(-> & _)|[(-> & _)|(ms & -> & _ & _ & V & Z & A)]]); [exact W | exact W|].
  apply append_all_ok in A as [F D]; [|constructor|constructor]. apply get_type_zero in Z as [Z1 Z2]. constructor.
  - intros i c K. assert (R := znth_range _ _ _ K). rewrite zlen_app in R. change (zlen [mk_cdt nm ms]) with 1 in R. destruct (Z.eq_dec i (zlen ts)) as [->|N].
    + rewrite znth_last in K. injection K as <-. constructor; assumption.
    + rewrite znth_app1 in K by lia. exact (wf_type _ W _ _ K).
  - rewrite map_app. cbn [map c_name]. apply NoDup_Add with (a := low nm) (l := map (fun c => low (c_name c)) ts); [|split; [exact (wf_names _ W)|]].
    + assert (B := Add_app (low nm) (map (fun c => low (c_name c)) ts) []). rewrite app_nil_r in B. exact B.
    + intros I. apply in_map_iff in I as (c & E & I). apply Z2 in I. assert (case_eqb nm (c_name c) = true); [apply case_low; congruence | congruence].
Qed.
Lemma creates_wf a b : creates a b -> wf a -> wf b.
Proof. induction 1; [auto|]. intros W. apply IHcreates. eapply create_wf; eassumption. Qed.
Lemma reachable_wf E s : reachable E s -> wf (s_types s).
Proof. intros R. eapply creates_wf; [eapply reachable_creates; exact R | exact wf_nil]. Qed.

(** ** Serialisation is inverted by parsing *)
Lemma custom_type j : 0 <= j < 2147483648 -> is_custom (cdt_type j) = true /\ cdt_index (cdt_type j) = j.
Proof.
  intros H. unfold is_custom, cdt_index, cdt_type, T_CUSTOM. change 2147483648 with (2 ^ 31). split; [rewrite Z.lor_spec, Z.pow2_bits_true by lia; apply orb_true_r|].
  apply Z.bits_inj'. intros n Hn. rewrite Z.clearbit_eqb, Z.lor_spec, Z.pow2_bits_eqb by lia. destruct (31 =? n) eqn:Q.
  - cbn [negb]. rewrite andb_false_r. symmetry. replace n with 31 by lia. rewrite Z.testbit_eqb by lia. change (2 ^ 31) with 2147483648 in *. rewrite Z.div_small by lia. reflexivity.
  - rewrite orb_false_r, andb_true_r. reflexivity.
Qed.
Lemma base_not_custom t : In t base_types -> is_custom t = false /\ t <> 0.
Proof. intros H. cbn in H. repeat (destruct H as [<-|H]; [split; [reflexivity | discriminate]|]). destruct H. Qed.
Lemma find_cdt_unique : forall ts k i c, NoDup (map (fun c => low (c_name c)) ts) -> znth ts i = Some c -> find_cdt (c_name c) ts k = Some (k + i).
Proof.
  induction ts as [|x ts IH]; intros k i c D H; [apply znth_range in H; change (zlen (@nil cdt)) with 0 in H; lia|].
  assert (R := znth_range _ _ _ H). cbn [map] in D. inversion D as [|? ? N D']; subst. cbn [find_cdt]. destruct (Z.eq_dec i 0) as [->|Ni].
  - rewrite znth_0 in H. injection H as ->. rewrite case_refl. f_equal. lia.
  - replace i with (i - 1 + 1) in H by lia. rewrite znth_S in H by lia. destruct (case_eqb (c_name c) (c_name x)) eqn:Q.
    + exfalso. apply N. apply case_low in Q. rewrite <- Q. apply in_map_iff. exists c. split; [reflexivity | eapply znth_In; exact H].
    + rewrite (IH (k + 1) _ _ D' H). f_equal. lia.
Qed.
(** the name of a type leads back to the type *)
Lemma name_back a t : wf a -> zlen a <= 2147483648 -> (In t base_types \/ exists j, 0 <= j < zlen a /\ t = cdt_type j) ->
  exists n, cdt_get_name a t = Some n /\ cdt_get_type a n = t /\ n <> [] /\ forallb plain n = true /\ zlen n <= 32 /\ t <> 0.
Proof.
  intros W L [H|(j & Hj & ->)].
  - destruct (base_not_custom t H) as [C _]. unfold cdt_get_name. rewrite C. unfold cdt_get_type. cbn in H.
    repeat (destruct H as [<-|H]; [eexists; split; [reflexivity|]; split; [reflexivity|]; split; [discriminate|]; split; [reflexivity|]; split; [vm_compute; discriminate | discriminate]|]). destruct H.
  - destruct (custom_type j ltac:(lia)) as [C1 C2]. destruct (znth a j) as [c|] eqn:Z; [|exfalso; apply znth_none in Z; lia].
    assert (T := wf_type _ W _ _ Z). exists (c_name c). unfold cdt_get_name. rewrite C1, C2, Z. split; [reflexivity|].
    unfold cdt_get_type. rewrite (ty_base _ _ T), (find_cdt_unique _ 0 _ _ (wf_names _ W) Z). split; [reflexivity|].
    destruct (valid_plain _ (ty_name _ _ T)) as (A & B & D). split; [exact A|]. split; [exact B|]. split; [exact D|]. apply cdt_type_nz. lia.
Qed.
(** the description of one member *)
Definition described (ts : list cdt) (m : cmember) (d : name) : Prop :=
  exists tn, cdt_get_name ts (cm_type m) = Some tn /\ d = cm_name m ++ [44] ++ tn ++ [44] ++ print_d (cm_count m).
Lemma not_plain_44 l : forallb plain l = true -> free 44 l /\ free 58 l.
Proof. intros H. split; apply plain_free; auto. Qed.
Lemma described_props a m d : wf a -> zlen a <= 2147483648 -> member_ok (zlen a) m -> described a m d ->
  d <> [] /\ free 58 d /\ forall acc, (forall x, In x acc -> low (cm_name x) <> low (cm_name m)) -> cdt_append a acc d = inl (acc ++ [m]).
Proof.
  intros W L (V & Cn & Ty) (tn & G & ->). destruct (name_back a _ W L Ty) as (n & G' & T & N1 & N2 & N3 & N4). assert (n = tn) by congruence. subst n.
  destruct (valid_plain _ V) as (A1 & A2 & A3). destruct (print_d_spec _ Cn) as (P1 & P2 & P3). destruct (not_plain_44 _ A2) as [Fa1 Fa2]. destruct (not_plain_44 _ N2) as [Ft1 Ft2].
  assert (Fp : free 44 (print_d (cm_count m)) /\ free 58 (print_d (cm_count m))) by (split; intros I; apply P3 in I; destruct I as [I|I]; discriminate). destruct Fp as [Fp1 Fp2].
  split; [intros K; apply app_eq_nil in K as [K _]; congruence|]. split.
  { intros I. repeat (apply in_app_or in I; destruct I as [I|I]); try (destruct I as [I|[]]; discriminate); contradiction. }
  intros acc D. unfold cdt_append. cbn [app]. rewrite (strtok_mid 44 (cm_name m)) by assumption. rewrite (strtok_mid 44 tn) by assumption. rewrite (strtok_end 44 (print_d (cm_count m))) by assumption.
  cbv zeta. rewrite V, T. cbn [Z.eqb negb]. replace (cm_type m =? 0) with false by lia. rewrite P1.
  replace (existsb (fun x => case_eqb (cm_name m) (cm_name x)) acc) with false; [destruct m; reflexivity|]. symmetry. apply not_true_is_false. intros X. apply existsb_exists in X as (x & I & X).
  apply case_low in X. exact (D x I (eq_sym X)).
Qed.
Lemma serialize_described a ms : wf a -> zlen a <= 2147483648 -> Forall (member_ok (zlen a)) ms ->
  exists ds, Forall2 (described a) ms ds /\ serialize_members a ms = Done (concat (map (fun d => 58 :: d) ds)).
Proof.
  intros W L. induction 1 as [|m ms M _ (ds & F & S)]; [exists []; split; [constructor | reflexivity]|]. destruct M as (V & Cn & Ty).
  destruct (name_back a _ W L Ty) as (n & G' & _). exists ((cm_name m ++ [44] ++ n ++ [44] ++ print_d (cm_count m)) :: ds). split; [constructor; [exists n; auto | exact F]|].
  cbn [serialize_members]. rewrite G', S. cbn [rbind map concat app]. rewrite <- !app_assoc. cbn [app]. rewrite <- !app_assoc. reflexivity.
Qed.
Lemma append_all_back a : wf a -> zlen a <= 2147483648 -> forall ms ds, Forall2 (described a) ms ds -> Forall (member_ok (zlen a)) ms ->
  forall f acc, NoDup (map (fun m => low (cm_name m)) (acc ++ ms)) -> (length (tl (concat (map (fun d => 58%Z :: d) ds))) < f)%nat ->
  append_all f a acc (tl (concat (map (fun d => 58 :: d) ds))) = Done (inl (acc ++ ms)).
Proof.
  intros W L. induction 1 as [|m d ms ds M F2 IH]; intros F f acc D Hf.
  - destruct f; [cbn in Hf; lia|]. cbn. rewrite app_nil_r. reflexivity.
  - inversion F as [|? ? Mo F']; subst. destruct f as [|f]; [lia|]. destruct (described_props _ _ _ W L Mo M) as (N & Fr & Ap). cbn [map concat tl app] in *.
    assert (Dm : forall x, In x acc -> low (cm_name x) <> low (cm_name m)).
    { intros x I K. rewrite map_app in D. cbn [map] in D. apply NoDup_remove_2 in D. apply D, in_or_app. left. rewrite <- K. apply (in_map (fun m => low (cm_name m))). exact I. }
    assert (Ap' := Ap acc Dm). assert (D' : NoDup (map (fun m => low (cm_name m)) ((acc ++ [m]) ++ ms))) by (rewrite <- app_assoc; exact D). cbn [append_all].
    replace (acc ++ m :: ms) with ((acc ++ [m]) ++ ms) by (rewrite <- app_assoc; reflexivity). assert (Hl := Hf). rewrite app_length in Hl. assert (Ld : (0 < length d)%nat) by (destruct d; [congruence | cbn; lia]).
    destruct ds as [|d' ds].
    + cbn [map concat]. rewrite app_nil_r. rewrite strtok_end by assumption. rewrite Ap'. apply (IH F'); [exact D' | cbn in *; lia].
    + cbn [map concat]. cbn [app]. rewrite strtok_mid by assumption. rewrite Ap'. apply (IH F'); [exact D' | cbn [map concat app tl length] in *; lia].
Qed.
Lemma wf_prefix a x : wf (a ++ x) -> wf a.
Proof.
  intros [T N]. constructor.
  - intros i c H. apply T. assert (R := znth_range _ _ _ H). rewrite znth_app1 by lia. exact H.
  - rewrite map_app in N. clear T. induction (map (fun c => low (c_name c)) a) as [|y l IH]; [constructor|]. cbn in N. inversion N as [|? ? N1 N2]; subst.
    constructor; [intros I; apply N1, in_or_app; auto | auto].
Qed.
Lemma get_name_prefix a x t n : cdt_get_name a t = Some n -> cdt_get_name (a ++ x) t = Some n.
Proof.
  unfold cdt_get_name. destruct (is_custom t); [|auto]. destruct (znth a (cdt_index t)) eqn:Z; [|discriminate]. intros H.
  assert (R := znth_range _ _ _ Z). rewrite znth_app1 by lia. rewrite Z. exact H.
Qed.
Lemma serialize_prefix a x ms r : serialize_members a ms = Done r -> serialize_members (a ++ x) ms = Done r.
Proof.
  revert r. induction ms as [|m ms IH]; intros r H; cbn [serialize_members] in *; [exact H|]. destruct (cdt_get_name a (cm_type m)) as [n|] eqn:G; [|discriminate].
  rewrite (get_name_prefix _ x _ _ G). apply rbind_done in H as (y & H1 & H). rewrite (IH _ H1). exact H.
Qed.
Lemma split_at ts i (c : cdt) : znth ts i = Some c -> exists a x, ts = a ++ c :: x /\ zlen a = i.
Proof.
  intros H. assert (R := znth_range _ _ _ H). unfold znth in H. replace ((0 <=? i) && (i <? zlen ts)) with true in H by lia.
  apply nth_error_split in H as (a & x & E & L). exists a, x. split; [exact E | unfold zlen; lia].
Qed.
(** the description of a registered type, given to a server that knows the types before it, makes exactly that type *)
Lemma describe_back ts i c : wf ts -> zlen ts <= 2147483648 -> znth ts i = Some c ->
  exists a x d, ts = a ++ c :: x /\ zlen a = i /\ serialize_datatype ts (cdt_type i) = Done (inl d) /\ cdt_create a d = Done (a ++ [c], cdt_type i, Some 0) /\
    exists ds, d = c_name c ++ concat (map (fun d => 58 :: d) ds) /\ Forall2 (described a) (c_members c) ds.
Proof.
  intros W L Z. destruct (split_at _ _ _ Z) as (a & x & -> & La). assert (Wa := wf_prefix _ _ W). assert (T := wf_type _ W _ _ Z). assert (R := znth_range _ _ _ Z).
  rewrite zlen_app, zlen_cons in L, R. assert (Zx := zlen_nonneg x). rewrite <- La in T. destruct (serialize_described a (c_members c) Wa ltac:(lia) (ty_members _ _ T)) as (ds & F & S).
  destruct (custom_type i ltac:(lia)) as [C1 C2]. exists a, x, (c_name c ++ concat (map (fun d => 58 :: d) ds)). split; [reflexivity|]. split; [exact La|]. split; [|split].
  - unfold serialize_datatype. rewrite C2, zlen_app, zlen_cons, Z. replace (zlen a + (1 + zlen x) <=? i) with false by lia. replace (zlen a + (zlen x + 1) <=? i) with false by lia.
    rewrite (serialize_prefix _ (c :: x) _ _ S). reflexivity.
  - unfold cdt_create. destruct (valid_plain _ (ty_name _ _ T)) as (A1 & A2 & A3). destruct (not_plain_44 _ A2) as [_ F58].
    assert (K : strtok 58 (c_name c ++ concat (map (fun d => 58 :: d) ds)) = Some (c_name c, tl (concat (map (fun d => 58 :: d) ds)))).
    { destruct ds as [|d ds]; [cbn [map concat]; rewrite app_nil_r; apply strtok_end; assumption|]. cbn [map concat app tl]. apply strtok_mid; assumption. }
    rewrite K, (ty_name _ _ T). cbn [Z.eqb negb]. assert (G : cdt_get_type a (c_name c) = 0).
    { unfold cdt_get_type. rewrite (ty_base _ _ T). destruct (find_cdt (c_name c) a 0) as [j|] eqn:G; [|reflexivity]. exfalso. apply find_cdt_spec in G as [_ (c' & G & Q)].
      rewrite Z.sub_0_r in G. apply case_low in Q. assert (N := wf_names _ W). rewrite map_app in N. cbn [map] in N. apply NoDup_remove_2 in N. apply N, in_or_app. left.
      rewrite Q. apply (in_map (fun c => low (c_name c))). eapply znth_In; exact G. }
    rewrite G. cbn [Z.eqb negb]. rewrite (append_all_back a Wa ltac:(lia) _ _ F (ty_members _ _ T) _ []).
    + cbn [rbind]. rewrite La. cbn [app]. destruct c; reflexivity.
    + exact (ty_distinct _ _ T).
    + lia.
  - exists ds. split; [reflexivity | exact F].
Qed.
