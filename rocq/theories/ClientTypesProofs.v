(** * ClientTypesProofs: the client's cache follows the server's registry *)
From Verif Require Import Base Const Types State Server Lib TypeFrame TypesProofs ClientTypes.

Definition slot (cc : ctypes) (i : Z) : cslot := match znth cc i with Some s => s | None => no_slot end.
(** slot [s] holds the whole type [c] *)
Definition holds (s : cslot) (c : cdt) : Prop := s = mk_cs (Some (c_name c)) (c_members c).
(** below [b] every slot is unused or holds the registered type; from [b] on the names, where present, are right *)
Record okx (ts : list cdt) (b : Z) (cc : ctypes) : Prop := {
  ok_low : forall i, i < b -> slot cc i = no_slot \/ exists c, znth ts i = Some c /\ holds (slot cc i) c;
  ok_high : forall i, b <= i -> cs_name (slot cc i) = None \/ exists c, znth ts i = Some c /\ cs_name (slot cc i) = Some (c_name c) }.
(** the client can parse every count and the description of every type fits a message *)
Record regular (ts : list cdt) : Prop := {
  rg_count : forall i c m, znth ts i = Some c -> In m (c_members c) -> 1 <= cm_count m < 2147483648;
  rg_fits : forall i d, 0 <= i < zlen ts -> serialize_datatype ts (cdt_type i) = Done (inl d) -> zlen d <= 4083 }.

Lemma slot_in cc i : 0 <= i < zlen cc -> znth cc i = Some (slot cc i).
Proof. intros H. unfold slot. destruct (znth cc i) eqn:Q; [reflexivity|]. apply znth_none in Q. lia. Qed.
Lemma slot_grow cc i j : slot (grow cc i) j = slot cc j.
Proof.
  unfold grow. destruct (i <? zlen cc); [reflexivity|]. unfold slot. destruct (Z_lt_dec j (zlen cc)) as [H|H].
  - destruct (Z_lt_dec j 0) as [N|N]; [replace (znth cc j) with (@None cslot) by (symmetry; apply znth_none; lia); rewrite (proj2 (znth_none _ _)) by lia; reflexivity|].
    rewrite znth_app1 by lia. reflexivity.
  - rewrite (proj2 (znth_none cc j)) by lia. destruct (znth (cc ++ _) j) as [x|] eqn:Q; [|reflexivity]. rewrite znth_app2 in Q by lia. apply znth_In, repeat_spec in Q. exact Q.
Qed.
Lemma grow_len cc i : 0 <= i -> i < zlen (grow cc i).
Proof.
  intros H. unfold grow. destruct (i <? zlen cc) eqn:Q; [lia|]. rewrite zlen_app. unfold zlen at 2. rewrite repeat_length, Z2Nat.id by lia. lia.
Qed.
Lemma slot_zset cc i x j : 0 <= i < zlen cc -> slot (zset cc i x) j = if j =? i then x else slot cc j.
Proof.
  intros H. unfold slot. destruct (j =? i) eqn:Q.
  - replace j with i by lia. rewrite znth_zset_eq by lia. reflexivity.
  - rewrite znth_zset_ne by lia. reflexivity.
Qed.
Lemma find_slot_some n : forall cc k i, find_slot n cc k = Some i -> k <= i < k + zlen cc /\ exists m, cs_name (slot cc (i - k)) = Some m /\ case_eqb n m = true.
Proof.
  induction cc as [|s cc IH]; intros k i H; cbn [find_slot] in H; [discriminate|]. rewrite zlen_cons. assert (Zc := zlen_nonneg cc).
  assert (R : find_slot n cc (k + 1) = Some i -> k <= i < k + (zlen cc + 1) /\ exists m, cs_name (slot (s :: cc) (i - k)) = Some m /\ case_eqb n m = true).
  { intros G. apply IH in G as [L (m & G & C)]. split; [lia|]. exists m. split; [|exact C]. unfold slot in *. replace (i - k) with (i - (k + 1) + 1) by lia. rewrite znth_S by lia. exact G. }
  replace (1 + zlen cc) with (zlen cc + 1) by lia.
  destruct (cs_name s) as [m|] eqn:N; [|exact (R H)]. destruct (case_eqb n m) eqn:C; [|exact (R H)]. injection H as <-. split; [lia|].
  exists m. rewrite Z.sub_diag. unfold slot. rewrite znth_0. auto.
Qed.
Lemma find_slot_none n : forall cc k, find_slot n cc k = None -> forall i m, cs_name (slot cc i) = Some m -> case_eqb n m = false.
Proof.
  induction cc as [|s cc IH]; intros k H i m N; [unfold slot in N; rewrite (proj2 (znth_none _ _)) in N by (change (zlen (@nil cslot)) with 0; lia); discriminate|].
  cbn [find_slot] in H. destruct (Z.eq_dec i 0) as [->|Ni].
  - unfold slot in N. rewrite znth_0 in N. rewrite N in H. destruct (case_eqb n m); [discriminate | reflexivity].
  - assert (Ns : cs_name (slot cc (i - 1)) = Some m).
    { unfold slot in *. destruct (Z_lt_dec i 0); [rewrite (proj2 (znth_none _ _)) in N by lia; discriminate|].
      replace i with (i - 1 + 1) in N by lia. rewrite znth_S in N by lia. exact N. }
    destruct (cs_name s) as [x|]; [destruct (case_eqb n x); [discriminate|]|]; eapply IH; eassumption.
Qed.
(** names in the cache belong to the registry, so a search finds the right type *)
Lemma named ts b cc i m : okx ts b cc -> cs_name (slot cc i) = Some m -> exists c, znth ts i = Some c /\ m = c_name c.
Proof.
  intros O N. destruct (Z_lt_dec i b) as [L|L].
  - destruct (ok_low _ _ _ O i L) as [K|(c & Z & K)]; [rewrite K in N; discriminate|]. rewrite K in N. injection N as <-. eauto.
  - destruct (ok_high _ _ _ O i ltac:(lia)) as [K|(c & Z & K)]; [congruence|]. exists c. split; [exact Z | congruence].
Qed.
Lemma same_name ts i j c c' : wf ts -> znth ts i = Some c -> znth ts j = Some c' -> case_eqb (c_name c) (c_name c') = true -> i = j.
Proof.
  intros W H1 H2 C. assert (F1 := find_cdt_unique _ 0 _ _ (wf_names _ W) H1). assert (F2 := find_cdt_unique _ 0 _ _ (wf_names _ W) H2).
  assert (E : forall ts k, find_cdt (c_name c) ts k = find_cdt (c_name c') ts k).
  { clear -C. induction ts as [|x ts IH]; intros k; [reflexivity|]. cbn [find_cdt]. rewrite IH. replace (case_eqb (c_name c) (c_name x)) with (case_eqb (c_name c') (c_name x)); [reflexivity|].
    apply case_low in C. unfold low in C. unfold case_eqb. rewrite C. reflexivity. }
  rewrite E in F1. rewrite F1 in F2. injection F2. lia.
Qed.
Lemma find_hit ts b cc i c n : wf ts -> okx ts b cc -> znth ts i = Some c -> case_eqb n (c_name c) = true -> find_slot n cc 0 = if match cs_name (slot cc i) with Some _ => true | None => false end then Some i else None.
Proof.
  intros W O Z C. assert (U : forall j m, cs_name (slot cc j) = Some m -> case_eqb n m = true -> j = i).
  { intros j m N K. destruct (named _ _ _ _ _ O N) as (c' & Z' & ->). eapply same_name; [exact W | exact Z' | exact Z|]. eapply case_trans; [|exact C]. rewrite case_sym. exact K. }
  destruct (find_slot n cc 0) as [j|] eqn:F.
  - apply find_slot_some in F as [L (m & N & K)]. rewrite Z.sub_0_r in N. assert (j = i) by (eapply U; eassumption). subst j. rewrite N. reflexivity.
  - destruct (cs_name (slot cc i)) as [m|] eqn:N; [|reflexivity]. destruct (named _ _ _ _ _ O N) as (c' & Z' & ->). assert (c' = c) by congruence. subst.
    rewrite (find_slot_none _ _ _ F _ _ N) in C. discriminate.
Qed.

Lemma strtol10_print n : 1 <= n < 2147483648 -> s32 (strtol10 (print_d n)) = n.
Proof.
  intros H. assert (S : forall x, 0 <= x < 2147483648 -> s32 x = x) by (intros x Hx; unfold s32; rewrite Z.mod_small by lia; cbv zeta; destruct (x <? 2147483648) eqn:Q; lia).
  unfold print_d. rewrite (S n) by lia. cbv zeta. replace (n <? 0) with false by lia. destruct (dec_str_spec n ltac:(lia)) as (A & B & C & D).
  assert (M : strtol10 (dec_str n) = sat64 (digits 10 0 (dec_str n))).
  { unfold strtol10. destruct (dec_str n) as [|c r] eqn:E; [congruence|]. cbn [forallb] in A. apply andb_true_iff in A as [A _].
    cbn [skip_space]. replace (isspace c) with false by (unfold isdigit, isspace in *; lia). destruct c as [|c|c]; try reflexivity.
    repeat match goal with |- match ?x with _ => _ end = _ => is_var x; destruct x; try reflexivity end; exfalso; unfold isdigit in A; lia. }
  rewrite M, B. unfold sat64. rewrite S by lia. lia.
Qed.
(** what the client finds for the type name of a member *)
Lemma member_type_name ts a x i t tn : ts = a ++ x -> wf ts -> zlen ts <= 2147483648 -> zlen a = i ->
  (In t base_types \/ exists j, 0 <= j < i /\ t = cdt_type j) -> cdt_get_name a t = Some tn ->
  find_base tn base_names = Some t \/ (find_base tn base_names = None /\ exists j c, 0 <= j < i /\ t = cdt_type j /\ znth ts j = Some c /\ tn = c_name c).
Proof.
  intros -> W L La [H|(j & Hj & ->)] G.
  - left. destruct (base_not_custom t H) as [C _]. unfold cdt_get_name in G. rewrite C in G. cbn in H. repeat (destruct H as [<-|H]; [injection G as <-; reflexivity|]). destruct H.
  - right. rewrite zlen_app in L. assert (Zx := zlen_nonneg x). destruct (custom_type j ltac:(lia)) as [C1 C2]. unfold cdt_get_name in G. rewrite C1, C2 in G.
    destruct (znth a j) as [c|] eqn:Z; [|discriminate]. injection G as <-. assert (Z' : znth (a ++ x) j = Some c) by (rewrite znth_app1 by lia; exact Z).
    split; [exact (ty_base _ _ (wf_type _ W _ _ Z'))|]. exists j, c. auto.
Qed.
Definition keeps (i : Z) (cc cc' : ctypes) : Prop := forall k, k <> i -> i < k \/ cs_name (slot cc k) <> None -> slot cc' k = slot cc k.
Lemma named_in cc i : cs_name (slot cc i) <> None -> 0 <= i < zlen cc.
Proof. intros H. unfold slot in H. destruct (znth cc i) eqn:Q; [apply znth_range in Q; exact Q | elim H; reflexivity]. Qed.
Lemma server_answers ts i c : wf ts -> zlen ts <= 2147483648 -> regular ts -> znth ts i = Some c ->
  exists d, serialize_datatype ts (cdt_type i) = Done (inl d) /\ server_cdt ts (ByType (cdt_type i)) = Done (inl (cdt_type i, d)) /\
    forall n, case_eqb n (c_name c) = true -> zlen n <= 32 -> find_base n base_names = None -> server_cdt ts (ByName n) = Done (inl (cdt_type i, d)).
Proof.
  intros W L Rg Z. destruct (describe_back _ _ _ W L Z) as (a & x & d & E & La & S & _). exists d. split; [exact S|]. assert (R := znth_range _ _ _ Z).
  assert (Hf := rg_fits _ Rg i d R S). assert (K : (MSG_DATA_SIZE - 4 <? zlen d + 1) = false) by (unfold MSG_DATA_SIZE; lia).
  split; [unfold server_cdt; cbv zeta; rewrite S; cbn [rbind]; rewrite K; reflexivity|]. intros n C Ln B. unfold server_cdt.
  assert (F : firstn 32 n = n) by (apply firstn_all2; unfold zlen in Ln; lia). rewrite F.
  assert (T : cdt_get_type ts n = cdt_type i).
  { unfold cdt_get_type. rewrite B. destruct (find_cdt n ts 0) as [j|] eqn:G.
    - apply find_cdt_spec in G as [_ (c' & G & Q)]. rewrite Z.sub_0_r in G. f_equal. eapply same_name; [exact W | exact G | exact Z|]. eapply case_trans; [|exact C]. rewrite case_sym. exact Q.
    - assert (Q := find_cdt_none _ _ _ G c (znth_In _ _ _ Z)). congruence. }
  rewrite T. cbv zeta. rewrite S. cbn [rbind]. rewrite K. reflexivity.
Qed.

Section Fetch.
Context (ts : list cdt) (W : wf ts) (L : zlen ts <= 2147483648) (Rg : regular ts).
Definition fetched (i : Z) : Prop := forall c f cc b r d, znth ts i = Some c -> (Z.to_nat i < f)%nat -> i < b -> okx ts b cc -> slot cc i = no_slot ->
  serialize_datatype ts (cdt_type i) = Done (inl d) -> server_cdt ts r = Done (inl (cdt_type i, d)) ->
  exists cc', cdt_fetch f ts cc r = Done (cc', 0) /\ okx ts b cc' /\ holds (slot cc' i) c /\ keeps i cc cc'.
Lemma string_to_type_ok i f cc b tn j c : (forall j, 0 <= j < i -> fetched j) -> (Z.to_nat i <= f)%nat -> i <= b -> okx ts b cc -> 0 <= j < i -> znth ts j = Some c -> tn = c_name c ->
  exists cc', string_to_type (cdt_fetch f ts) cc tn = Done (cc', cdt_type j) /\ okx ts b cc' /\ holds (slot cc' j) c /\ keeps j cc cc'.
Proof.
  intros P F B O Hj Z ->. assert (T := wf_type _ W _ _ Z). unfold string_to_type. rewrite (ty_base _ _ T). rewrite (find_hit _ _ _ _ _ _ W O Z (case_refl _)).
  destruct (cs_name (slot cc j)) as [m|] eqn:N.
  - exists cc. split; [reflexivity|]. split; [exact O|]. split; [|intros k _ _; reflexivity]. destruct (ok_low _ _ _ O j ltac:(lia)) as [K|(c' & Z' & K)]; [rewrite K in N; discriminate|]. congruence.
  - assert (Em : slot cc j = no_slot). { destruct (ok_low _ _ _ O j ltac:(lia)) as [K|(c' & Z' & K)]; [exact K|]. rewrite K in N. discriminate. }
    destruct (valid_plain _ (ty_name _ _ T)) as (_ & _ & Ln). destruct (server_answers _ _ _ W L Rg Z) as (d & S & _ & Sn).
    destruct (P j Hj c f cc b (ByName (c_name c)) d Z ltac:(lia) ltac:(lia) O Em S (Sn _ (case_refl _) Ln (ty_base _ _ T))) as (cc' & E & O' & H & K).
    exists cc'. rewrite E. cbn [rbind Z.eqb negb]. rewrite (find_hit _ _ _ _ _ _ W O' Z (case_refl _)). unfold holds in H. rewrite H. cbn [cs_name]. split; [reflexivity|]. split; [exact O'|]. split; [reflexivity | exact K].
Qed.
Lemma add_members_ok i nm a x f : ts = a ++ x -> zlen a = i -> (forall j, 0 <= j < i -> fetched j) -> (Z.to_nat i <= f)%nat ->
  forall ms ds, Forall2 (described a) ms ds -> Forall (member_ok i) ms -> (forall m, In m ms -> 1 <= cm_count m < 2147483648) ->
  forall F cc pre, okx ts i cc -> slot cc i = mk_cs (Some nm) pre -> (length (tl (concat (map (fun d => 58%Z :: d) ds))) < F)%nat ->
  exists cc', add_members F (cdt_fetch f ts) cc i (tl (concat (map (fun d => 58 :: d) ds))) = Done (cc', 0) /\ okx ts i cc' /\
    slot cc' i = mk_cs (Some nm) (pre ++ ms) /\ keeps i cc cc'.
Proof.
  intros Ets La P Hf. assert (Wa : wf a) by (eapply wf_prefix; rewrite <- Ets; exact W).
  assert (Lz : zlen a <= 2147483648) by (rewrite Ets, zlen_app in L; assert (Q := zlen_nonneg x); lia).
  induction 1 as [|m d ms ds M F2 IH]; intros Fo Co F cc pre O Sl HF.
  - destruct F; [cbn in HF; lia|]. exists cc. cbn. rewrite app_nil_r. split; [reflexivity|]. split; [exact O|]. split; [exact Sl | intros k _ _; reflexivity].
  - assert (Mo := Forall_inv Fo). assert (Fo' := Forall_inv_tail Fo). destruct F as [|F]; [lia|]. assert (Mo' := Mo). rewrite <- La in Mo'. destruct (described_props _ _ _ Wa Lz Mo' M) as (N & Fr & _).
    assert (Ld : (0 < length d)%nat) by (destruct d; [congruence | cbn; lia]). cbn [map concat tl app] in *. assert (Hl := HF). rewrite app_length in Hl.
    (* one member *)
    assert (Step : exists cc1, add_member (cdt_fetch f ts) cc i d = Done (cc1, 0) /\ okx ts i cc1 /\ slot cc1 i = mk_cs (Some nm) (pre ++ [m]) /\ keeps i cc cc1).
    { destruct M as (tn & G & ->). destruct Mo as (V & Cn & Ty). destruct (valid_plain _ V) as (A1 & A2 & A3). destruct (not_plain_44 _ A2) as [Fa1 _].
      destruct (name_back a _ Wa Lz ltac:(rewrite La; exact Ty)) as (n & G' & _ & N1 & N2 & _). assert (n = tn) by congruence. subst n. destruct (not_plain_44 _ N2) as [Ft1 _].
      destruct (print_d_spec _ Cn) as (_ & P2 & P3). assert (Fp : free 44 (print_d (cm_count m))) by (intros I; apply P3 in I; destruct I as [I|I]; discriminate).
      unfold add_member. cbn [app]. rewrite (strtok_mid 44 (cm_name m)) by assumption. rewrite (strtok_mid 44 tn) by assumption. rewrite (strtok_end 44 (print_d (cm_count m))) by assumption.
      assert (C1 := Co m (or_introl eq_refl)). rewrite strtol10_print by exact C1. cbv zeta. replace (0 <? cm_count m) with true by lia.
      assert (St : exists cc1, string_to_type (cdt_fetch f ts) cc tn = Done (cc1, cm_type m) /\ okx ts i cc1 /\ slot cc1 i = slot cc i /\ keeps i cc cc1).
      { destruct (member_type_name ts a x i (cm_type m) tn Ets W L La Ty G) as [Bt|(_ & j & c & Hj & -> & Z & ->)].
        - exists cc. unfold string_to_type. rewrite Bt. split; [reflexivity|]. split; [exact O|]. split; [reflexivity | intros k _ _; reflexivity].
        - destruct (string_to_type_ok i f cc i (c_name c) j c P Hf ltac:(lia) O Hj Z eq_refl) as (cc1 & E & O1 & H1 & K1). exists cc1. split; [exact E|]. split; [exact O1|].
          split; [apply K1; [lia | left; lia]|]. intros k Nk Hk. destruct (Z.eq_dec k j) as [->|Nj]; [|apply K1; [exact Nj | lia || (destruct Hk; [left; lia | right; assumption])]].
          destruct Hk as [Hk|Hk]; [lia|]. destruct (ok_low _ _ _ O j ltac:(lia)) as [Q|(c' & Z' & Q)]; [rewrite Q in Hk; elim Hk; reflexivity|]. assert (c' = c) by congruence. subst c'. rewrite H1, Q. reflexivity. }
      destruct St as (cc1 & E & O1 & S1 & K1). rewrite E. cbn [rbind].
      assert (Ri : 0 <= i < zlen cc1) by (apply named_in; rewrite S1, Sl; discriminate). rewrite (slot_in _ _ Ri), S1, Sl. cbn [cs_name cs_members]. eexists. split; [reflexivity|].
      assert (Sz := slot_zset cc1 i (mk_cs (Some nm) (pre ++ [mk_cm (cm_name m) (cm_type m) (cm_count m)]))). split; [|split].
      - constructor; intros k Hk; rewrite Sz by exact Ri; destruct (k =? i) eqn:Q; [lia | exact (ok_low _ _ _ O1 k Hk) | | exact (ok_high _ _ _ O1 k Hk)].
        cbn [cs_name]. destruct (ok_high _ _ _ O i ltac:(lia)) as [X|(c & Z & X)]; [rewrite Sl in X; discriminate|]. right. exists c. replace k with i by lia. rewrite Sl in X. cbn [cs_name] in X. auto.
      - rewrite Sz by exact Ri. rewrite Z.eqb_refl. destruct m; reflexivity.
      - intros k Nk Hk. rewrite Sz by exact Ri. replace (k =? i) with false by lia. apply K1; assumption. }
    destruct Step as (cc1 & E & O1 & S1 & K1).
    assert (Fin : forall s', tl (concat (map (fun d => 58 :: d) ds)) = s' -> exists cc', add_members F (cdt_fetch f ts) cc1 i s' = Done (cc', 0) /\ okx ts i cc' /\ slot cc' i = mk_cs (Some nm) (pre ++ m :: ms) /\ keeps i cc cc').
    { intros s' <-. destruct (IH Fo' (fun y I => Co y (or_intror I)) F cc1 (pre ++ [m]) O1 S1) as (cc' & E' & O' & S' & K').
      { destruct (concat (map (fun d => 58%Z :: d) ds)); cbn in *; lia. }
      exists cc'. split; [exact E'|]. split; [exact O'|]. split; [rewrite S', <- app_assoc; reflexivity|]. intros k Nk Hk. rewrite K'; [apply K1; assumption | exact Nk |].
      destruct Hk as [Hk|Hk]; [left; exact Hk | right; rewrite K1 by auto; exact Hk]. }
    cbn [add_members]. destruct ds as [|d' ds].
    + cbn [map concat] in *. rewrite app_nil_r. rewrite strtok_end by assumption. rewrite E. cbn [rbind Z.eqb negb]. apply Fin. reflexivity.
    + cbn [map concat app tl] in *. rewrite strtok_mid by assumption. rewrite E. cbn [rbind Z.eqb negb]. apply Fin. reflexivity.
Qed.
Lemma fetched_step i : (forall j, 0 <= j < i -> fetched j) -> fetched i.
Proof.
  intros P c f cc b r d Z Hf Hb O Sl Sd Sr. assert (R := znth_range _ _ _ Z). destruct (custom_type i ltac:(lia)) as [C1 C2].
  destruct (describe_back _ _ _ W L Z) as (a & x & d' & Ets & La & Sd' & _ & ds & Ed & F2). assert (Dd : d' = d) by congruence. rewrite Dd in Ed.
  assert (T := wf_type _ W _ _ Z). destruct (valid_plain _ (ty_name _ _ T)) as (A1 & A2 & A3). destruct (not_plain_44 _ A2) as [_ F58].
  destruct f as [|f]; [lia|]. cbn [cdt_fetch]. rewrite Sr. cbn [rbind]. unfold add_cdt. rewrite C2. cbv zeta.
  assert (K : strtok 58 d = Some (c_name c, tl (concat (map (fun d => 58 :: d) ds)))).
  { rewrite Ed. destruct ds as [|y ds]; [cbn [map concat]; rewrite app_nil_r; apply strtok_end; assumption|]. cbn [map concat app tl]. apply strtok_mid; assumption. }
  rewrite K. assert (Gl := grow_len cc i ltac:(lia)). rewrite (slot_in (grow cc i) i) by lia. rewrite slot_grow, Sl. replace (zlen (c_name c) <=? TAGNAME_SIZE) with true by (unfold TAGNAME_SIZE; lia).
  cbn [cs_members no_slot]. set (cc0 := zset (grow cc i) i (mk_cs (Some (c_name c)) [])).
  assert (S0 : forall k, slot cc0 k = if k =? i then mk_cs (Some (c_name c)) [] else slot cc k) by (intros k; unfold cc0; rewrite slot_zset, slot_grow by lia; reflexivity).
  assert (O0 : okx ts i cc0).
  { constructor; intros k Hk; rewrite S0; destruct (k =? i) eqn:Q; [lia | apply (ok_low _ _ _ O); lia | right; exists c; split; [replace k with i by lia; exact Z | reflexivity]|].
    destruct (Z_lt_dec k b) as [Lk|Lk]; [|apply (ok_high _ _ _ O); lia]. destruct (ok_low _ _ _ O k Lk) as [X|(y & Zy & X)]; rewrite X; [left; reflexivity | right; exists y; split; [exact Zy | rewrite X; reflexivity]]. }
  destruct (add_members_ok i (c_name c) a (c :: x) f Ets La P ltac:(lia) (c_members c) ds F2 (ty_members _ _ T) (fun m I => rg_count _ Rg _ _ _ Z I)
    (S (length (tl (concat (map (fun d => 58 :: d) ds))))) cc0 [] O0) as (cc' & E & O' & S' & K'); [rewrite S0, Z.eqb_refl; reflexivity | lia|].
  exists cc'. split; [exact E|]. cbn [app] in S'. split; [|split; [exact S'|]].
  - constructor; intros k Hk.
    + destruct (Z.eq_dec k i) as [->|Nk]; [right; exists c; split; [exact Z | exact S']|]. destruct (Z_lt_dec k i) as [Lk|Lk]; [apply (ok_low _ _ _ O' k Lk)|].
      rewrite K' by (lia || (left; lia)). rewrite S0. replace (k =? i) with false by lia. apply (ok_low _ _ _ O k Hk).
    + rewrite K' by (lia || (left; lia)). rewrite S0. replace (k =? i) with false by lia. apply (ok_high _ _ _ O k Hk).
  - intros k Nk Hk. rewrite K'; [rewrite S0; replace (k =? i) with false by lia; reflexivity | exact Nk |]. rewrite S0. replace (k =? i) with false by lia. exact Hk.
Qed.
Lemma fetch_ok i : 0 <= i -> fetched i.
Proof. intros H. revert i H. apply (Zlt_0_ind fetched). intros i IH _. apply fetched_step. exact IH. Qed.
End Fetch.

(** ** Sizes *)
Lemma noqueue_clear t : is_queue t = false -> Z.clearbit t 30 = t.
Proof.
  intros H. apply Z.bits_inj'. intros n Hn. rewrite Z.clearbit_eqb. destruct (30 =? n) eqn:Q; cbn [negb]; [|apply andb_true_r].
  rewrite andb_false_r. symmetry. replace n with 30 by lia. exact H.
Qed.
Lemma custom_noqueue j : 0 <= j < 1073741824 -> is_queue (cdt_type j) = false.
Proof.
  intros H. unfold is_queue, cdt_type, T_CUSTOM. rewrite Z.lor_spec. change (Z.testbit 2147483648 30) with false. rewrite orb_false_r.
  rewrite Z.testbit_eqb by lia. change (2 ^ 30) with 1073741824. rewrite Z.div_small by lia. reflexivity.
Qed.
Lemma base_noqueue t : In t base_types -> is_queue t = false /\ exists n, base_name_of t base_names = Some n.
Proof. intros H. cbn in H. repeat (destruct H as [<-|H]; [split; [reflexivity | eexists; reflexivity]|]). destruct H. Qed.
Lemma custom_back t : 0 <= t < 4294967296 -> is_custom t = true -> t = cdt_type (cdt_index t).
Proof.
  intros H C. unfold cdt_type, cdt_index, T_CUSTOM. change 2147483648 with (2 ^ 31). apply Z.bits_inj'. intros n Hn. rewrite Z.lor_spec, Z.clearbit_eqb, Z.pow2_bits_eqb by lia.
  destruct (31 =? n) eqn:Q; cbn [negb]; [rewrite orb_true_r; replace n with 31 by lia; exact C | rewrite andb_true_r, orb_false_r; reflexivity].
Qed.
Section Size.
Context (ts : list cdt) (W : wf ts) (L : zlen ts <= 1073741824) (Rg : regular ts).
Definition mirrors (cc : ctypes) : Prop := forall i, slot cc i = no_slot \/ exists c, znth ts i = Some c /\ holds (slot cc i) c.
Lemma mirrors_okx cc : mirrors cc <-> forall b, okx ts b cc.
Proof.
  split.
  - intros M b. constructor; intros i _; [exact (M i)|]. destruct (M i) as [K|(c & Z & K)]; rewrite K; [left; reflexivity | right; exists c; split; [exact Z | rewrite K; reflexivity]].
  - intros O i. exact (ok_low _ _ _ (O (i + 1)) i ltac:(lia)).
Qed.
Lemma okx_weaken b b' cc : b' <= b -> okx ts b cc -> okx ts b' cc.
Proof.
  intros H O. constructor; intros i Hi; [apply (ok_low _ _ _ O); lia|]. destruct (Z_lt_dec i b); [|apply (ok_high _ _ _ O); lia].
  destruct (ok_low _ _ _ O i l) as [K|(c & Z & K)]; [rewrite K; left; reflexivity | right; exists c; split; [exact Z | rewrite K; reflexivity]].
Qed.
Lemma mirror_slot cc i c : mirrors cc -> znth ts i = Some c -> exists cc', type_to_string ts cc (cdt_type i) = Done (cc', Some (c_name c)) /\ mirrors cc' /\ holds (slot cc' i) c /\ znth cc' i = Some (slot cc' i).
Proof.
  intros O Z. assert (R := znth_range _ _ _ Z). destruct (custom_type i ltac:(lia)) as [C1 C2]. unfold type_to_string. rewrite C1, C2.
  destruct (O i) as [K|(c' & Z' & K)].
  - destruct (server_answers _ _ _ W ltac:(lia) Rg Z) as (d & Sd & St & _). assert (Hi : (Z.to_nat i < S (length ts))%nat) by (unfold zlen in R; lia).
    assert (Ox := proj1 (mirrors_okx cc) O).
    destruct (fetch_ok ts W ltac:(lia) Rg i ltac:(lia) c (S (length ts)) cc (zlen ts) (ByType (cdt_type i)) d Z Hi ltac:(lia) (Ox _) K Sd St) as (cc' & E & _ & H & _).
    assert (O' : mirrors cc').
    { apply mirrors_okx. intros b. apply (okx_weaken (Z.max b (i + 1))); [lia|].
      destruct (fetch_ok ts W ltac:(lia) Rg i ltac:(lia) c (S (length ts)) cc (Z.max b (i + 1)) (ByType (cdt_type i)) d Z Hi ltac:(lia) (Ox _) K Sd St) as (cc2 & E2 & O2 & _). congruence. }
    assert (Ri : znth cc' i = Some (slot cc' i)) by (apply slot_in, named_in; rewrite H; discriminate).
    assert (Goal : exists cc'', (x <-- dax_cdt_get ts cc (ByType (cdt_type i)) ;; (let '(cc0, e) := x in if negb (e =? 0) then Done (cc0, None) else match znth cc0 i with Some s => Done (cc0, cs_name s) | None => Undef UOob end)) = Done (cc'', Some (c_name c)) /\
      mirrors cc'' /\ holds (slot cc'' i) c /\ znth cc'' i = Some (slot cc'' i)).
    { exists cc'. unfold dax_cdt_get. rewrite E. cbn [rbind Z.eqb negb]. rewrite Ri. cbn [rbind]. split; [unfold holds in H; rewrite H; reflexivity|]. split; [exact O'|]. split; [exact H | reflexivity]. }
    destruct (znth cc i) as [[[n|] ms]|] eqn:Q; [|exact Goal | exact Goal]. unfold slot in K. rewrite Q in K. discriminate.
  - assert (c' = c) by congruence. subst c'. assert (Ri : znth cc i = Some (slot cc i)) by (apply slot_in, named_in; rewrite K; discriminate).
    exists cc. rewrite Ri. split; [unfold holds in K; rewrite K; reflexivity|]. split; [exact O|]. split; [exact K | reflexivity].
Qed.
Lemma members_agree tsz ctsz : (forall t n cc, (In t base_types \/ exists j, 0 <= j < zlen ts /\ t = cdt_type j) -> tsz t = Done n -> 0 < n -> mirrors cc -> exists cc', ctsz cc t = Done (cc', n) /\ mirrors cc') ->
  forall ms pos p cc, Forall (member_ok (zlen ts)) ms -> members_bits tsz ms pos = Done p -> mirrors cc -> exists cc', c_members_bits ctsz cc ms pos = Done (cc', p) /\ mirrors cc'.
Proof.
  intros Hs. induction ms as [|m ms IH]; intros pos p cc F H O; cbn [members_bits c_members_bits] in *; [injection H as <-; eauto|].
  assert (M := Forall_inv F). assert (F' := Forall_inv_tail F). destruct M as (_ & _ & Ty).
  destruct (cm_type m =? T_BOOL); [exact (IH _ _ _ F' H O)|]. cbv zeta in *. destruct (is_custom (cm_type m)); [|exact (IH _ _ _ F' H O)].
  apply rbind_done in H as (sz & Hz & H). destruct (0 <? sz) eqn:Q; [|discriminate]. destruct (Hs _ _ cc Ty Hz ltac:(lia) O) as (cc1 & E & O1). rewrite E. cbn [rbind]. exact (IH _ _ _ F' H O1).
Qed.
Lemma sizes_agree : forall k t n cc, (In t base_types \/ exists j, 0 <= j < zlen ts /\ t = cdt_type j) -> type_size_f k ts t = Done n -> 0 < n -> mirrors cc ->
  exists cc', typesize_f k ts cc t = Done (cc', n) /\ mirrors cc'.
Proof.
  induction k as [|k IH]; intros t n cc Ty H Hn O; [discriminate|]. cbn [type_size_f typesize_f] in *.
  destruct (checktype ts t) eqn:Ck; cbn [negb] in H; [|injection H as <-; unfold E_NOTFOUND in Hn; lia]. cbv zeta. destruct Ty as [B|(j & Hj & ->)].
  - destruct (base_noqueue t B) as [Nq (nm & Hnm)]. destruct (base_not_custom t B) as [Nc _]. rewrite (noqueue_clear _ Nq). rewrite Nc in H. injection H as <-.
    unfold type_to_string. rewrite Nc, Hnm. cbn [rbind]. exists cc. split; [|exact O]. replace (typesize_bits t / 8 =? 0) with false by lia. reflexivity.
  - rewrite (noqueue_clear _ (custom_noqueue j ltac:(lia))). destruct (custom_type j ltac:(lia)) as [C1 C2]. rewrite C1, C2 in *.
    destruct (znth ts j) as [c|] eqn:Z; [|discriminate]. apply rbind_done in H as (pos & Hp & H). injection H as <-.
    destruct (mirror_slot cc j c O Z) as (cc1 & E & O1 & Hc & Rj). rewrite E. cbn [rbind]. rewrite Rj, Hc. cbn [cs_members].
    assert (F : Forall (member_ok (zlen ts)) (c_members c)).
    { eapply Forall_impl; [|exact (ty_members _ _ (wf_type _ W _ _ Z))]. intros m (A & B & [D|(i & Hi & D)]); split; auto. split; [exact B|]. right. exists i. split; [lia | exact D]. }
    destruct (members_agree (type_size_f k ts) (typesize_f k ts) (fun t n cc Ty Hs Hn O => IH t n cc Ty Hs Hn O) _ _ _ cc1 F Hp O1) as (cc2 & E2 & O2). rewrite E2. cbn [rbind].
    exists cc2. split; [|exact O2]. unfold bits_to_bytes in *. destruct (pos =? 0); [lia | reflexivity].
Qed.
End Size.
