(** * Prop_CdtIter: C164 and C165, going through types and members *)
From Verif Require Import Base Const Types State Events Atomic Server Lib Spec Shape Inv Reach TypeFrame TypesProofs ClientTypes ClientTypesProofs ClientData Demo Prop_Types Prop_ClientOvr CdtNew Prop_CdtNew Text Prop_Text Cache Path Prop_Path DaxcRead CdtIter.

(** ** C165 *)
(** what the callback is told about a member and its place: the byte and the bit in the byte *)
Definition tells (it : item) (x : cmember * Z * Z) : Prop := let '(m, p, _) := x in it = mk_it (cm_name m) (cm_type m) (cm_count m) (p / 8) (p mod 8).

Lemma bits_range tsz : forall ms pos e, members_bits tsz ms pos = Done e -> 0 <= pos < 4294967296 -> 0 <= e < 4294967296.
Proof.
  induction ms as [|m ms IH]; intros pos e H P; cbn [members_bits] in H; [injection H as <-; exact P|].
  assert (U : forall x, 0 <= u32 x < 4294967296) by (intros x; unfold u32; lia).
  destruct (_ =? _); [exact (IH _ _ H (U _))|]. cbv zeta in H. destruct (is_custom _); [|exact (IH _ _ H (U _))].
  apply rbind_done in H as (z & _ & H). destruct (0 <? z); [exact (IH _ _ H (U _)) | discriminate].
Qed.
Lemma size_bound ts t n : is_custom t = true -> type_size ts t = Done n -> n <= 536870912.
Proof.
  intros C. unfold type_size. cbn [type_size_f]. destruct (negb _); [intros H; injection H as <-; unfold E_NOTFOUND; lia|]. rewrite C.
  destruct (znth ts _) as [c|]; [|discriminate]. intros H. apply rbind_done in H as (e & He & H). apply bits_range in He; [|lia]. injection H as <-. unfold bits_to_bytes. destruct (e =? 0); lia.
Qed.
Lemma s32_small x : 0 <= x < 2147483648 -> s32 x = x.
Proof. intros H. unfold s32. rewrite Z.mod_small by lia. cbv zeta. replace (x <? 2147483648) with true by lia. reflexivity. Qed.
(** what holds of a member and its place *)
Definition sound (ts : list cdt) (x : cmember * Z * Z) : Prop := let '(m, p, l) := x in known ts (cm_type m) /\ 1 <= cm_count m < 2147483648 /\ needs ts m l /\ 0 < l /\ 0 <= p /\ p + l <= 4294967296 /\
  (cm_type m <> T_BOOL -> p mod 8 = 0).
Section Iter.
Context (ts : list cdt) (W : wf ts) (L : zlen ts <= 1073741824) (Rg : regular ts).
Lemma all_sound i c size pl : znth ts i = Some c -> type_size ts (cdt_type i) = Done size -> layout ts (c_members c) size pl -> Forall (sound ts) pl.
Proof.
  intros Z Ts (Sz & Mp & Al & Od). assert (Ri := znth_range _ _ _ Z). destruct (custom_type i ltac:(lia)) as [C1 _]. assert (Sb := size_bound _ _ _ C1 Ts).
  rewrite Forall_forall in Al |- *. intros [[m1 p1] l1] I. destruct (Al _ I) as (Nd & P1 & B1 & A1).
  assert (Im : In m1 (c_members c)) by (rewrite <- Mp; exact (in_map (fun x => fst (fst x)) _ _ I)).
  destruct (type_facts ts W ltac:(lia) Rg _ _ _ Z Ts Sz m1 Im) as (K & C & Wp). destruct (needs_width _ _ _ Nd) as (w & Wd & El). specialize (Wp w Wd).
  split; [exact K|]. split; [exact C|]. split; [exact Nd|]. split; [nia|]. split; [exact P1|]. split; [lia | exact A1].
Qed.
Lemma place_ok cc x y : mirrors ts cc -> sound ts x -> sound ts y -> packed (snd (fst x) + snd x) [y] ->
  exists cc', place_after ts cc (fst (fst x)) (cm_type (fst (fst y))) (snd (fst x) / 8) (snd (fst x) mod 8) = Done (cc', snd (fst y) / 8, snd (fst y) mod 8) /\ mirrors ts cc'.
Proof.
  destruct x as [[m p] l], y as [[m2 p2] l2]. cbn [fst snd packed]. intros M (K & C & Nd & Lp & Pp & Bd & Al) (_ & _ & _ & Lp2 & Pp2 & Bd2 & Al2) [P _].
  destruct (needs_width _ _ _ Nd) as (w & Wd & El). unfold place_after. destruct (cm_type m =? T_BOOL) eqn:T.
  - assert (Tb : cm_type m = T_BOOL) by lia. rewrite (width_bool _ _ _ Tb Wd) in El. cbv zeta. rewrite s32_small by lia. exists cc. split; [|exact M].
    destruct (7 <? p mod 8 + cm_count m mod 8) eqn:G; destruct (cm_type m2 =? T_BOOL) eqn:T2; cbn [negb andb].
    + rewrite cint_ok by lia. cbn [rbind]. f_equal. f_equal; [f_equal|]; lia.
    + assert (A2 := Al2 ltac:(lia)). destruct ((p mod 8 + cm_count m mod 8) mod 8 =? 0) eqn:Q; cbn [negb]; rewrite cint_ok by lia; cbn [rbind]; f_equal; f_equal; [f_equal| |f_equal|]; lia.
    + rewrite cint_ok by lia. cbn [rbind]. f_equal. f_equal; [f_equal|]; lia.
    + assert (A2 := Al2 ltac:(lia)). destruct (p mod 8 + cm_count m mod 8 =? 0) eqn:Q; cbn [negb]; rewrite cint_ok by lia; cbn [rbind]; f_equal; f_equal; [f_equal| |f_equal|]; lia.
  - assert (Nb : cm_type m <> T_BOOL) by lia. specialize (Al Nb). assert (Wp : 0 < w) by nia.
    destruct (client_size ts W ltac:(lia) Rg _ _ cc K Wd Nb Wp M) as (n & cc1 & E1 & M1 & Ew & Pn). rewrite E1. cbn [rbind]. exists cc1. split; [|exact M1].
    assert (El' : l = 8 * (n * cm_count m)) by lia. clear El. set (q := n * cm_count m) in *. assert (Hq : 0 <= q) by lia. unfold u32. rewrite (Z.mod_small q) by lia. rewrite s32_small by lia.
    assert (Pe : p2 = p + l). { destruct (cm_type m2 =? T_BOOL) eqn:T2; [exact P|]. assert (A2 := Al2 ltac:(lia)). lia. }
    f_equal. f_equal; [f_equal|]; lia.
Qed.
Lemma iter_ok {A} (cb : ctypes -> item -> run (ctypes * A)) (Q : item -> A -> Prop) pl : forall x cc,
  (forall cc y it, In y (x :: pl) -> tells it y -> mirrors ts cc -> exists cc' a, cb cc it = Done (cc', a) /\ mirrors ts cc' /\ Q it a) ->
  mirrors ts cc -> Forall (sound ts) (x :: pl) -> packed (snd (fst x) + snd x) pl ->
  exists cc' l, iter_members ts cb cc (map (fun x => fst (fst x)) (x :: pl)) (snd (fst x) / 8) (snd (fst x) mod 8) = Done (cc', l) /\ mirrors ts cc' /\ Forall2 (fun a y => exists it, tells it y /\ Q it a) l (x :: pl).
Proof.
  induction pl as [|y pl IH]; intros x cc Hc M F P; assert (F1 := Forall_inv F); destruct x as [[m p] l]; cbn [map fst snd iter_members].
  - destruct F1 as (_ & C & _). rewrite s32_small by lia. destruct (Hc cc (m, p, l) _ (or_introl eq_refl) eq_refl M) as (cc1 & a & -> & M1 & Qa). cbn [rbind]. exists cc1, [a]. split; [reflexivity|]. split; [exact M1|].
    constructor; [|constructor]. eexists. split; [reflexivity | exact Qa].
  - assert (C := F1). destruct C as (_ & C & _). rewrite s32_small by lia. destruct (Hc cc (m, p, l) _ (or_introl eq_refl) eq_refl M) as (cc1 & a & -> & M1 & Qa). cbn [rbind].
    apply Forall_inv_tail in F. assert (F2 := Forall_inv F). destruct y as [[m2 p2] l2]. cbn [packed] in P. destruct P as [P1 P2].
    destruct (place_ok cc1 (m, p, l) (m2, p2, l2) M1 F1 F2 (conj P1 I)) as (cc2 & Ep & M2). cbn [fst snd] in Ep |- *. rewrite Ep. cbn [rbind].
    destruct (IH (m2, p2, l2) cc2 (fun cc y it I => Hc cc y it (or_intror I)) M2 F P2) as (cc3 & r & Er & M3 & Fr). cbn [map fst snd iter_members] in Er. rewrite Er. cbn [rbind].
    exists cc3, (a :: r). split; [reflexivity|]. split; [exact M3|]. constructor; [|exact Fr]. eexists. split; [reflexivity | exact Qa].
Qed.
Lemma pointer_ok cc i c : mirrors ts cc -> znth ts i = Some c -> exists cc', cdt_pointer ts cc (cdt_type i) = Done (cc', inl (mk_cs (Some (c_name c)) (c_members c))) /\ mirrors ts cc'.
Proof.
  intros M Zc. assert (R := znth_range _ _ _ Zc). destruct (custom_type i ltac:(lia)) as [C1 C2]. destruct (mirror_slot ts W ltac:(lia) Rg cc i c M Zc) as (cc' & E & M' & H & Zs). unfold holds in H.
  exists cc'. split; [|exact M']. unfold type_to_string in E. unfold cdt_pointer. rewrite C1, C2 in *.
  assert (G : (x <-- dax_cdt_get ts cc (ByType (cdt_type i)) ;; (let '(cc, e) := x in if negb (e =? 0) then Done (cc, None) else match znth cc i with Some s => Done (cc, cs_name s) | None => Undef UOob end)) = Done (cc', Some (c_name c)) ->
    (x <-- dax_cdt_get ts cc (ByType (cdt_type i)) ;; (let '(cc, e) := x in if negb (e =? 0) then Done (cc, inr e) else match znth cc i with Some s => Done (cc, inl s) | None => Undef UOob end)) = Done (cc', inl (mk_cs (Some (c_name c)) (c_members c)) : cslot + Z)).
  { intros X. apply rbind_done in X as ([cc1 e] & E1 & X). rewrite E1. cbn [rbind]. destruct (e =? 0); cbn [negb] in X |- *; [|discriminate]. destruct (znth cc1 i) as [s1|] eqn:Z1; [|discriminate]. injection X as -> _. rewrite Z1 in Zs. injection Zs as ->. rewrite H. reflexivity. }
  destruct (znth cc i) as [[[n|] ms]|] eqn:Q; [|exact (G E) | exact (G E)]. injection E as <- <-. rewrite Q in Zs. injection Zs as Zs. rewrite <- Zs in H. injection H as -> ->. reflexivity.
Qed.
Lemma no_pointer cc : mirrors ts cc -> cdt_pointer ts cc (cdt_type (zlen ts)) = Done (cc, inr E_ARG).
Proof.
  intros M. assert (Lz := zlen_nonneg ts). destruct (custom_type (zlen ts) ltac:(lia)) as [C1 C2]. unfold cdt_pointer. rewrite C1, C2.
  assert (D : dax_cdt_get ts cc (ByType (cdt_type (zlen ts))) = Done (cc, E_ARG)). { unfold dax_cdt_get. cbn [cdt_fetch]. unfold server_cdt, serialize_datatype. rewrite C2. replace (zlen ts <=? zlen ts) with true by lia. reflexivity. }
  assert (N : cs_name (slot cc (zlen ts)) = None). { destruct (M (zlen ts)) as [->|(c & Z & _)]; [reflexivity|]. apply znth_range in Z. lia. }
  unfold slot in N. destruct (znth cc (zlen ts)) as [[[n|] ms]|]; [discriminate N | |]; rewrite D; reflexivity.
Qed.
End Iter.
(** dax_cdt_iter visits the members in their order, each with its name, type and count and with the place that the layout of C37 gives it *)
Theorem C165_places : forall {A} E s cc t c size pl (cb : ctypes -> item -> run (ctypes * A)) (Q : item -> A -> Prop),
  reachable E s -> few s -> readable s -> agrees s cc -> denotes s t c -> type_size (s_types s) t = Done size -> layout (s_types s) (c_members c) size pl -> packed 0 pl ->
  (forall cc x it, In x pl -> tells it x -> agrees s cc -> exists cc' a, cb cc it = Done (cc', a) /\ agrees s cc' /\ Q it a) ->
  exists cc' l, cdt_iter (s_types s) cb cc t = Done (cc', l, 0) /\ agrees s cc' /\ Forall2 (fun a x => exists it, tells it x /\ Q it a) l pl.
Proof.
  intros A E s cc t c size pl cb Q R F Rd Ag (i & -> & Z) Ts Ly Pk Hc. assert (W := reachable_wf _ _ R). assert (Rg := readable_regular _ Rd). unfold few in F. assert (Ri := znth_range _ _ _ Z).
  unfold cdt_iter. assert (N0 : (cdt_type i =? 0) = false). { destruct (custom_type i ltac:(lia)) as [C1 _]. destruct (cdt_type i =? 0) eqn:Q0; [|reflexivity]. apply Z.eqb_eq in Q0. rewrite Q0 in C1. discriminate. }
  rewrite N0. destruct (pointer_ok (s_types s) W ltac:(lia) Rg cc i c Ag Z) as (cc1 & -> & M1). cbn [rbind cs_members].
  assert (Fs := all_sound (s_types s) W ltac:(lia) Rg i c size pl Z Ts Ly). destruct Ly as (Sz & Mp & Al & Od). rewrite <- Mp. destruct pl as [|x pl].
  - cbn [map iter_members rbind]. exists cc1, []. split; [reflexivity|]. split; [exact M1 | constructor].
  - assert (X0 : snd (fst x) = 0). { destruct x as [[m p] l]. cbn [packed] in Pk. destruct Pk as [Pk _]. cbn [fst snd]. assert (F1 := Forall_inv Fs). destruct F1 as (_ & _ & _ & _ & Pp & _ & A1). destruct (cm_type m =? T_BOOL) eqn:T; [exact Pk|]. assert (A2 := A1 ltac:(lia)). lia. }
    destruct (iter_ok (s_types s) W ltac:(lia) Rg cb Q pl x cc1 Hc M1 Fs) as (cc2 & l & H & M2 & F2); [destruct x as [[m p] l]; exact (proj2 Pk)|]. rewrite X0 in H. change (0 / 8) with 0 in H. change (0 mod 8) with 0 in H. rewrite H. cbn [rbind].
    exists cc2, l. split; [reflexivity|]. split; [exact M2 | exact F2].
Qed.
(** without a type it visits all compound types of the server in their order *)
Theorem C165_types : forall {A} E s cc (cb : ctypes -> item -> run (ctypes * A)) (Q : item -> A -> Prop), reachable E s -> few s -> readable s -> agrees s cc ->
  (forall cc t c, denotes s t c -> agrees s cc -> exists cc' a, cb cc (mk_it (c_name c) t 0 0 0) = Done (cc', a) /\ agrees s cc' /\ Q (mk_it (c_name c) t 0 0 0) a) ->
  exists cc' l, cdt_iter (s_types s) cb cc 0 = Done (cc', l, 0) /\ agrees s cc' /\ Forall2 (fun a c => exists t, denotes s t c /\ Q (mk_it (c_name c) t 0 0 0) a) l (s_types s).
Proof.
  intros A E s cc cb Q R F Rd Ag Hc. assert (W := reachable_wf _ _ R). assert (Rg := readable_regular _ Rd). unfold few in F. unfold cdt_iter. cbn [Z.eqb].
  assert (G : forall post pre cc k, s_types s = pre ++ post -> (length post < k)%nat -> agrees s cc -> exists cc' l, iter_types k (s_types s) cb cc (zlen pre) = Done (cc', l) /\ agrees s cc' /\ Forall2 (fun a c => exists t, denotes s t c /\ Q (mk_it (c_name c) t 0 0 0) a) l post).
  { induction post as [|c post IH]; intros pre cc0 k Es Hk A0; (destruct k as [|k]; [lia|]); cbn [iter_types].
    - rewrite app_nil_r in Es. rewrite <- Es, (no_pointer (s_types s) ltac:(lia) cc0 A0). cbn [rbind]. change (E_ARG =? E_INUSE) with false. exists cc0, []. split; [reflexivity|]. split; [exact A0 | constructor].
    - assert (Z : znth (s_types s) (zlen pre) = Some c). { rewrite Es. replace (zlen pre) with (zlen pre + 0) by lia. rewrite znth_app2 by lia. replace (zlen pre + 0 - zlen pre) with 0 by lia. apply znth_0. }
      destruct (pointer_ok (s_types s) W ltac:(lia) Rg cc0 _ c A0 Z) as (cc1 & -> & M1). cbn [rbind cs_name]. assert (D : denotes s (cdt_type (zlen pre)) c) by (exists (zlen pre); auto).
      destruct (Hc cc1 _ c D M1) as (cc2 & a & -> & M2 & Qa). cbn [rbind].
      destruct (IH (pre ++ [c]) cc2 k) as (cc3 & l & Hl & M3 & Fl); [rewrite <- app_assoc; exact Es | cbn [length] in Hk; lia | exact M2|].
      rewrite zlen_app in Hl. change (zlen [c]) with 1 in Hl. rewrite Hl. cbn [rbind]. exists cc3, (a :: l). split; [reflexivity|]. split; [exact M3|]. constructor; [eauto | exact Fl]. }
  destruct (G (s_types s) [] cc (Datatypes.S (length (s_types s) + length cc)) eq_refl ltac:(lia) Ag) as (cc' & l & H & A1 & Fl). change (zlen (@nil cdt)) with 0 in H. rewrite H. cbn [rbind]. eauto.
Qed.
Example C165_ex : exists cc cc', denotes pa_state (cdt_type 3) c_box /\ layout (s_types pa_state) (c_members c_box) 13 pl_box /\ packed 0 pl_box /\
  cdt_iter (s_types pa_state) (fun cc it => Done (cc, it)) [] (cdt_type 3) = Done (cc, [mk_it (str "on") T_BOOL 1 0 0; mk_it (str "p") (cdt_type 2) 2 1 0; mk_it (str "ok") T_BOOL 9 11 0], 0) /\
  cdt_iter (s_types pa_state) (fun cc it => Done (cc, it)) [] (cdt_type 6) = Done (cc', [mk_it (str "a") T_BOOL 300 0 0; mk_it (str "b") T_BOOL 1 37 4], 0).
Proof.
  do 2 eexists. split; [apply denotes_check; vm_compute; reflexivity|]. split; [exact lay_box|]. split; [repeat split; cbn; lia|]. split; [vm_compute; reflexivity|]. vm_compute. reflexivity.
Qed.

(** ** C164 *)
(** the line of a member: its name in a column of 32, the name of its type, the count in brackets *)
Definition member_line (s : server) (line : name) (m : cmember) : Prop :=
  exists k tn d, zlen (cm_name m) + Z.of_nat k = 32 /\ type_name s (cm_type m) tn /\ (forall c, In c d -> isdigit c = true) /\ digits 10 0 d = cm_count m /\
    line = cm_name m ++ repeat 32 k ++ str "  " ++ tn ++ str "[" ++ d ++ str "]".
Lemma base_name_in t n : forall l, base_name_of t l = Some n -> In (n, t) l.
Proof. induction l as [|[b u] l IH]; cbn [base_name_of]; [discriminate|]. destruct (t =? u) eqn:Q; [intros H; injection H as ->; left; f_equal; lia | intros H; right; exact (IH H)]. Qed.
(** LIST TYPES prints the names of all compound types, in the order of their creation *)
Theorem C164_all : forall E s cc, reachable E s -> few s -> readable s -> agrees s cc ->
  exists cc', list_types_cmd (s_types s) cc [] = Done (cc', map c_name (s_types s), 0) /\ agrees s cc'.
Proof.
  intros E s cc R F Rd A. destruct (C165_types E s cc print_name (fun it a => a = it_name it) R F Rd A) as (cc' & l & H & A' & Fl).
  { intros cc0 t c D A0. exists cc0, (c_name c). split; [reflexivity|]. split; [exact A0 | reflexivity]. }
  exists cc'. split; [|exact A']. unfold list_types_cmd. rewrite H. cbn [rbind]. do 3 f_equal. clear -Fl. induction Fl as [|a c l r (t & _ & ->) _ IH]; [reflexivity|]. cbn [map it_name]. rewrite IH. reflexivity.
Qed.
(** LIST TYPES with a compound type prints one line for each member *)
Theorem C164_members : forall E s cc tn t c size pl r, reachable E s -> few s -> readable s -> agrees s cc -> refers s tn t -> denotes s t c ->
  type_size (s_types s) t = Done size -> layout (s_types s) (c_members c) size pl -> packed 0 pl ->
  exists cc' l, list_types_cmd (s_types s) cc (tn :: r) = Done (cc', l, 0) /\ agrees s cc' /\ Forall2 (member_line s) l (c_members c).
Proof.
  intros E s cc tn t c size pl r R F Rd A Rf D Ts Ly Pk. assert (W := reachable_wf _ _ R). unfold list_types_cmd. destruct (named_type E s R F Rd cc tn t A Rf) as (cc1 & -> & A1). cbn [rbind].
  assert (Mp : map (fun x => fst (fst x)) pl = c_members c) by apply Ly. destruct D as (i & -> & Z).
  assert (Mk := ty_members _ _ (wf_type _ W _ _ Z)). rewrite Forall_forall in Mk.
  destruct (C165_places E s cc1 (cdt_type i) c size pl (print_member (s_types s)) (fun it a => forall m, it_name it = cm_name m -> it_type it = cm_type m -> it_count it = cm_count m -> In m (c_members c) -> member_line s a m) R F Rd A1) as (cc' & l & H & A' & Fl);
    [exists i; auto | exact Ts | exact Ly | exact Pk | |].
  - intros cc0 [[m p] q] it I T A0. cbn in T. subst it. assert (Im : In m (c_members c)) by (rewrite <- Mp; exact (in_map (fun x => fst (fst x)) _ _ I)).
    destruct (Mk m Im) as (Vn & _ & Ty). assert (exists n, type_name s (cm_type m) n) as (n & Tn).
    { destruct Ty as [B|(j & Hj & ->)]; [destruct (base_noqueue _ B) as [_ (n & Hn)]; exists n; left; apply base_name_in; exact Hn|]. destruct (znth (s_types s) j) as [cj|] eqn:Zj; [exists (c_name cj); right; exists cj; split; [exists j; auto | reflexivity]|]. apply znth_none in Zj. assert (Ri := znth_range _ _ _ Z). lia. }
    destruct (text_of E s R F Rd cc0 _ _ A0 Tn) as (cc2 & Hs & A2). unfold print_member. cbn [it_type it_name it_count]. rewrite Hs. cbn [rbind].
    destruct Rd as [Rc _]. assert (C := Rc (cdt_type i) c m (ex_intro _ i (conj eq_refl Z)) Im). replace (0 <? cm_count m) with true by lia.
    do 2 eexists. split; [reflexivity|]. split; [exact A2|]. cbn [it_name it_type it_count]. intros m' E1 E2 E3 _.
    destruct (valid_plain _ Vn) as (_ & _ & Ln). exists (32 - length (cm_name m))%nat, n, (print_d (cm_count m)). rewrite <- E1, <- E2, <- E3. split; [unfold zlen in *; lia|]. split; [exact Tn|].
    assert (Pd : print_d (cm_count m) = dec_str (cm_count m)). { unfold print_d. rewrite s32_small by lia. cbv zeta. replace (cm_count m <? 0) with false by lia. reflexivity. }
    rewrite Pd. split; [intros x; apply dec_chars; lia|]. split; [destruct (dec_str_spec (cm_count m) ltac:(lia)) as (_ & B & _); exact B|]. unfold pad32. rewrite <- !app_assoc. reflexivity.
  - rewrite H. cbn [rbind]. exists cc', l. split; [reflexivity|]. split; [exact A'|]. rewrite <- Mp in *. clear -Fl. 
    assert (G : forall l0 pl0, Forall2 (fun (a : name) x => exists it, tells it x /\ (forall m, it_name it = cm_name m -> it_type it = cm_type m -> it_count it = cm_count m -> In m (map (fun x => fst (fst x)) pl) -> member_line s a m)) l0 pl0 -> incl pl0 pl -> Forall2 (member_line s) l0 (map (fun x => fst (fst x)) pl0)).
    { induction 1 as [|a [[m p] q] l0 pl0 (it & T & Q) _ IH]; intros Ic; cbn [map fst]; [constructor|]. cbn in T. subst it. constructor; [|apply IH; intros x I; apply Ic; right; exact I].
      apply Q; try reflexivity. apply (in_map (fun x => fst (fst x)) pl (m, p, q)). apply Ic. left. reflexivity. }
    apply (G l pl Fl). apply incl_refl.
Qed.
(** with a base type it prints nothing *)
Theorem C164_base : forall E s cc tn n t r, reachable E s -> few s -> readable s -> agrees s cc -> In (n, t) base_names -> case_eqb tn n = true -> list_types_cmd (s_types s) cc (tn :: r) = Done (cc, [], 0).
Proof.
  intros E s cc tn n t r R F Rd A I C. unfold list_types_cmd, dax_string_to_type, string_to_type. rewrite (find_base_hit _ _ _ I C). cbn [rbind]. unfold cdt_iter, cdt_pointer.
  cbn in I. repeat (destruct I as [I|I]; [injection I as _ <-; reflexivity|]). destruct I.
Qed.
(** REFUTED: the members of a type that does not exist: all types are listed, each as if it were a member of its own type *)
Theorem C164_unknown_refuted : exists E s cc', reachable E s /\ few s /\ readable s /\ agrees s [] /\ (forall t, ~ refers s (str "Nope") t) /\
  list_types_cmd (s_types s) [] [str "Nope"] = Done (cc', [pad32 (str "_module") ++ str "  _module"; pad32 (str "_tag_desc") ++ str "  _tag_desc"; pad32 (str "Pt") ++ str "  Pt"; pad32 (str "Box") ++ str "  Box"], 0).
Proof.
  exists envS, ty_state. eexists. split; [exact ty_reachable|]. split; [apply few_check; vm_compute; reflexivity|]. split; [apply readable_check; vm_compute; reflexivity|]. split; [apply agrees_empty|].
  split. { intros t (n & T & C). assert (X := free_check ty_state (str "Nope") ltac:(vm_compute; reflexivity) t n T). congruence. }
  vm_compute. reflexivity.
Qed.
(** REFUTED: asking twice for types that do not exist makes the first type of the server show every member twice *)
Theorem C164_again_refuted : exists E s c t cc1 cc2 cc3 l1 l2 l3, reachable E s /\ few s /\ readable s /\ agrees s [] /\ denotes s t c /\ c_name c = str "_module" /\ c_members c <> [] /\
  list_types_cmd (s_types s) [] [str "Nope"] = Done (cc1, l1, 0) /\ list_types_cmd (s_types s) cc1 [str "Nope"] = Done (cc2, l2, 0) /\
  list_types_cmd (s_types s) cc2 [str "_module"] = Done (cc3, l3, 0) /\ zlen l3 = 2 * zlen (c_members c).
Proof.
  exists envS, ty_state. do 8 eexists. split; [exact ty_reachable|]. split; [apply few_check; vm_compute; reflexivity|]. split; [apply readable_check; vm_compute; reflexivity|]. split; [apply agrees_empty|].
  split; [apply (denotes_check _ 0); vm_compute; reflexivity|]. split; [vm_compute; reflexivity|]. split; [cbn [c_members]; discriminate|]. split; [vm_compute; reflexivity|]. split; [vm_compute; reflexivity|]. split; [vm_compute; reflexivity|]. vm_compute. reflexivity.
Qed.
Example C164_ex : exists cc, refers pa_state (str "box") (cdt_type 3) /\
  list_types_cmd (s_types pa_state) [] [str "box"] = Done (cc, [pad32 (str "on") ++ str "  BOOL[1]"; pad32 (str "p") ++ str "  Pt[2]"; pad32 (str "ok") ++ str "  BOOL[9]"], 0).
Proof.
  eexists. split; [exists (str "Box"); split; [right; exists c_box; split; [apply denotes_check; vm_compute; reflexivity | reflexivity] | vm_compute; reflexivity]|]. vm_compute. reflexivity.
Qed.
