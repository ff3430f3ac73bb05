(** * Prop_Util: a module and its own status tag (C136-C140) *)
From Verif Require Import Base Const Types State Events Atomic Server Lib SearchProofs Shape Inv Reach Spec Frame Effects Out DataFrame WRel ModInv IdInv Demo EvSpec EvLoops EvSync Prop_Events
  Prop_Tags TypeFrame TypesProofs ClientTypes ClientTypesProofs Prop_Types Cache Path Prop_Path Prop_Data ClientData Prop_ClientData Prop_Modules Util.

(** ** What the claims speak about *)
(** the members of a status tag (tagbase.c:380-388): name, first bit, type, bits of an element, number of elements *)
Definition status_members : list (name * Z * Z * Z * Z) :=
  [ (str "running", 96, T_BOOL, 1, 1); (str "faulted", 97, T_BOOL, 1, 1); (str "status", 104, T_CHAR, 8, 64);
    (str "stop", 616, T_BOOL, 1, 1); (str "run", 617, T_BOOL, 1, 1); (str "reload", 618, T_BOOL, 1, 1); (str "kill", 619, T_BOOL, 1, 1) ].
(** tag 10 is the virtual tag made at start-up *)
Definition serves_names (s : server) : Prop := exists t, znth (s_db s) 10 = Some t /\ has (t_attr t) A_VIRTUAL = true /\ t_data t = DMyName.
(** connection [fd] belongs to a module whose status tag has index [i] and name [nm] and holds [b] *)
Definition own_tag (s : server) (fd i : Z) (nm : name) (b : list Z) : Prop :=
  its_module s fd i /\ exists t, znth (s_db s) i = Some t /\ t_name t = Some nm /\ t_type t = module_type /\ t_count t = 1 /\ has (t_attr t) A_VIRTUAL = false /\ has (t_attr t) A_READONLY = false /\ t_data t = DBytes b.
(** what the client believes about the two tags it is going to use: [n] is the number of characters of _my_tagname *)
Definition believes (db : name -> option ctag) (i : Z) (nm : name) (n : Z) : Prop :=
  (exists t, db (str "_my_tagname") = Some t /\ ct_idx t = 10 /\ ct_type t = T_CHAR /\ ct_count t = n) /\
  (exists t, db nm = Some t /\ ct_idx t = i /\ ct_type t = module_type /\ ct_count t = 1).
(** everything is as the client and the module want it *)
Definition ready (E : env) (db : name -> option ctag) (cc : ctypes) (fd : Z) (s : server) (i : Z) (nm : name) (b : list Z) : Prop :=
  reachable E s /\ few s /\ readable s /\ agrees s cc /\ serves_names s /\ own_tag s fd i nm b /\ 0 < i /\ believes db i nm 33 /\ no_mapping s i.

(** ** The module type *)
Definition cmod : cdt := match sys_types with c :: _ => c | [] => mk_cdt [] [] end.
Definition pl_mod : placement :=
  [ (mk_cm (str "starttime") T_TIME 1, 0, 64); (mk_cm (str "id") T_DINT 1, 64, 32); (mk_cm (str "running") T_BOOL 1, 96, 1); (mk_cm (str "faulted") T_BOOL 1, 97, 1);
    (mk_cm (str "status") T_CHAR 64, 104, 512); (mk_cm (str "stop") T_BOOL 1, 616, 1); (mk_cm (str "run") T_BOOL 1, 617, 1); (mk_cm (str "reload") T_BOOL 1, 618, 1);
    (mk_cm (str "kill") T_BOOL 1, 619, 1) ].
Lemma cmod_is : sys_types = cmod :: tl sys_types /\ c_members cmod = map (fun x => fst (fst x)) pl_mod /\ type_size sys_types module_type = Done 78 /\ checktype sys_types module_type = true.
Proof. repeat split; vm_compute; reflexivity. Qed.
Lemma mod_denotes E s : reachable E s -> denotes s module_type cmod /\ type_size (s_types s) module_type = Done 78.
Proof.
  intros R. destruct (si_types _ _ (reachable_sys _ _ R)) as (x & ->). destruct cmod_is as (A & _ & B & C). split.
  - exists 0. split; [reflexivity|]. destruct (si_types _ _ (reachable_sys _ _ R)) as (y & ->). rewrite A. reflexivity.
  - apply type_size_app; assumption.
Qed.
Lemma lay_mod s : layout (s_types s) (c_members cmod) 78 pl_mod.
Proof.
  split; [lia|]. split; [symmetry; apply cmod_is|]. split.
  - unfold pl_mod. repeat (constructor; [split; [eapply needs_is; [cbn; tauto | reflexivity] | repeat split; cbn; try lia; try discriminate]|]); constructor.
  - unfold pl_mod. repeat constructor; cbn; lia.
Qed.
Lemma mod_member E s a m p l af : reachable E s -> pl_mod = a ++ (m, p, l) :: af -> member_at s module_type a m p.
Proof. intros R Q. destruct (mod_denotes E s R) as (D & T). exists cmod, 78, pl_mod, l, af. split; [exact D|]. split; [exact T|]. split; [apply lay_mod|]. split; [repeat split; cbn; lia | exact Q]. Qed.
Lemma status_member_at E s x q ty w n : reachable E s -> In (x, q, ty, w, n) status_members ->
  validate_name x = 0 /\ In (ty, w) widths /\ 0 < n /\ exists a, member_at s module_type a (mk_cm x ty n) q /\ Forall few_bools a.
Proof.
  intros R I. unfold status_members in I. cbn [In] in I.
  assert (K : forall a m p l af, pl_mod = a ++ (m, p, l) :: af -> Forall few_bools a -> exists a, member_at s module_type a m p /\ Forall few_bools a).
  { intros a m p l af Q F. exists a. split; [eapply mod_member; eassumption | exact F]. }
  assert (Fb : Forall few_bools pl_mod) by (unfold pl_mod, few_bools; repeat constructor; cbn; intros; lia).
  assert (Fn : forall k, Forall few_bools (firstn k pl_mod)) by (intros k; rewrite <- (firstn_skipn k pl_mod) in Fb; apply Forall_app in Fb; tauto).
  repeat (destruct I as [I|I]; [injection I as <- <- <- <- <-; split; [vm_compute; reflexivity|]; split; [cbn; tauto|]; split; [lia|]|]); [| | | | | | | contradiction].
  - eapply (K (firstn 2 pl_mod)); [reflexivity | apply Fn].
  - eapply (K (firstn 3 pl_mod)); [reflexivity | apply Fn].
  - eapply (K (firstn 4 pl_mod)); [reflexivity | apply Fn].
  - eapply (K (firstn 5 pl_mod)); [reflexivity | apply Fn].
  - eapply (K (firstn 6 pl_mod)); [reflexivity | apply Fn].
  - eapply (K (firstn 7 pl_mod)); [reflexivity | apply Fn].
  - eapply (K (firstn 8 pl_mod)); [reflexivity | apply Fn].
Qed.

(** ** Reading the name *)
Definition h_name (n : Z) : handle := mk_h 10 0 0 n n T_CHAR.
Lemma cstr_valid nm r : validate_name nm = 0 -> cstr (nm ++ 0 :: r) = Some nm.
Proof.
  intros V. destruct (valid_plain _ V) as (_ & P & _). rewrite forallb_forall in P. revert P. clear V. induction nm as [|c nm IH]; intros P; [reflexivity|].
  cbn [app cstr]. assert (Q := P c (or_introl eq_refl)). replace (c =? 0) with false by (symmetry; apply Z.eqb_neq; intros ->; discriminate Q). rewrite IH; [reflexivity|]. intros x I. apply P. right. exact I.
Qed.
Lemma name_answer E s fd i nm b : reachable E s -> serves_names s -> own_tag s fd i nm b -> 0 < i -> exists p,
  step E s (OpRead fd 10 0 33) = Done (after s [OResp fd MSG_TAG_READ (nm ++ 0 :: p)]) /\ zlen nm + 1 + zlen p = 33.
Proof.
  intros R (t & Ht & Tv & Td) ((m & Fm & Mi) & u & Hu & Un & _ & _ & _ & _ & Ud) Hi. assert (I := reachable_Inv _ _ R).
  assert (V := it_name _ _ (iv_tags _ I _ _ Hu) _ Un). destruct (valid_plain _ V) as (_ & _ & L). assert (L0 := zlen_nonneg nm).
  set (k := Z.to_nat (zlen nm + 1)). set (r := skipn k (zeros 32)).
  assert (Hd : splice 0 (nm ++ [0]) (zeros 32) = nm ++ 0 :: r).
  { unfold splice. change (firstn (Z.to_nat 0) (zeros 32)) with (@nil Z). cbn [app]. rewrite <- app_assoc. cbn [app]. f_equal. f_equal. unfold r, k. f_equal.
    unfold zlen. rewrite app_length. cbn [length]. lia. }
  assert (Lr : zlen r = 32 - Z.min 32 (zlen nm + 1)) by (unfold r, k, zlen, zeros in *; rewrite skipn_length, repeat_length; lia).
  set (j := jbytes E (s_step s) (zlen (nm ++ 0 :: r)) (33 - zlen (nm ++ 0 :: r))).
  assert (Ld : zlen (nm ++ 0 :: r) = zlen nm + 1 + zlen r) by (unfold zlen; rewrite app_length; cbn [length]; lia).
  assert (Lj : zlen j = 33 - (zlen nm + 1 + zlen r)) by (unfold j; rewrite Ld; rewrite zlen_jbytes; lia).
  exists (r ++ j). split; [|rewrite zlen_app; lia]. unfold step. cbn [handle_op]. unfold h_read, bind, get. cbn iota beta. unfold tag_read. rewrite Ht, Tv, Td, Fm, Mi.
  replace (i =? 0) with false by lia. rewrite Hu, Ud, Un. replace (MSG_DATA_SIZE <? Z.max 32 (zlen nm + 1)) with false by (unfold MSG_DATA_SIZE, DAX_MSGMAX in *; lia).
  rewrite Hd. cbn iota. change ((33 <? 0) || (MSG_DATA_SIZE <? 33)) with false. cbn iota. fold j.
  assert (F : firstn (Z.to_nat 33) ((nm ++ 0 :: r) ++ j) = nm ++ 0 :: r ++ j).
  { rewrite firstn_all2; [rewrite <- app_assoc; reflexivity|]. rewrite app_length. unfold zlen in *. lia. }
  rewrite F. unfold respond. replace (MSG_DATA_SIZE <? zlen (nm ++ 0 :: r ++ j)) with false; [reflexivity|].
  symmetry. apply Z.ltb_ge. unfold zlen in *. rewrite !app_length in *. cbn [length] in *. rewrite app_length. unfold MSG_DATA_SIZE, DAX_MSGMAX. lia.
Qed.
Lemma splice_whole p buf : zlen p = zlen buf -> splice 0 p buf = p.
Proof. intros L. unfold splice. change (firstn (Z.to_nat 0) buf) with (@nil Z). cbn [app]. rewrite skipn_all2; [apply app_nil_r|]. unfold zlen in *. lia. Qed.
Lemma name_read E cc fd s i nm b junk : reachable E s -> serves_names s -> own_tag s fd i nm b -> 0 < i -> zlen junk = 33 -> exists o p,
  dax_tag_read E cc fd s (h_name 33) junk = Done (after s o, nm ++ 0 :: p, 0) /\ reachable E (after s o).
Proof.
  intros R Sn Ow Hi Lj. destruct (name_answer _ _ _ _ _ _ R Sn Ow Hi) as (p & St & Lp). exists [OResp fd MSG_TAG_READ (nm ++ 0 :: p)], p. split; [|exact (reachable_step _ _ _ _ R St)].
  assert (L : zlen (nm ++ 0 :: p) = 33) by (unfold zlen in *; rewrite app_length; cbn [length]; lia).
  unfold dax_tag_read, h_name. cbn [h_size h_index h_byte h_type h_count]. change (MSG_DATA_SIZE <? 33) with false. cbn iota. unfold c_read. change (MSG_DATA_SIZE <? 33) with false. cbn iota. change (s32 0) with 0.
  rewrite (ask_after _ _ _ _ St). cbn [rbind]. rewrite L, Lj. change (in_bounds 0 33 33) with true. cbn iota. cbn [rbind]. rewrite splice_whole by lia. cbn iota.
  change (negb (0 =? 0)) with false. change (T_CHAR =? T_BOOL) with false. cbn iota. unfold read_format. rewrite (base_fmt _ _ _ _ 1) by (rewrite ?L; cbn; lia || tauto). reflexivity.
Qed.

(** ** Finding the member *)
Lemma ready_after E db cc cc' fd s i nm b o : ready E db cc fd s i nm b -> reachable E (after s o) -> agrees s cc' -> ready E db cc' fd (after s o) i nm b.
Proof.
  intros (_ & Fw & Rd & _ & Sn & Ow & Hi & Bl & Nm) R' A. split; [exact R'|]. split; [exact Fw|]. split; [exact Rd|]. split; [exact A|]. split; [exact Sn|]. split; [exact Ow|]. split; [exact Hi|]. split; [exact Bl | exact Nm].
Qed.
Lemma name_handle_of E (db : name -> option ctag) cc s : reachable E s -> few s -> readable s -> agrees s cc -> (exists t, db my_tagname = Some t /\ ct_idx t = 10 /\ ct_type t = T_CHAR /\ ct_count t = 33) ->
  exists cc', tag_handle (s_types s) db cc my_tagname 0 = Done (cc', inl (h_name 33)) /\ agrees s cc'.
Proof.
  intros R Fw Rd A (t & Db & Ti & Tt & Tc).
  destruct (C49_tag E s cc db (mk_seg my_tagname None) t 8 0 R Fw Rd A) as (cc' & h & H1 & H2 & H3 & (P1 & P2 & P3 & P4 & P5 & P6 & P7));
    [split; [vm_compute; reflexivity | cbn; lia] | exact Db | left; rewrite Tt; cbn; tauto | rewrite Tt; constructor; cbn; tauto | lia | lia | lia | lia | cbn; lia|].
  exists cc'. split; [|exact H2]. change (show (mk_seg my_tagname None) []) with (my_tagname ++ []) in H1. rewrite app_nil_r in H1. rewrite H1. f_equal. f_equal. f_equal.
  unfold h_name. destruct h as [hi hb hbit hc hs ht]. cbn [h_index h_byte h_bit h_count h_size h_type idx sg_at] in *. unfold howmany, covers in *. cbn [sg_at cm_count idx Z.eqb] in *. rewrite Tc in *. rewrite Tt in P2.
  change ((8 * 0 + 8 * 33 - 1) / 8 - 8 * 0 / 8 + 1) with 33 in P7. f_equal; lia.
Qed.
Lemma name_handle E db cc fd s i nm b : ready E db cc fd s i nm b -> exists cc', tag_handle (s_types s) db cc my_tagname 0 = Done (cc', inl (h_name 33)) /\ agrees s cc'.
Proof. intros (R & Fw & Rd & A & _ & _ & _ & (B & _) & _). eapply name_handle_of; eassumption. Qed.
Definition h_member (i q ty w n : Z) : handle := mk_h i (q / 8) (q mod 8) n (covers q w n) ty.
Lemma member_handle E db cc fd s i nm b x q ty w n : ready E db cc fd s i nm b -> In (x, q, ty, w, n) status_members -> exists cc',
  tag_handle (s_types s) db cc (nm ++ 46 :: x) 0 = Done (cc', inl (h_member i q ty w n)) /\ agrees s cc'.
Proof.
  intros (R & Fw & Rd & A & _ & (_ & u & Hu & Un & _) & _ & (_ & (t & Db & Ti & Tt & Tc)) & _) I.
  assert (V := it_name _ _ (iv_tags _ (reachable_Inv _ _ R) _ _ Hu) _ Un). destruct (status_member_at E s x q ty w n R I) as (Vx & Wx & Nx & a & Ma & Fb).
  destruct (mod_denotes E s R) as (_ & Sz). assert (Wd : width (s_types s) ty w) by (constructor; exact Wx).
  set (k := mk_walk a (mk_cm x ty n) q (mk_seg x None)).
  assert (Ld : leads s (ct_type t) [k] (q + w * 0)) by (rewrite Tt; exact (leads_here s module_type k w Ma eq_refl Wd)).
  destruct (C49_member_partial E s cc db (mk_seg nm None) t [k] (q + w * 0) w 0 78 R Fw Rd A) as (cc' & h & H1 & H2 & (P1 & P2 & P3 & P4 & P5 & P6 & P7) & P8);
    [split; [exact V | cbn; lia] | exact Db | cbn [sg_at]; lia | exact Ld | exact Wd | lia | unfold last_fits; cbn; lia | | rewrite Tt; exact Sz | rewrite Tc; lia|].
  { cbn [tame]. split; [split; [exact Vx | cbn; lia]|]. split; [exact Fb|]. split; [congruence | trivial]. }
  exists cc'. split; [|exact H2]. unfold k in *. cbn in H1. rewrite !app_nil_r in H1. rewrite H1. f_equal. f_equal. f_equal.
  unfold h_member. destruct h as [hi hb hbit hc hs ht]. cbn [last_walk List.last wk_member wk_seg cm_type sg_at h_index h_byte h_bit h_count h_size h_type idx] in *. unfold howmany in *. cbn [Z.eqb sg_at cm_count] in *.
  replace (8 * 78 * 0 + (q + w * 0)) with q in * by lia. destruct P8 as [P8|(_ & P8 & _)]; [|congruence]. f_equal; lia.
Qed.
Lemma own_member_ok E db cc fd s i nm b x q ty w n junk : ready E db cc fd s i nm b -> In (x, q, ty, w, n) status_members -> zlen junk = 33 -> exists cc' o,
  own_member E db cc fd s junk (46 :: x) = Done (cc', after s o, inl (h_member i q ty w n)) /\ ready E db cc' fd (after s o) i nm b.
Proof.
  intros Rd I Lj. assert (Rd' := Rd). destruct Rd' as (R & _ & _ & _ & Sn & Ow & Hi & _). destruct (name_handle _ _ _ _ _ _ _ _ Rd) as (c1 & H1 & A1).
  destruct (name_read E c1 fd s i nm b junk R Sn Ow Hi Lj) as (o & p & H2 & R2). assert (Rd2 := ready_after _ _ _ _ _ _ _ _ _ _ Rd R2 A1).
  destruct (member_handle _ _ _ _ _ _ _ _ _ _ _ _ _ Rd2 I) as (c2 & H3 & A3). exists c2, o. split; [|exact (ready_after _ _ _ _ _ _ _ _ _ _ Rd R2 A3)].
  destruct Ow as (_ & u & Hu & Un & _). assert (V := it_name _ _ (iv_tags _ (reachable_Inv _ _ R) _ _ Hu) _ Un). destruct (valid_plain _ V) as (_ & _ & L). assert (L0 := zlen_nonneg nm).
  assert (Lx : zlen x <= 10) by (unfold status_members in I; cbn [In] in I; repeat (destruct I as [I|I]; [injection I as <- _ _ _ _; vm_compute; congruence|]); contradiction).
  unfold own_member. rewrite H1. cbn [rbind]. change (255 <? h_size (h_name 33)) with false. cbn iota. rewrite H2. cbn [rbind]. change (negb (0 =? 0)) with false. cbn iota. rewrite cstr_valid by exact V.
  assert (F : firstn 255 (nm ++ 46 :: x) = nm ++ 46 :: x) by (apply firstn_all2; rewrite app_length; cbn [length]; unfold zlen in *; lia). rewrite F. cbv zeta.
  replace (64 <? zlen (nm ++ 46 :: x) + 1) with false by (symmetry; apply Z.ltb_ge; unfold zlen in *; rewrite app_length; cbn [length]; lia). rewrite H3. reflexivity.
Qed.

(** ** Writing to the own tag *)
Lemma own_special s fd i nm b t off n : own_tag s fd i nm b -> znth (s_db s) i = Some t -> 12 <= off -> (if has (t_attr t) A_SPECIAL then special_write s fd i t off n else 0) = 0.
Proof.
  intros ((m & F & Mi) & u & Hu & _ & Ty & _) Ht Ho. assert (u = t) by congruence. subst u. destruct (has (t_attr t) A_SPECIAL); [|reflexivity].
  unfold special_write. replace (t_type t =? module_type) with true by lia. destruct ((off =? 77) && (n =? 1)); [reflexivity|]. rewrite F. replace (m_tagidx m =? i) with true by lia. cbn [negb].
  replace (off <? 12) with false by lia. reflexivity.
Qed.
Lemma own_mask E s fd i nm b off d m s' : reachable E s -> own_tag s fd i nm b -> 12 <= off -> off + zlen d <= zlen b -> zlen b < 2147483648 ->
  step E s (OpMask fd i off d m) = Done s' -> answered s s' (OResp fd MSG_TAG_MWRITE []).
Proof.
  intros R Ow H0 H1 H2 H. assert (I := reachable_Inv _ _ R). assert (Ow' := Ow). destruct Ow' as (_ & t & Ht & _ & Ty & _ & Tv & Ro & D).
  apply step_inv in H as (s1 & u & H & ->). cbn [handle_op] in H. unfold h_mask in H. inv1 H. inv1 H. inv1 H.
  rewrite (attr_at_znth _ _ _ _ Ht) in Hr. injection Hr as <-. rewrite Ro in Hm. assert (Ev := tag_mask_write_evout _ _ _ _ _ _ _ _ _ Hm).
  assert (v0 = 0).
  { unfold tag_mask_write in Hm. rewrite (attr_at_znth _ _ _ _ Ht) in Hm. cbn [rbind] in Hm. rewrite Tv, Ht in Hm. assert (Nd := zlen_nonneg d). replace (fits32 (off + zlen d)) with true in Hm by (unfold fits32; lia). cbn [negb] in Hm.
    rewrite (stored_size _ _ _ _ I Ht D) in Hm. cbn [rbind] in Hm. rewrite s32_small in Hm by lia. replace (zlen b <? off + zlen d) with false in Hm by lia.
    rewrite D in Hm. rewrite (own_special _ _ _ _ _ _ _ _ Ow Ht H0) in Hm. cbv zeta in Hm. change (negb (0 =? 0)) with false in Hm. cbn iota in Hm.
    destruct (negb (in_bounds off (zlen d) (zlen b)) || (zlen m <? zlen d)); [discriminate|].
    match type of Hm with match ?X with _ => _ end = _ => destruct X as [[x y]|]; congruence end. }
  subst v0. cbn [Z.eqb negb] in H. inv1 H. rewrite zlen_nil_resp in H. injection H as <- _.
  apply answered_step, answered_resp. eapply evout_trans; [exact Ev | eapply map_check_evout; eassumption].
Qed.
Lemma own_write E s fd i nm b off d s' : reachable E s -> own_tag s fd i nm b -> 12 <= off -> off + zlen d <= zlen b -> zlen b < 2147483648 ->
  step E s (OpWrite fd i off d) = Done s' -> answered s s' (OResp fd MSG_TAG_WRITE []).
Proof.
  intros R Ow H0 H1 H2 H. assert (I := reachable_Inv _ _ R). assert (Ow' := Ow). destruct Ow' as (_ & t & Ht & _ & Ty & _ & Tv & Ro & D).
  apply step_inv in H as (s1 & u & H & ->). cbn [handle_op] in H. unfold h_write in H. inv1 H. inv1 H. inv1 H.
  rewrite (attr_at_znth _ _ _ _ Ht) in Hr. injection Hr as <-. rewrite Ro in Hm. cbn [andb] in Hm. assert (Ev := tag_write_evout _ _ _ _ _ _ _ _ Hm).
  assert (v0 = 0).
  { unfold tag_write in Hm. rewrite Ht, Tv in Hm. assert (Nd := zlen_nonneg d). replace (fits32 (off + zlen d)) with true in Hm by (unfold fits32; lia). cbn [negb] in Hm.
    rewrite (stored_size _ _ _ _ I Ht D) in Hm. cbn [rbind] in Hm. rewrite s32_small in Hm by lia. replace (zlen b <? off + zlen d) with false in Hm by lia.
    rewrite D in Hm. rewrite (own_special _ _ _ _ _ _ _ _ Ow Ht H0) in Hm. cbv zeta in Hm. change (negb (0 =? 0)) with false in Hm. cbn iota in Hm.
    replace (in_bounds off (zlen d) (zlen b)) with true in Hm by (symmetry; apply in_bounds_iff; lia). cbn [negb] in Hm.
    match type of Hm with match ?X with _ => _ end = _ => destruct X as [[x y]|]; congruence end. }
  subst v0. cbn [Z.eqb negb] in H. inv1 H. rewrite zlen_nil_resp in H. injection H as <- _.
  apply answered_step, answered_resp. eapply evout_trans; [exact Ev | eapply map_check_evout; eassumption].
Qed.
Lemma answer_of E s o s' r fd c : answered s s' (OResp fd c []) -> ask E s o = Done (s', r) -> r = inl [].
Proof.
  intros (ev & Ho & _) H. unfold ask in H. apply rbind_done in H as (x & Hx & H). injection H as -> <-. rewrite Ho, !rev_app_distr. reflexivity.
Qed.
Lemma own_size E s fd i nm b : reachable E s -> own_tag s fd i nm b -> zlen b = 78.
Proof.
  intros R (_ & t & Ht & _ & Ty & Tc & _ & _ & D). assert (Q := it_bytes _ _ (iv_tags _ (reachable_Inv _ _ R) _ _ Ht) _ D). unfold new_size in Q. rewrite Ty, Tc in Q.
  change (module_type =? T_BOOL) with false in Q. cbn iota in Q. rewrite (proj2 (mod_denotes _ _ R)) in Q. cbn [rbind] in Q. change (u32 (78 * 1)) with 78 in Q. congruence.
Qed.
(** the tag is still the module's own, with new contents *)
Lemma own_only s s' fd i nm b b' : own_tag s fd i nm b -> only_data s s' i -> stored s' i b' -> own_tag s' fd i nm b'.
Proof.
  intros ((m & F & Mi) & t & Ht & Tn & Ty & Tc & Tv & Ro & D) (_ & _ & O3 & O4) (t2 & Ht2 & _ & D2). injection O4 as _ _ _ _ _ O4 _. split.
  - exists m. split; [unfold find_mod in *; rewrite O4; exact F | exact Mi].
  - destruct (O3 _ Ht) as (t' & Ht' & Q & _). injection Q as Q1 Q2 Q3 Q4 _ _ _. assert (t2 = t') by congruence. subst t2. exists t'. repeat split; congruence.
Qed.
Lemma ready_only E db cc fd s s' i nm b b' : ready E db cc fd s i nm b -> only_data s s' i -> stored s' i b' -> reachable E s' -> ready E db cc fd s' i nm b'.
Proof.
  intros (R & Fw & Rd & A & (tn & Sn1 & Sn2) & Ow & Hi & Bl & Nm) O S R'. assert (O' := O). destruct O' as (O1 & _ & O3 & O4). injection O4 as _ O4 _ _ _ _ _.
  split; [exact R'|]. split; [unfold few; rewrite O4; exact Fw|]. split; [unfold readable, denotes in *; rewrite O4; exact Rd|]. split; [unfold agrees in *; rewrite O4; exact A|].
  split; [|split; [eapply own_only; eassumption|]; split; [exact Hi|]; split; [exact Bl|]].
  - destruct (Z.eq_dec 10 i) as [Q|Q].
    + exfalso. destruct Sn2 as [_ Sn2]. destruct Ow as (_ & t & Ht & _ & _ & _ & _ & _ & D). rewrite <- Q in Ht. congruence.
    + exists tn. rewrite O1 by exact Q. auto.
  - intros t' Ht'. destruct Ow as (_ & t & Ht & _). destruct (O3 _ Ht) as (t2 & Ht2 & _ & Q & _). injection Q as Q _ _ _. assert (t2 = t') by congruence. subst t2. rewrite Q. apply Nm. exact Ht.
Qed.

(** ** Flags and status *)
(** the tag holds [b'] instead of [b]: bit [q] is [v], nothing else has changed *)
Definition flag_is (q : Z) (v : bool) (b b' : list Z) : Prop := zlen b' = zlen b /\ forall k, 0 <= k < 8 * zlen b -> bit b' k = if k =? q then v else bit b k.
Lemma bool_place x q w n : In (x, q, T_BOOL, w, n) status_members -> w = 1 /\ n = 1 /\ 96 <= q < 624 /\ covers q w n = 1.
Proof. intros I. unfold status_members in I. cbn [In] in I. repeat (destruct I as [I|I]; [first [discriminate I | inversion I; subst; repeat split; try reflexivity; lia]|]). contradiction. Qed.
Lemma bit_one v : bit [v] 0 = Z.testbit v 0.
Proof. reflexivity. Qed.
Lemma write_flag E db cc fd s i nm b x q v s' e : ready E db cc fd s i nm b -> In (x, q, T_BOOL, 1, 1) status_members ->
  dax_tag_write E cc fd s (h_member i q T_BOOL 1 1) [v] = Done (s', e) ->
  e = 0 /\ only_data s s' i /\ exists b', flag_is q (Z.testbit v 0) b b' /\ ready E db cc fd s' i nm b'.
Proof.
  intros Rd I H. assert (Rd' := Rd). destruct Rd' as (R & _ & _ & _ & _ & Ow & Hi & _ & Nm). assert (Lb := own_size _ _ _ _ _ _ R Ow). destruct (bool_place _ _ _ _ I) as (_ & _ & Q & Cv).
  assert (S : stored s i b) by (destruct Ow as (_ & t & Ht & _ & _ & _ & Tv & _ & D); exists t; auto).
  assert (E0 : e = 0 /\ reachable E s').
  { clear Rd. unfold dax_tag_write in H. replace (bits_path (h_member i q T_BOOL 1 1)) with true in H by (unfold bits_path, h_member; cbn [h_type h_bit h_count]; change (1 mod 8 =? 0) with false; cbn; rewrite orb_true_r; reflexivity).
    unfold write_bits in H. cbn [h_member h_size h_bit h_count h_index h_byte] in H. rewrite Cv in H. change (1 mod 8 =? 0) with false in H. rewrite andb_false_r in H. change (1 + 0) with 1 in H. cbv zeta in H.
    apply rbind_done in H as (nd & E1 & H). apply rbind_done in H as (mk & E2 & H). change (2040 <? 1) with false in H. cbn iota in H. unfold c_mask in H.
    change (MSG_DATA_SIZE <? 1 * 2 + 8) with false in H. cbn iota in H. destruct (in_bounds 0 1 (zlen nd)) eqn:B1; [|discriminate]. destruct (in_bounds 0 1 (zlen mk)) eqn:B2; [|discriminate]. cbn [andb negb] in H.
    apply rbind_done in H as ((s1 & r) & A & H). assert (A' := A). unfold ask in A'. apply rbind_done in A' as (s2 & St & A'). injection A' as -> _. rewrite s32_small in St, A by lia.
    assert (L1 := zlen_slice _ _ _ B1). assert (An := own_mask E s fd i nm b (q / 8) _ _ s1 R Ow ltac:(lia) ltac:(rewrite L1, Lb; lia) ltac:(lia) St). rewrite (answer_of _ _ _ _ _ _ _ An A) in H.
    injection H as <- <-. split; [reflexivity | exact (reachable_step _ _ _ _ R St)]. }
  destruct E0 as [-> R']. split; [reflexivity|].
  destruct (C47_write_bits_partial E cc fd s (h_member i q T_BOOL 1 1) [v] b s' 0 R S Nm) as [(_ & O & b' & S' & L' & K)|(N & _)]; cbn [h_member h_type h_bit h_count h_size h_byte h_index]; rewrite ?Cv; try lia; try reflexivity.
  - unfold inside. cbn [h_member h_byte h_size]. rewrite Cv. lia.
  - change (zlen [v]) with 1. lia.
  - unfold sent_size. cbn [h_member h_size h_bit h_count]. rewrite Cv. change (1 mod 8 =? 0) with false. rewrite andb_false_r. lia.
  - exact H.
  - cbn [h_member h_index h_byte h_bit h_count] in *. split; [exact O|]. exists b'. split; [split; [exact L'|] | eapply ready_only; eassumption].
    intros k Hk. rewrite (K k Hk). replace (8 * (q / 8) + q mod 8) with q by lia. destruct (k =? q) eqn:X.
    + assert (k = q) by lia. subst k. replace ((q <=? q) && (q <? q + 1)) with true by lia. rewrite Z.sub_diag. apply bit_one.
    + replace ((q <=? k) && (k <? q + 1)) with false by lia. reflexivity.
Qed.
Lemma only_after s o s' i : only_data (after s o) s' i -> only_data s s' i.
Proof. intros H. exact H. Qed.
Lemma put_flag E db cc fd s i nm b x q v junk cc' s' e : ready E db cc fd s i nm b -> In (x, q, T_BOOL, 1, 1) status_members -> zlen junk = 33 ->
  put_member E db cc fd s junk (46 :: x) (fun _ => [v]) = Done (cc', s', e) ->
  e = 0 /\ only_data s s' i /\ exists b', flag_is q (Z.testbit v 0) b b' /\ ready E db cc' fd s' i nm b'.
Proof.
  intros Rd I Lj H. unfold put_member in H. destruct (own_member_ok _ _ _ _ _ _ _ _ _ _ _ _ _ _ Rd I Lj) as (c1 & o & H1 & Rd1). rewrite H1 in H. cbn [rbind] in H.
  apply rbind_done in H as ((s2 & e2) & H2 & H). cbn iota in H. injection H as <- <- <-. destruct (write_flag _ _ _ _ _ _ _ _ _ _ _ _ _ Rd1 I H2) as (-> & O & b' & F & Rd2).
  split; [reflexivity|]. split; [exact (only_after _ _ _ _ O)|]. exists b'. auto.
Qed.
Lemma znth_zero n k : 0 <= k < n -> znth (zeros n) k = Some 0.
Proof.
  intros H. destruct (znth (zeros n) k) eqn:Q.
  - unfold zeros, znth in Q. destruct (_ && _) in Q; [|discriminate]. apply nth_error_In, repeat_spec in Q. subst. reflexivity.
  - apply znth_none in Q. unfold zlen, zeros in Q. rewrite repeat_length in Q. lia.
Qed.
Definition h_status (i : Z) : handle := mk_h i 13 0 64 64 T_CHAR.
Lemma status_handle i : h_member i 104 T_CHAR 8 64 = h_status i.
Proof. reflexivity. Qed.
Lemma status_len val i : zlen (status_bytes val (h_status i)) = 64.
Proof. unfold status_bytes, zlen. cbn [h_status h_size]. rewrite firstn_length, app_length. unfold zeros. rewrite repeat_length. lia. Qed.
Lemma write_status E db cc fd s i nm b d s' e : ready E db cc fd s i nm b -> zlen d = 64 ->
  dax_tag_write E cc fd s (h_status i) d = Done (s', e) -> e = 0 /\ only_data s s' i /\ ready E db cc fd s' i nm (splice 13 d b).
Proof.
  intros Rd Ld H. assert (Rd' := Rd). destruct Rd' as (R & _ & _ & _ & _ & Ow & Hi & _ & Nm). assert (Lb := own_size _ _ _ _ _ _ R Ow).
  assert (S : stored s i b) by (destruct Ow as (_ & t & Ht & _ & _ & _ & Tv & _ & D); exists t; auto).
  assert (E0 : e = 0 /\ reachable E s').
  { clear Rd. unfold dax_tag_write in H. change (bits_path (h_status i)) with false in H. cbn iota in H. cbn [h_status h_size h_index h_byte h_type h_count] in H.
    apply rbind_done in H as (w & Hw & H). unfold write_format in Hw. rewrite (base_fmt true _ _ _ 1) in Hw by (rewrite ?Ld; cbn; lia || tauto). injection Hw as <-. change (negb (0 =? 0)) with false in H. change (4080 <? 64) with false in H. cbn iota in H.
    unfold c_write in H. change (MSG_DATA_SIZE <? 64 + 8) with false in H. cbn iota in H. rewrite Ld in H. change (negb (in_bounds 0 64 64)) with false in H. cbn iota in H.
    apply rbind_done in H as ((s1 & r) & A & H). assert (A' := A). unfold ask in A'. apply rbind_done in A' as (s2 & St & A'). injection A' as -> _. change (s32 13) with 13 in St, A.
    assert (L1 : zlen (slice 0 64 d) = 64) by (apply zlen_slice; rewrite Ld; reflexivity).
    assert (An := own_write E s fd i nm b 13 _ s1 R Ow ltac:(lia) ltac:(rewrite L1, Lb; lia) ltac:(lia) St). rewrite (answer_of _ _ _ _ _ _ _ An A) in H.
    injection H as <- <-. split; [reflexivity | exact (reachable_step _ _ _ _ R St)]. }
  destruct E0 as [-> R']. split; [reflexivity|].
  destruct (C45_write E cc fd s (h_status i) d b s' R S Nm) as (_ & O & S'); [lia | unfold inside; cbn; lia | left; cbn; discriminate | exact H|]. cbn [h_status h_index h_byte h_size] in *.
  split; [exact O|]. assert (Q : slice 0 64 d = d) by (unfold slice; cbn [skipn Z.to_nat]; apply firstn_all2; unfold zlen in Ld; lia). rewrite Q in S'. eapply ready_only; eassumption.
Qed.

(** ** C136 *)
(** dax_set_running and dax_set_faulted, called by a connected module, succeed; exactly the named bit of the
    module's own tag takes the wanted value and nothing else in the tag server changes. *)
Theorem C136_running : forall E db cc fd s i nm b junk val cc' s' e,
  ready E db cc fd s i nm b -> zlen junk = 33 -> dax_set_running E db cc fd s junk val = Done (cc', s', e) ->
  e = 0 /\ only_data s s' i /\ exists b', flag_is 96 (negb (val =? 0)) b b' /\ ready E db cc' fd s' i nm b'.
Proof.
  intros E db cc fd s i nm b junk val cc' s' e Rd Lj H. destruct (put_flag E db cc fd s i nm b (str "running") 96 (if val =? 0 then 0 else 1) junk cc' s' e Rd ltac:(cbn; tauto) Lj H) as (E0 & O & b' & F & Rd').
  split; [exact E0|]. split; [exact O|]. exists b'. split; [|exact Rd']. destruct (val =? 0); exact F.
Qed.
Theorem C136_faulted : forall E db cc fd s i nm b junk val cc' s' e,
  ready E db cc fd s i nm b -> zlen junk = 33 -> dax_set_faulted E db cc fd s junk val = Done (cc', s', e) ->
  e = 0 /\ only_data s s' i /\ exists b', flag_is 97 (negb (val =? 0)) b b' /\ ready E db cc' fd s' i nm b'.
Proof.
  intros E db cc fd s i nm b junk val cc' s' e Rd Lj H. destruct (put_flag E db cc fd s i nm b (str "faulted") 97 (if val =? 0 then 0 else 1) junk cc' s' e Rd ltac:(cbn; tauto) Lj H) as (E0 & O & b' & F & Rd').
  split; [exact E0|]. split; [exact O|]. exists b'. split; [|exact Rd']. destruct (val =? 0); exact F.
Qed.

(** ** C137 *)
(** dax_set_status succeeds: the first 64 characters of the text, filled up with zeros, are in the 64 bytes of the
    status member, nothing else changes.  A text of up to 63 characters is then found there as a C string; a longer
    one has no terminator inside the member. *)
Definition text (l : name) : Prop := forall c, In c l -> c <> 0.
Theorem C137_status : forall E db cc fd s i nm b junk val cc' s' e,
  ready E db cc fd s i nm b -> zlen junk = 33 -> text val -> dax_set_status E db cc fd s junk val = Done (cc', s', e) ->
  e = 0 /\ only_data s s' i /\ exists b', ready E db cc' fd s' i nm b' /\ zlen b' = zlen b /\
    (forall k, znth b' k = if (13 <=? k) && (k <? 77) then Some (if k - 13 <? zlen val then nthb val (k - 13) else 0) else znth b k) /\
    (zlen val < 64 -> cstr (slice 13 64 b') = Some val) /\ (64 <= zlen val -> cstr (slice 13 64 b') = None).
Proof.
  intros E db cc fd s i nm b junk val cc' s' e Rd Lj Tx H. unfold dax_set_status, put_member in H.
  destruct (own_member_ok E db cc fd s i nm b (str "status") 104 T_CHAR 8 64 junk Rd ltac:(cbn; tauto) Lj) as (c1 & o & H1 & Rd1). change (46 :: str "status") with (str ".status") in H1.
  rewrite H1 in H. cbn [rbind] in H. rewrite status_handle in H. apply rbind_done in H as ((s2 & e2) & H2 & H). cbn iota in H. injection H as <- <- <-.
  assert (Ld := status_len val i). set (d := status_bytes val (h_status i)) in *. destruct (write_status _ _ _ _ _ _ _ _ _ _ _ Rd1 Ld H2) as (-> & O & Rd2).
  split; [reflexivity|]. split; [exact (only_after _ _ _ _ O)|]. exists (splice 13 d b). split; [exact Rd2|].
  destruct Rd as (R & _ & _ & _ & _ & Ow & _). assert (Lb := own_size _ _ _ _ _ _ R Ow). assert (B : in_bounds 13 (zlen d) (zlen b) = true) by (rewrite Ld, Lb; reflexivity).
  assert (N0 := zlen_nonneg val). assert (Hd : forall k, 0 <= k < 64 -> znth d k = Some (if k <? zlen val then nthb val k else 0)).
  { intros k Hk. unfold d, status_bytes. cbn [h_status h_size]. rewrite znth_firstn by lia. destruct (k <? zlen val) eqn:Q.
    - rewrite znth_app1 by lia. unfold nthb, znth. replace ((0 <=? k) && (k <? zlen val)) with true by lia. apply nth_error_nth'. unfold zlen in Q. lia.
    - rewrite znth_app2 by lia. apply znth_zero. lia. }
  split; [apply zlen_splice; exact B|]. split; [|assert (Sl : slice 13 64 (splice 13 d b) = d) by (rewrite <- Ld; apply slice_splice_same; exact B); rewrite Sl; split].
  - intros k. destruct (k <? 0) eqn:Neg; [unfold znth; replace ((13 <=? k) && (k <? 77)) with false by lia; replace (0 <=? k) with false by lia; reflexivity|]. rewrite znth_splice by (exact B || lia). rewrite Ld. change (13 + 64) with 77. destruct ((13 <=? k) && (k <? 77)) eqn:Q; [|reflexivity]. apply Hd. lia.
  - intros L. unfold d, status_bytes. cbn [h_status h_size]. rewrite firstn_app, firstn_all2 by (unfold zlen in *; lia).
    replace (Z.to_nat 64 - length val)%nat with (Datatypes.S (63 - length val)) by (unfold zlen in *; lia). change (zeros 64) with (0 :: zeros 63). cbn [firstn].
    generalize (firstn (63 - length val) (zeros 63)). intros z. clear -Tx. induction val as [|c v IH]; [reflexivity|]. cbn [app cstr]. replace (c =? 0) with false by (symmetry; apply Z.eqb_neq; apply Tx; left; reflexivity). rewrite IH; [reflexivity|]. intros x I. apply Tx. right. exact I.
  - intros L. unfold d, status_bytes. cbn [h_status h_size]. rewrite firstn_app. replace (Z.to_nat 64 - length val)%nat with 0%nat by (unfold zlen in *; lia). cbn [firstn]. rewrite app_nil_r.
    clear -Tx. revert Tx. generalize (Z.to_nat 64) as n. induction val as [|c v IH]; intros n Tx; destruct n; try reflexivity. cbn [firstn cstr]. replace (c =? 0) with false by (symmetry; apply Z.eqb_neq; apply Tx; left; reflexivity).
    rewrite IH; [reflexivity|]. intros x I. apply Tx. right. exact I.
Qed.

(** ** C138 *)
(** the default actions: the command bit is cleared (so that it can be given again) and "running" follows; nothing
    else in the tag server changes *)
Lemma clear_ok E db cc fd s i nm b x q junk next cc' s' : ready E db cc fd s i nm b -> In (x, q, T_BOOL, 1, 1) status_members -> zlen junk = 33 ->
  clear_member E db cc fd s junk (46 :: x) next = Done (cc', s') ->
  exists c1 s1 b1 e, flag_is q false b b1 /\ only_data s s1 i /\ ready E db c1 fd s1 i nm b1 /\ next c1 s1 = Done (cc', s', e).
Proof.
  intros Rd I Lj H. unfold clear_member in H. destruct (own_member_ok _ _ _ _ _ _ _ _ _ _ _ _ _ _ Rd I Lj) as (c1 & o & H1 & Rd1). rewrite H1 in H. cbn [rbind] in H.
  apply rbind_done in H as ((s2 & e2) & H2 & H). cbn [fst] in H. apply rbind_done in H as (((c3 & s3) & e3) & H3 & H). cbn iota in H. injection H as <- <-.
  destruct (write_flag _ _ _ _ _ _ _ _ _ _ _ _ _ Rd1 I H2) as (-> & O & b' & F & Rd2). exists c1, s2, b', e3. split; [exact F|]. split; [exact (only_after _ _ _ _ O)|]. auto.
Qed.
Definition flags_are (q1 : Z) (v1 : bool) (q2 : Z) (v2 : bool) (b b' : list Z) : Prop :=
  zlen b' = zlen b /\ forall k, 0 <= k < 8 * zlen b -> bit b' k = if k =? q1 then v1 else if k =? q2 then v2 else bit b k.
Lemma flags_two q1 v1 q2 v2 b b1 b2 : q1 <> q2 -> flag_is q1 v1 b b1 -> flag_is q2 v2 b1 b2 -> flags_are q1 v1 q2 v2 b b2.
Proof.
  intros D (L1 & F1) (L2 & F2). split; [lia|]. intros k K. rewrite F2 by lia. rewrite F1 by lia. destruct (k =? q1) eqn:Q1; destruct (k =? q2) eqn:Q2; try reflexivity. lia.
Qed.
Theorem C138_run : forall E db cc fd s i nm b junk junk' cc' s',
  ready E db cc fd s i nm b -> zlen junk = 33 -> zlen junk' = 33 -> dax_default_run E db cc fd s junk junk' = Done (cc', s') ->
  only_data s s' i /\ exists b', flags_are 617 false 96 true b b' /\ ready E db cc' fd s' i nm b'.
Proof.
  intros E db cc fd s i nm b junk junk' cc' s' Rd L1 L2 H. destruct (clear_ok E db cc fd s i nm b (str "run") 617 junk _ cc' s' Rd ltac:(cbn; tauto) L1 H) as (c1 & s1 & b1 & e & F & O & Rd1 & H1).
  destruct (C136_running _ _ _ _ _ _ _ _ _ _ _ _ _ Rd1 L2 H1) as (_ & O2 & b2 & F2 & Rd2). split; [eapply only_data_trans; eassumption|]. exists b2. split; [|exact Rd2]. eapply flags_two; [discriminate | exact F | exact F2].
Qed.
Theorem C138_stop : forall E db cc fd s i nm b junk junk' cc' s',
  ready E db cc fd s i nm b -> zlen junk = 33 -> zlen junk' = 33 -> dax_default_stop E db cc fd s junk junk' = Done (cc', s') ->
  only_data s s' i /\ exists b', flags_are 616 false 96 false b b' /\ ready E db cc' fd s' i nm b'.
Proof.
  intros E db cc fd s i nm b junk junk' cc' s' Rd L1 L2 H. destruct (clear_ok E db cc fd s i nm b (str "stop") 616 junk _ cc' s' Rd ltac:(cbn; tauto) L1 H) as (c1 & s1 & b1 & e & F & O & Rd1 & H1).
  destruct (C136_running _ _ _ _ _ _ _ _ _ _ _ _ _ Rd1 L2 H1) as (_ & O2 & b2 & F2 & Rd2). split; [eapply only_data_trans; eassumption|]. exists b2. split; [|exact Rd2]. eapply flags_two; [discriminate | exact F | exact F2].
Qed.
Theorem C138_kill : forall E db cc fd s i nm b junk cc' s',
  ready E db cc fd s i nm b -> zlen junk = 33 -> dax_default_kill E db cc fd s junk = Done (cc', s') ->
  only_data s s' i /\ exists b', flag_is 619 false b b' /\ ready E db cc' fd s' i nm b'.
Proof.
  intros E db cc fd s i nm b junk cc' s' Rd L1 H. destruct (clear_ok E db cc fd s i nm b (str "kill") 619 junk _ cc' s' Rd ltac:(cbn; tauto) L1 H) as (c1 & s1 & b1 & e & F & O & Rd1 & H1).
  injection H1 as <- <- _. split; [exact O|]. exists b1. auto.
Qed.

(** ** C139 *)
(** event [e] tells module [fd] when bit [q] of tag [i] becomes set *)
Definition listens (s : server) (fd i q : Z) (e : event) : Prop :=
  exists t m, znth (s_db s) i = Some t /\ In e (t_events t) /\ registrant s e m /\ m_fd m = fd /\
    e_etype e = EV_SET /\ 0 <= e_byte e /\ 0 <= e_bit e < 8 /\ 8 * e_byte e + e_bit e = q /\ e_count e = 1 /\ e_size e = 1 /\ e_opts e = 0.
Lemma writing_only E s fd i off n b b' o a s' : reachable E s -> writing s fd i off n b b' o a -> no_mapping s i -> step E s o = Done s' -> answered s s' a -> only_data s s' i /\ stored s' i b' /\ zlen b' = zlen b.
Proof.
  intros R W N H A. assert (M : maps_avoid s i i) by (intros t l Ht Hl; rewrite (N _ Ht) in Hl; injection Hl as <-; constructor). destruct W as [d S Ln Eb | d m S Ln Eb]; subst.
  - destruct (C05_write_exact _ _ _ _ _ _ _ _ R S N H A) as (O & b1 & S1 & L1 & _). destruct (C04_write_stores _ _ _ _ _ _ _ _ R S M H A) as (Bd & St). split; [exact O|]. split; [exact St|]. apply zlen_splice. exact Bd.
  - destruct (C04_mask_stores _ _ _ _ _ _ _ _ _ R S M H A) as (Bd & Lm & St). split; [|split; [exact St|]].
    + apply mask_ok in H as (s1 & s2 & H1 & H2 & ->); [|exact A].
      assert (W := tag_mask_write_maps _ _ _ _ _ _ _ _ _ i H1). assert (N1 : no_mapping s1 i).
      { intros t Ht. destruct S as (t0 & T1 & _). destruct (W _ T1) as (t1 & A1 & A2). rewrite (N _ T1) in A2. congruence. }
      apply no_mapping_check in H2; [|exact N1]. subst s2. apply Prop_Data.only_after.
      apply tag_mask_write_cases in H1. destruct S as (t0 & T1 & T2 & T3). inversion H1; subst; [lia|].
      apply committed_only; [assumption|]. eapply check_events_same; eassumption.
    + apply zlen_splice. rewrite zlen_mix; rewrite !(zlen_slice _ _ _ Bd); first [exact Bd | lia].
Qed.
Lemma own_event E s fd i nm b q s' p : reachable E s -> own_tag s fd i nm b -> 96 <= q < 624 -> ask E s (OpEvAdd fd (h_member i q T_BOOL 1 1) EV_SET []) = Done (s', inl p) ->
  exists e, listens s' fd i q e /\ p = le_bytes 4 (e_id e) /\ remembers e 0 = false.
Proof.
  intros R Ow Hq H. assert (Lb := own_size _ _ _ _ _ _ R Ow). destruct Ow as ((m & F & Mi) & t & Ht & _ & _ & _ & Tv & _ & D).
  unfold ask in H. apply rbind_done in H as (s0 & H & A). injection A as -> A.
  apply step_inv in H as (s1 & u & H & ->). cbn [handle_op] in H. inv1 H. inv1 H. cbn [set_step s_out] in A.
  unfold reply_int in H. rewrite F in Hm.
  apply event_add_cases in Hm as [[-> Hr]|(t2 & x & Ht2 & -> & Hx & ->)].
  - exfalso. replace (v <? 0) with true in H by lia. unfold reply_err, emit, modify in H. injection H as <- _. cbn [set_out s_out] in A. rewrite rev_app_distr in A. discriminate.
  - cbn [h_member h_index] in Ht2. assert (t2 = t) by congruence. subst t2. set (sx := upd_mod _ _ _) in *.
    destruct (t_nextev t <? 0).
    { exfalso. unfold reply_err, emit, modify in H. injection H as <- _. cbn [set_out s_out] in A. rewrite rev_app_distr in A. discriminate. }
    unfold respond in H. replace (MSG_DATA_SIZE <? zlen (le_bytes 4 (t_nextev t))) with false in H by (rewrite zlen_le_bytes; reflexivity).
    unfold emit, modify in H. inversion H. subst s1. clear H. cbn [set_out s_out] in A. rewrite rev_app_distr in A. cbn [rev app] in A. injection A as Z.
    apply find_some in F as F'. destruct F' as [F1 F2].
    eexists. split; [|split].
    + eexists _, (set_evcount m (m_evcount m + 1)). split; [cbn; apply znth_zset_eq; eapply znth_range; exact Ht|]. split; [cbn [t_events set_attr set_nextev set_events]; left; reflexivity|].
      cbn [e_etype e_byte e_bit e_count e_size e_opts h_member h_byte h_bit h_count h_size]. rewrite !s32_small by lia. split; [|split; [cbn; lia|]; split; [reflexivity|]; split; [lia|]; split; [lia|]; split; [lia|]; split; [reflexivity|]; split; [|reflexivity]; unfold covers; lia].
      split; [|reflexivity]. cbn. apply in_map_iff. exists m. rewrite Z.eqb_refl. auto.
    + cbn [e_id]. symmetry. exact Z.
    + cbn [h_type h_count h_member] in Hx. unfold set_event_data in Hx. cbv zeta in Hx. change (EV_SET =? EV_CHANGE) with false in Hx. change (EV_SET =? EV_DEADBAND) with false in Hx. change ((EV_SET =? EV_SET) || _) with true in Hx. cbn iota in Hx. injection Hx as <-.
      unfold remembers. cbn [e_test e_bit h_member h_bit snd]. apply bit_zeros.
Qed.
(** a successful dax_set_*_callback leaves an event of this module which watches exactly the command bit, has not seen it set yet, and
    is answered with the number of this event *)
Theorem C139_registered : forall E db cc fd s i nm b x q junk cc' s' p,
  ready E db cc fd s i nm b -> In (x, q) [(str ".run", 617); (str ".stop", 616); (str ".kill", 619)] -> zlen junk = 33 ->
  dax_set_callback E db cc fd s junk x = Done (cc', s', inl p) ->
  exists e, listens s' fd i q e /\ p = le_bytes 4 (e_id e) /\ remembers e 0 = false.
Proof.
  intros E db cc fd s i nm b x q junk cc' s' p Rd I Lj H. unfold dax_set_callback in H.
  assert (exists y, x = 46 :: y /\ In (y, q, T_BOOL, 1, 1) status_members /\ 96 <= q < 624) as (y & -> & M & Hq).
  { cbn [In] in I. destruct I as [I|[I|[I|[]]]]; inversion I; subst; eexists; (split; [reflexivity|]; split; [cbn; tauto | lia]). }
  destruct (own_member_ok _ _ _ _ _ _ _ _ _ _ _ _ _ _ Rd M Lj) as (c1 & o & H1 & Rd1). rewrite H1 in H. cbn [rbind] in H. apply rbind_done in H as ((s2 & a) & H2 & H). cbn iota in H. injection H as <- <- ->.
  destruct Rd1 as (R & _ & _ & _ & _ & Ow & _). exact (own_event E _ fd i nm b q _ p R Ow Hq H2).
Qed.
(** each of the three functions watches its own command *)
Theorem C139_commands : forall E db cc fd s i nm b junk cc' s' p, ready E db cc fd s i nm b -> zlen junk = 33 ->
  (dax_set_run_callback E db cc fd s junk = Done (cc', s', inl p) -> exists e, listens s' fd i 617 e /\ p = le_bytes 4 (e_id e) /\ remembers e 0 = false) /\
  (dax_set_stop_callback E db cc fd s junk = Done (cc', s', inl p) -> exists e, listens s' fd i 616 e /\ p = le_bytes 4 (e_id e) /\ remembers e 0 = false) /\
  (dax_set_kill_callback E db cc fd s junk = Done (cc', s', inl p) -> exists e, listens s' fd i 619 e /\ p = le_bytes 4 (e_id e) /\ remembers e 0 = false).
Proof. intros E db cc fd s i nm b junk cc' s' p Rd Lj. split; [|split]; intros H; (eapply C139_registered; [exact Rd | | exact Lj | exact H]); cbn [In]; auto. Qed.
(** from then on, every write by anybody which covers the bit tells the module if the bit is set now and was not when the event last
    looked, and tells it nothing otherwise; the event stays and has now seen the bit as it is *)
Theorem C139_told : forall E s fd i q e fd' off n b b' o a s',
  reachable E s -> listens s fd i q e -> no_mapping s i -> q < 8 * zlen b -> zlen b < 2147483648 ->
  writing s fd' i off n b b' o a -> step E s o = Done s' -> answered s s' a -> off <= q / 8 < off + n ->
  (bit b' q = true -> remembers e 0 = false -> told s s' i e [OEvent fd EV_SET i (e_id e) None]) /\
  (bit b' q = false \/ remembers e 0 = true -> told s s' i e []) /\
  exists e', listens s' fd i q e' /\ e_id e' = e_id e /\ remembers e' 0 = bit b' q.
Proof.
  intros E s fd i q e fd' off n b b' o a s' R (t & m & Ht & Ie & Rg & Mf & Ty & By & Bi & Eq & Ec & Es & Eo) Nm Hq Hb W H A Hoff.
  assert (Pl : EvSpec.placed e b) by (unfold EvSpec.placed; lia). assert (Se : sendable e) by (unfold sendable; rewrite Eo; discriminate).
  assert (Ed : edge_event true e) by (unfold edge_event; rewrite Ty, Ec; repeat split; lia).
  destruct (C25_edge_event E s fd' i off n b b' o a s' t e true R W H A Ht Ie Ed Pl ltac:(lia) Se) as (C & _).
  assert (Mt : meet off n (e_byte e) (e_size e)) by (exists (e_byte e); split; lia). specialize (C Mt). destruct C as (C1 & C2 & C3).
  assert (Wb : watched_bit e b' 0 = bit b' q) by (unfold watched_bit; f_equal; lia).
  split; [|split].
  - intros B F. destruct C1 as (m' & Rg' & T); [exists 0; unfold cond; rewrite Wb; split; [lia | auto]|].
    assert (m' = m). { assert (Q1 := proj2 (mod_uid_in E s (e_mod e) m R) Rg). assert (Q2 := proj2 (mod_uid_in E s (e_mod e) m' R) Rg'). congruence. } subst m'.
    unfold note in T. rewrite Mf, Ty, Eo in T. exact T.
  - intros D. apply C2. intros (k & K & Ck & Rk). assert (k = 0) by lia. subst k. unfold cond in Ck. rewrite Wb in Ck. destruct D; congruence.
  - destruct (C3 Nm) as (t' & e' & Ht' & Ie' & St & K). assert (O := proj1 (writing_only _ _ _ _ _ _ _ _ _ _ _ R W Nm H A)). destruct O as (_ & _ & _ & O). injection O as _ _ _ _ _ O _.
    unfold stat in St. destruct e as [a1 a2 a3 a4 a5 a6 a7 a8 a9 a10 a11], e' as [c1 c2 c3 c4 c5 c6 c7 c8 c9 c10 c11]. unfold set_test in St. cbn in St. injection St as -> -> -> -> -> -> -> -> -> ->. cbn in *.
    eexists. split; [exists t', m; split; [exact Ht'|]; split; [exact Ie'|]; split; [destruct Rg as (Rg & Rg2); split; [rewrite O; exact Rg | exact Rg2]|]; cbn; auto 12|].
    split; [reflexivity|]. specialize (K 0 ltac:(lia)). unfold cond in K. rewrite Wb in K. destruct (remembers _ 0), (bit b' q); tauto || (destruct K as [K1 K2]; (discriminate (K1 eq_refl) || discriminate (K2 eq_refl))).
Qed.

(** ** C140 *)
(** looking up a member of the own tag never overruns a buffer, finds exactly the place of the member and changes nothing *)
Theorem C140_finds : forall E db cc fd s i nm b x q ty w n junk,
  ready E db cc fd s i nm b -> In (x, q, ty, w, n) status_members -> zlen junk = 33 ->
  exists cc' o, own_member E db cc fd s junk (46 :: x) = Done (cc', after s o, inl (mk_h i (q / 8) (q mod 8) n (covers q w n) ty)) /\ ready E db cc' fd (after s o) i nm b.
Proof. exact own_member_ok. Qed.
(** a module without a status tag: the functions report "not found" and change nothing *)
Lemma none_answer E s fd m : serves_names s -> find_mod s fd = Some m -> m_tagidx m = 0 -> step E s (OpRead fd 10 0 33) = Done (after s [OErr fd MSG_TAG_READ E_NOTFOUND]).
Proof. intros (t & Ht & Tv & Td) F M. unfold step. cbn [handle_op]. unfold h_read, bind, get. cbn iota beta. unfold tag_read. rewrite Ht, Tv, Td, F, M. reflexivity. Qed.
Theorem C140_no_tag : forall E db cc fd s m junk x,
  reachable E s -> few s -> readable s -> agrees s cc -> (exists t, db (str "_my_tagname") = Some t /\ ct_idx t = 10 /\ ct_type t = T_CHAR /\ ct_count t = 33) ->
  serves_names s -> find_mod s fd = Some m -> m_tagidx m = 0 -> zlen junk = 33 ->
  exists cc' o, own_member E db cc fd s junk x = Done (cc', after s o, inr E_NOTFOUND).
Proof.
  intros E db cc fd s m junk x R Fw Rd A B Sn F M Lj. destruct (name_handle_of E db cc s R Fw Rd A B) as (c1 & H1 & _). assert (St := none_answer E s fd m Sn F M).
  exists c1, [OErr fd MSG_TAG_READ E_NOTFOUND]. unfold own_member. rewrite H1. cbn [rbind]. unfold h_name at 1. cbn [h_size]. change (255 <? 33) with false. cbn iota.
  unfold dax_tag_read, h_name. cbn [h_size h_index h_byte h_type h_count]. change (MSG_DATA_SIZE <? 33) with false. cbn iota. unfold c_read. change (MSG_DATA_SIZE <? 33) with false. cbn iota. change (s32 0) with 0.
  rewrite (ask_after _ _ _ _ St). cbn [rbind]. cbn iota. reflexivity.
Qed.
(** the hypothesis about _my_tagname is one about the first state only: no request whatsoever changes that tag *)
Definition name_tag (t : tag) : Prop := t_name t = Some (str "_my_tagname") /\ t_type t = T_CHAR /\ t_count t = 33 /\ has (t_attr t) A_VIRTUAL = true /\ has (t_attr t) A_OWNED = false /\ t_data t = DMyName.
Definition names_served (s : server) : Prop := exists t, znth (s_db s) 10 = Some t /\ name_tag t.
Lemma served_shape s s' : names_served s -> shape s s' -> names_served s'.
Proof.
  intros (t & Ht & T1 & T2 & T3 & T4 & T5 & T6) S. destruct (sh_tags _ _ S _ _ Ht) as (t' & Ht' & [P1 P2 P3 P4 P5 (_ & P6 & _ & _ & P7)]). exists t'. split; [exact Ht'|].
  rewrite T6 in P5. cbn in P5. destruct (t_data t') eqn:D; try contradiction. repeat split; congruence.
Qed.
Lemma served_db s s' : names_served s -> znth (s_db s') 10 = znth (s_db s) 10 -> names_served s'.
Proof. intros (t & Ht & T) Q. exists t. split; [congruence | exact T]. Qed.
Lemma served_kept s s' : names_served s -> kept s s' 10 -> names_served s'.
Proof.
  intros (t & Ht & T1 & T2 & T3 & T4 & T5 & T6) (K1 & K2). assert (K : data_at s' 10 = data_at s 10) by (apply K2; unfold status_ix, IX_TAGCOUNT, IX_LASTINDEX, IX_ADDED, IX_DELETED; lia).
  unfold core_at in K1. unfold data_at in K. rewrite Ht in K1, K. destruct (znth (s_db s') 10) as [t'|] eqn:Ht'; [|discriminate]. exists t'. split; [exact Ht'|].
  cbn in K1, K. unfold tcore in K1. injection K1 as K1 K3 K4 _ _ K5 _ _ K6. injection K as K. unfold name_tag. repeat split; congruence.
Qed.
Lemma served_add E fd nm type count attr s s' r : Inv s -> 0 <= count < 4294967296 -> names_served s -> (nm <> (str "_my_tagname") \/ type <> T_CHAR) -> tag_add E fd nm type count attr s = Done (s', r) -> names_served s' /\ r <> 10.
Proof.
  intros I Hc (t & Ht & T) N H. assert (H0 := H). apply tag_add_effect in H; [|exact I | exact Hc]. assert (St : ~ status_ix 10) by (unfold status_ix, IX_TAGCOUNT, IX_LASTINDEX, IX_ADDED, IX_DELETED; lia).
  destruct H as [(L & _)|[(_ & (t1 & [N1 N2] & N3) & _ & _ & H)|(-> & _ & _ & _ & _ & H)]].
  - split; [|lia]. apply tag_add_cases in H0; [|exact I | lia].
    destruct H0 as [s' r Hr S1 | n t1 s0 s' u S1 Ht1 Hnm Hty Hct How Hsa
    | n t1 s0 d size s1 s' u v S1 Ht1 Hnm Hty Hct How Hns Hrg Hsa Htw
    | n t1 s0 d S1 Ht1 Hnm Hty Hct Hrg Hns
    | s0 s1 s3 s4 s' ix size u v w x S1 Hno Hck Hvn Hcp Hns Hix Hw1 Hw2 Hsa Hw3].
    + exists t. split; [|exact T]. destruct (set_dbsize_db _ _ S1) as (-> & _). exact Ht.
    + apply znth_range in Ht1. lia.
    + apply znth_range in Ht1. lia.
    + exists t. split; [|exact T]. destruct (set_dbsize_db _ _ S1) as (Q & _). cbn. rewrite znth_zset_ne; [rewrite Q; exact Ht|]. intros Qn. rewrite <- Qn in *. assert (t1 = t) by congruence. subst t1. destruct T as (T1 & T2 & _). destruct N; congruence.
    + assert (0 <= zlen (s_db s)) by apply zlen_nonneg. lia.
  - assert (r <> 10) by (intros ->; assert (t1 = t) by congruence; subst t1; destruct T as (T1 & T2 & _); destruct N; congruence).
    split; [|assumption]. exists t. split; [|exact T]. rewrite H by (auto; lia). exact Ht.
  - assert (Rg := znth_range _ _ _ Ht). split; [|lia]. exists t. split; [|exact T]. rewrite H by (auto; lia). exact Ht.
Qed.
Lemma served_unreg E fd s s' u : Inv s -> SysInv E s -> names_served s -> module_unregister E fd s = Done (s', u) -> names_served s'.
Proof.
  intros I Sy N H. destruct (find_mod s fd) as [m|] eqn:F.
  - destruct (module_unregister_effect _ _ _ _ _ _ I F H) as (A & _). destruct (A 10) as [K|[[K|K] _]]; [eapply served_kept; eassumption | |].
    + exfalso. destruct N as (t & Ht & _ & _ & _ & _ & T & _). unfold tag_owned in K. rewrite Ht, T in K. discriminate.
    + exfalso. destruct (si_mods _ _ Sy) as (_ & _ & M). apply find_some in F as [F _]. destruct (M _ F) as (_ & [[M1 _]|M1]); lia.
  - unfold module_unregister in H. inv1 H. rewrite F in H. inv_all. exact N.
Qed.
Lemma served_register E nm fd s s' u : Inv s -> SysInv E s -> names_served s -> module_register E nm fd s = Done (s', u) -> names_served s'.
Proof.
  intros I Sy N H. unfold module_register in H. inv1 H. inv1 H. inv1 H. inv1 H.
  assert (G : Inv s0 /\ names_served s0 /\ s_types s0 = s_types s).
  { clear H. destruct (find_mod s fd) as [m|] eqn:F; [|inv_all; auto]. split; [eapply module_unregister_good; eassumption|]. split; [eapply served_unreg; eassumption|]. apply (module_unregister_tu _ _ _ _ _ Hm). }
  destruct G as (I0 & N0 & Ty0). clear Hm N. set (s1 := set_nextuid _ _) in H.
  assert (N1 : names_served s1) by exact N0. destruct (existsb (fun x => name_eqb x nm) (en_excl E)); [inv_all; exact N1|].
  inv1 H. inv1 H. destruct v0 as [tn uuid]. inv1 H. inv1 H. inv1 H.
  assert (I2 : Inv (set_moduuid s1 uuid)) by (destruct I0; constructor; assumption).
  assert (Ty : cdt_get_type (s_types (set_moduuid s1 uuid)) (str "_module") = cdt_type 0) by (change (s_types (set_moduuid s1 uuid)) with (s_types s0); rewrite Ty0; destruct (si_types _ _ Sy) as (x & ->); apply module_cdt).
  rewrite Ty in Hm. assert (Nc : tn <> (str "_my_tagname") \/ cdt_type 0 <> T_CHAR) by (right; discriminate). assert (Nc1 : 0 <= 1 < 4294967296) by lia.
  destruct (served_add E (-1) tn (cdt_type 0) 1 0 _ _ _ I2 Nc1 N1 Nc Hm) as (N2 & Ne).
  destruct (v0 <? 0) eqn:Neg; [discriminate|]. inv1 H. inv1 H. inv1 H. inv1 H. inv1 H. inv1 H. inv_all.
  assert (Sh1 := tag_write_shape _ _ _ _ _ _ _ _ Hm0). assert (Sh2 := tag_write_shape _ _ _ _ _ _ _ _ Hm1). assert (Sh3 := tag_write_shape _ _ _ _ _ _ _ _ Hm2).
  eapply served_shape; [|exact Sh3]. eapply served_db; [|cbn; apply znth_zset_ne; congruence]. eapply served_shape; [|exact Sh2]. eapply served_shape; [|exact Sh1]. exact N2.
Qed.
Theorem C140_stays : forall E s o s', reachable E s -> names_served s -> step E s o = Done s' -> names_served s'.
Proof.
  intros E s o s' R N H. assert (I := reachable_Inv _ _ R). assert (Sy := reachable_sys _ _ R). apply step_inv in H as (s1 & u & Q & ->). cut (names_served s1); [exact (fun x => x)|].
  destruct (shape_op o) eqn:S; [eapply served_shape; [exact N | eapply handle_op_shape; eassumption]|].
  destruct o; try discriminate; cbn [handle_op] in Q.
  - inv1 Q. inv1 Q. inv1 Q. eapply served_shape; [eapply served_register; eassumption|]. eapply shape_trans; [eapply tag_read_shape; eassumption | eapply respond_shape; exact Q].
  - eapply served_unreg; eassumption.
  - inv1 Q. eapply served_shape; [|eapply reply_int_shape; exact Q]. destruct (nthb nm 0 =? 95) eqn:U; [inv_all; exact N|].
    eapply served_add; [exact I | | exact N | | exact Hm]; [unfold u32; apply Z.mod_pos_bound; lia|]. left. intros ->. discriminate.
  - unfold h_tag_del in Q. inv1 Q. inv1 Q. inv1 Q. eapply served_shape with (s := s0).
    + destruct v as [[[[[a b] c] d] nm]|e]; [|inv_all; exact N]. destruct (nthb nm 0 =? 95) eqn:U; [inv_all; exact N|].
      destruct (Z.eq_dec idx 10) as [->|Ne]; [|destruct (tag_del_kept _ _ _ _ _ Hm) as [K _]; eapply served_kept; [exact N | apply K; congruence]].
      exfalso. destruct N as (t & Ht & T1 & _ & _ & _ & _ & T6). unfold tag_get_index in Hr. destruct (_ || _) in Hr; [discriminate|]. unfold info_at in Hr. rewrite Ht, T6, T1 in Hr. injection Hr as _ _ _ _ <-. discriminate.
    + destruct (v0 =? 0); [eapply respond_shape | eapply reply_err_shape]; exact Q.
  - unfold h_cdt_create in Q. inv1 Q. inv1 Q. destruct v as [[ts ty] err]. inv1 Q. cbv zeta in Q.
    eapply served_shape with (s := set_types s ts); [exact N|]. destruct (_ <? 0); [eapply reply_err_shape | eapply respond_shape]; exact Q.
  - inv_all. exact N.
Qed.
(** and such a server tells a client that asks for the two tags exactly what [ready] wants the client to believe *)
Lemma asked_named E s i n t : reachable E s -> znth (s_db s) i = Some t -> t_name t = Some n -> asked s n = Some (mk_ct n i (t_type t) (t_count t) (t_attr t)).
Proof.
  intros R H1 H2. assert (I := reachable_Inv _ _ R). assert (T := iv_tags _ I _ _ H1). assert (D := dead_not_named _ _ _ T H2).
  assert (G : get_by_name (s_index s) n = Done i) by (apply get_by_name_in; [apply I|]; apply (iv_index _ I); eauto). assert (Rg := znth_range _ _ _ H1).
  unfold asked, tag_get_name. rewrite G. cbn [rbind]. replace (i <? 0) with false by lia. unfold info_at. rewrite H1. destruct (t_data t); try congruence; rewrite H2; reflexivity.
Qed.
Theorem C140_asked : forall E s fd i nm b, reachable E s -> names_served s -> own_tag s fd i nm b -> serves_names s /\ believes (asked s) i nm 33.
Proof.
  intros E s fd i nm b R (t & Ht & T1 & T2 & T3 & T4 & T5 & T6) (_ & u & Hu & U1 & U2 & U3 & _). split; [exists t; auto|].
  split; [exists (mk_ct (str "_my_tagname") 10 (t_type t) (t_count t) (t_attr t)); split; [exact (asked_named E s 10 (str "_my_tagname") t R Ht T1) | cbn; auto]
         |exists (mk_ct nm i (t_type u) (t_count u) (t_attr u)); split; [exact (asked_named E s i nm u R Hu U1) | cbn; auto]].
Qed.
(** the hypotheses are met by a first start and two modules *)
Lemma demo_ready : ready env0 (asked demo) [] 5 demo 11 (str "_malpha") (le_bytes 8 1000 ++ le_bytes 4 5 ++ zeros 66).
Proof.
  assert (Ow : own_tag demo 5 11 (str "_malpha") (le_bytes 8 1000 ++ le_bytes 4 5 ++ zeros 66)).
  { split; [eexists; split; vm_compute; reflexivity|]. eexists. split; [vm_compute; reflexivity|]. vm_compute. repeat split. }
  assert (Ns : names_served demo) by (eexists; split; [vm_compute; reflexivity|]; vm_compute; repeat split).
  destruct (C140_asked env0 demo 5 11 _ _ demo_reachable Ns Ow) as (Sn & Bl).
  split; [exact demo_reachable|]. split; [apply few_check; vm_compute; reflexivity|]. split; [apply readable_check; vm_compute; reflexivity|]. split; [apply agrees_empty|].
  split; [exact Sn|]. split; [exact Ow|]. split; [lia|]. split; [exact Bl|]. intros t A. vm_compute in A. injection A as <-. vm_compute. reflexivity.
Qed.
Example C136_ex : exists cc' s', ready env0 (asked demo) [] 5 demo 11 (str "_malpha") (le_bytes 8 1000 ++ le_bytes 4 5 ++ zeros 66) /\ zlen (zeros 33) = 33 /\
  dax_set_running env0 (asked demo) [] 5 demo (zeros 33) 7 = Done (cc', s', 0) /\ stored s' 11 (le_bytes 8 1000 ++ le_bytes 4 5 ++ 1 :: zeros 65).
Proof. eexists _, _. split; [exact demo_ready|]. split; [reflexivity|]. split; [vm_compute; reflexivity|]. eexists. split; [vm_compute; reflexivity|]. vm_compute. auto. Qed.
Example C137_ex : exists cc' s', text (str "OK") /\ dax_set_status env0 (asked demo) [] 5 demo (zeros 33) (str "OK") = Done (cc', s', 0) /\ stored s' 11 (le_bytes 8 1000 ++ le_bytes 4 5 ++ 0 :: str "OK" ++ zeros 63).
Proof.
  eexists _, _. split; [intros c [<-|[<-|[]]]; discriminate|]. split; [vm_compute; reflexivity|]. eexists. split; [vm_compute; reflexivity|]. vm_compute. auto.
Qed.
(** module beta gives the command by a write of byte 77 of alpha's status tag; alpha is told, and its default action clears the bit *)
Example C138_ex : exists cc1 s1 p s2 cc3 s3, dax_set_callback env0 (asked demo) [] 5 demo (zeros 33) (str ".run") = Done (cc1, s1, inl p) /\
  step env0 s1 (OpMask 6 11 77 [2] [2]) = Done s2 /\ In (OEvent 5 EV_SET 11 1 None) (s_out s2) /\ ~ In (OEvent 5 EV_SET 11 1 None) (s_out s1) /\
  dax_default_run env0 (asked s2) cc1 5 s2 (zeros 33) (zeros 33) = Done (cc3, s3) /\ stored s2 11 (le_bytes 8 1000 ++ le_bytes 4 5 ++ zeros 65 ++ [2]) /\ stored s3 11 (le_bytes 8 1000 ++ le_bytes 4 5 ++ 1 :: zeros 65).
Proof.
  eexists _, _, _, _, _, _. split; [vm_compute; reflexivity|]. split; [vm_compute; reflexivity|]. split; [cbn [s_out]; cbn [In]; tauto|]. split; [cbn [s_out In]; intuition discriminate|].
  split; [vm_compute; reflexivity|]. split; (eexists; split; [vm_compute; reflexivity|]; vm_compute; auto).
Qed.
(** a module on the list of those that get no status tag *)
Definition env_none : env := mk_env false (fun _ => 0) (fun _ => true) (fun _ => 0) (fun _ _ => 0) (fun _ _ => true) (fun _ => 0) (fun _ _ _ => 0) (fun _ _ _ => 0) [str "alpha"].
Definition none_state : server := after_ops env_none [OpRegister 5 (str "alpha")].
Example C140_ex : reachable env_none none_state /\ names_served none_state /\ exists m, find_mod none_state 5 = Some m /\ m_tagidx m = 0.
Proof. split; [apply after_reachable; vm_compute; reflexivity|]. split; [eexists; split; [vm_compute; reflexivity|]; vm_compute; repeat split|]. eexists. split; vm_compute; reflexivity. Qed.
