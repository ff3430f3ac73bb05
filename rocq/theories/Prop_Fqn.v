(** * Prop_Fqn: C167, the name of a handle *)
From Verif Require Import Base Const Types State Events Atomic Server Lib Spec Shape Inv Reach TypeFrame TypesProofs ClientTypes ClientTypesProofs ClientData Demo Prop_Types Prop_ClientOvr CdtNew Prop_CdtNew Text Prop_Text Cache Path Prop_Path DaxcRead CdtIter Prop_CdtIter Fqn.

Lemma print_dec i : 0 <= i < 2147483648 -> print_d i = dec_str i.
Proof. intros H. unfold print_d. rewrite s32_small by lia. cbv zeta. replace (i <? 0) with false by lia. reflexivity. Qed.
Lemma dec_short x : zlen (dec_str x) <= 20.
Proof. unfold zlen, dec_str. rewrite rev_length. assert (Q := dec_rev_len 20 x). lia. Qed.
Lemma same_handle h h' tag t q w n : points h tag t q w n -> points h' tag t q w n -> h_bit h < 8 -> h_bit h' < 8 -> h = h'.
Proof.
  destruct h as [a b c d e f], h' as [a' b' c' d' e' f']. unfold points. cbn [h_index h_byte h_bit h_count h_size h_type]. intros (A1 & A2 & A3 & A4 & A5 & A6 & A7) (B1 & B2 & B3 & B4 & B5 & B6 & B7) X Y.
  assert (b = b') by lia. assert (c = c') by lia. congruence.
Qed.
(** ** Tags and their elements *)
(** the name of a handle of [n] elements of a tag from element [i] on, given to dax_tag_handle with the count, gives the handle back *)
Theorem C167_tag : forall E s cc db tags tag w i n h,
  reachable E s -> few s -> readable s -> agrees s cc -> validate_name (ct_name tag) = 0 -> db (ct_name tag) = Some tag -> tags (ct_idx tag) = Some tag ->
  (In (ct_type tag) base_types \/ exists c, denotes s (ct_type tag) c) -> width (s_types s) (ct_type tag) w -> 0 < w -> 1 <= ct_count tag -> w * ct_count tag <= 2147483640 ->
  0 <= i -> 1 <= n -> i + n <= ct_count tag -> points h tag (ct_type tag) (w * i) w n -> h_bit h < 8 ->
  exists cc1 t cc2, dax_fqn (s_types s) tags cc h = Done (cc1, Some t) /\ agrees s cc1 /\ tag_handle (s_types s) db cc1 t n = Done (cc2, inl h) /\ agrees s cc2.
Proof.
  intros E s cc db tags tag w i n h R Fw Rd A Vn Db Tg Ty Wd Wp Ct Bd I0 N1 Fit Pt Hb. assert (W := reachable_wf _ _ R). assert (Rg := readable_regular _ Rd).
  assert (Ci : i < 2147483648) by nia. assert (Wi : w * i <= 2147483640) by nia.
  assert (Kn : known (s_types s) (ct_type tag)) by (destruct Ty as [B|(c & j & Ej & Zj)]; [left; exact B | right; exists j; split; [exact (znth_range _ _ _ Zj) | exact Ej]]).
  assert (Back : forall g cc1, agrees s cc1 -> sg_name g = ct_name tag -> idx g = i -> exists cc2, tag_handle (s_types s) db cc1 (show_seg g) n = Done (cc2, inl h) /\ agrees s cc2).
  { intros g cc1 A1 Gn Gi. destruct (C49_tag E s cc1 db g tag w n R Fw Rd A1) as (cc2 & h' & E2 & A2 & B2 & P2); try assumption.
    - split; [rewrite Gn; exact Vn | lia].
    - rewrite Gn. exact Db.
    - lia.
    - rewrite Gi. unfold howmany. replace (n =? 0) with false by lia. exact Fit.
    - rewrite Gi in P2. unfold howmany in P2. replace (n =? 0) with false in P2 by lia. rewrite (same_handle _ _ _ _ _ _ _ Pt P2 Hb B2). exists cc2. auto. }
  unfold few in Fw. assert (Pt' := Pt). destruct Pt' as (P1 & P2 & P3 & P4 & P5 & P6 & P7). unfold dax_fqn. rewrite P1, Tg.
  destruct (ct_type tag =? T_BOOL) eqn:T.
  - assert (w = 1) by (eapply width_bool; [|exact Wd]; lia). subst w. destruct ((0 <? h_byte h) || (0 <? h_bit h)) eqn:Q.
    + destruct (Back (mk_seg (ct_name tag) (Some i)) cc A eq_refl eq_refl) as (cc2 & E2 & A2). exists cc. eexists. exists cc2. split; [reflexivity|]. split; [exact A|]. split; [|exact A2].
      replace (h_byte h * 8 + h_bit h) with i by lia. unfold u32. rewrite Z.mod_small by lia. rewrite print_dec by lia. exact E2.
    + destruct (Back (mk_seg (ct_name tag) None) cc A eq_refl) as (cc2 & E2 & A2); [cbn; lia|]. unfold show_seg in E2. cbn [sg_name sg_at] in E2. rewrite app_nil_r in E2. exists cc, (ct_name tag), cc2. auto.
  - destruct (client_size _ W ltac:(lia) Rg _ _ cc Kn Wd ltac:(lia) Wp A) as (m & cc1 & E1 & M1 & Ew & Pn). rewrite E1. cbn [rbind]. replace (m =? 0) with false by lia.
    assert (Hy : h_byte h = m * i) by lia. assert (Um : u32 m = m) by (unfold u32; rewrite Z.mod_small by nia; reflexivity).
    assert (Tt : (h_type h =? ct_type tag) = true) by lia. rewrite Tt. assert (Tb : (h_type h =? T_BOOL) = false) by lia. rewrite Tb, andb_false_r. assert (Mi : 0 <= m * i) by nia.
    destruct ((1 <? ct_count tag) && ((0 <? h_byte h) || negb (h_count h =? ct_count tag))) eqn:Q; cbv zeta beta iota.
    + rewrite Um, Hy. replace (m * i / m) with i by (rewrite Z.mul_comm, Z.div_mul by lia; reflexivity). rewrite s32_small by lia. rewrite cint_ok by lia. cbn [rbind]. rewrite print_dec by lia.
      destruct (Back (mk_seg (ct_name tag) (Some i)) cc1 M1 eq_refl eq_refl) as (cc2 & E2 & A2). exists cc1. eexists. exists cc2. split; [reflexivity|]. split; [exact M1|]. split; [exact E2 | exact A2].
    + rewrite cint_ok by lia. cbn [rbind]. assert (i = 0). { destruct (1 <? ct_count tag) eqn:Q1; [|lia]. cbn [andb] in Q. assert (h_byte h = 0) by lia. nia. }
      destruct (Back (mk_seg (ct_name tag) None) cc1 M1 eq_refl) as (cc2 & E2 & A2); [cbn; lia|]. unfold show_seg in E2. cbn [sg_name sg_at] in E2. rewrite app_nil_r in E2. exists cc1, (ct_name tag), cc2. auto.
Qed.
(** the same for [n] bits from bit [b] of element [i]; the code leaves out the index when the handle begins in the first byte and has as many bits as the tag has elements *)
Theorem C167_bit_partial : forall E s cc db tags tag w i b n h,
  reachable E s -> few s -> readable s -> agrees s cc -> validate_name (ct_name tag) = 0 -> db (ct_name tag) = Some tag -> tags (ct_idx tag) = Some tag ->
  In (ct_type tag) [T_BYTE; T_SINT; T_CHAR; T_WORD; T_INT; T_UINT; T_DWORD; T_DINT; T_UDINT; T_LWORD; T_LINT; T_ULINT] -> In (ct_type tag, w) widths -> w * ct_count tag <= 2147483640 ->
  0 <= i < ct_count tag -> 0 <= b -> 1 <= n -> b + n <= w -> points h tag T_BOOL (w * i + b) 1 n -> h_bit h < 8 -> (ct_count tag = 1 \/ 8 <= w * i + b \/ n <> ct_count tag) ->
  exists cc1 t cc2, dax_fqn (s_types s) tags cc h = Done (cc1, Some t) /\ agrees s cc1 /\ tag_handle (s_types s) db cc1 t n = Done (cc2, inl h) /\ agrees s cc2.
Proof.
  intros E s cc db tags tag w i b n h R Fw Rd A Vn Db Tg Ty Wd Bd I0 B0 N1 Fit Pt Hb Ix. assert (W := reachable_wf _ _ R). assert (Rg := readable_regular _ Rd).
  assert (Kn : known (s_types s) (ct_type tag)) by (left; cbn in Ty |- *; tauto).
  assert (Nb : (ct_type tag =? T_BOOL) = false /\ is_custom (ct_type tag) = false).
  { cbn in Ty. repeat (destruct Ty as [<-|Ty]; [split; reflexivity|]). destruct Ty. }
  destruct Nb as [Nb Nc]. assert (Wb : 8 <= w <= 64) by (cbn in Wd; repeat (destruct Wd as [Wd|Wd]; [injection Wd as Q <-; try lia; exfalso; rewrite <- Q in Nb; discriminate Nb|]); destruct Wd).
  assert (Ci : i < 2147483648) by nia. assert (Wi : w * (i + 1) <= 2147483640) by nia.
  assert (Back : forall g cc1, agrees s cc1 -> sg_name g = ct_name tag -> idx g = i -> (sg_at g = None -> ct_count tag = 1) -> exists cc2, tag_handle (s_types s) db cc1 (show_seg g ++ 46 :: dec_str b) n = Done (cc2, inl h) /\ agrees s cc2).
  { intros g cc1 A1 Gn Gi Go. destruct (C49_bit E s cc1 db g tag w b n R Fw Rd A1) as (cc2 & h' & E2 & A2 & B2 & P2); try assumption.
    - split; [rewrite Gn; exact Vn | lia].
    - rewrite Gn. exact Db.
    - unfold idx in Gi. destruct (sg_at g); [lia | apply Go; reflexivity].
    - lia.
    - lia.
    - rewrite Gi in P2. replace (Z.max 1 n) with n in P2 by lia. rewrite (same_handle _ _ _ _ _ _ _ Pt P2 Hb B2). exists cc2. auto. }
  unfold few in Fw. assert (Pt' := Pt). destruct Pt' as (P1 & P2 & P3 & P4 & P5 & P6 & P7). unfold dax_fqn. rewrite P1, Tg, Nb.
  destruct (client_size _ W ltac:(lia) Rg _ w cc Kn ltac:(left; exact Wd) ltac:(lia) ltac:(lia) A) as (m & cc1 & E1 & M1 & Ew & Pn). rewrite E1. cbn [rbind]. replace (m =? 0) with false by lia.
  rewrite Nc. cbn [andb]. rewrite P2. cbn [Z.eqb T_BOOL Pos.eqb]. assert (Mi : 0 <= m * i) by nia. assert (Hy : h_byte h = i * m + b / 8) by lia. assert (Hd : h_byte h / m = i) by (rewrite Hy, Z.div_add_l by lia; rewrite (Z.div_small (b / 8)) by lia; lia).
  assert (Ln : zlen (ct_name tag) <= 32) by (apply valid_plain in Vn; tauto). assert (Ld := dec_short b). assert (Li := dec_short i).
  destruct ((1 <? ct_count tag) && ((0 <? h_byte h) || negb (h_count h =? ct_count tag))) eqn:Q; cbv zeta beta iota.
  - assert (Um : u32 m = m) by (unfold u32; rewrite Z.mod_small by nia; reflexivity). rewrite Um, Hd. rewrite s32_small by lia. rewrite cint_ok by lia. cbn [rbind]. rewrite (print_dec i) by lia.
    replace (u32 (h_bit h + u32 (h_byte h - i * m) * 8)) with b by (unfold u32; rewrite (Z.mod_small (h_byte h - i * m)) by lia; rewrite Z.mod_small by lia; lia). rewrite print_dec by lia.
    unfold glue. rewrite !zlen_app. change (zlen [46]) with 1. change (zlen [91]) with 1. change (zlen [93]) with 1.
    replace ((64 <=? 1 + zlen (dec_str b)) || (1024 <=? zlen (ct_name tag) + (1 + (zlen (dec_str i) + 1)) + (1 + zlen (dec_str b)))) with false by (symmetry; apply orb_false_iff; split; apply Z.leb_gt; lia). cbn [rbind].
    destruct (Back (mk_seg (ct_name tag) (Some i)) cc1 M1 eq_refl eq_refl ltac:(discriminate)) as (cc2 & E2 & A2). exists cc1. eexists. exists cc2. split; [reflexivity|]. split; [exact M1|]. split; [exact E2 | exact A2].
  - assert (i = 0 /\ ct_count tag = 1) as [-> C1]. { destruct (1 <? ct_count tag) eqn:Q1; [|lia]. cbn [andb] in Q. assert (h_byte h = 0) by lia. lia. }
    rewrite cint_ok by lia. cbn [rbind].
    replace (u32 (h_bit h + u32 (h_byte h - 0 * m) * 8)) with b by (unfold u32; rewrite (Z.mod_small (h_byte h - 0 * m)) by lia; rewrite Z.mod_small by lia; lia). rewrite print_dec by lia.
    unfold glue. rewrite !zlen_app. change (zlen [46]) with 1.
    replace ((64 <=? 1 + zlen (dec_str b)) || (1024 <=? zlen (ct_name tag) + (1 + zlen (dec_str b)))) with false by (symmetry; apply orb_false_iff; split; apply Z.leb_gt; lia). cbn [rbind].
    destruct (Back (mk_seg (ct_name tag) None) cc1 M1 eq_refl eq_refl ltac:(auto)) as (cc2 & E2 & A2). unfold show_seg in E2. cbn [sg_name sg_at] in E2. rewrite app_nil_r in E2. exists cc1. eexists. exists cc2. split; [reflexivity|]. split; [exact M1|]. split; [exact E2 | exact A2].
Qed.

(** ** Members *)
(** the index is written exactly for arrays *)
Definition exactly (k : walk) : Prop := match sg_at (wk_seg k) with Some _ => 1 < cm_count (wk_member k) | None => cm_count (wk_member k) = 1 end.
(** when something that is not a BOOL follows BOOLs, the parts of bytes that they leave over make up one byte at most ([b] bits so far) *)
Fixpoint tidy (b : Z) (ms : list cmember) : Prop :=
  match ms with [] => True | m :: r => if cm_type m =? T_BOOL then tidy (b + cm_count m mod 8) r else b <= 8 /\ tidy 0 r end.
Definition tidy_walk (k : walk) : Prop := tidy 0 (map (fun x => fst (fst x)) (wk_before k) ++ [wk_member k]).
Definition tail_text (ks : list walk) : name := flat_map (fun k => 46 :: show_seg (wk_seg k)) ks.
Lemma show_tail g ks : show g (map wk_seg ks) = show_seg g ++ tail_text ks.
Proof. revert g. induction ks as [|k ks IH]; intros g; cbn [map show tail_text flat_map]; [symmetry; apply app_nil_r|]. rewrite IH. reflexivity. Qed.

Section Members.
Context (ts : list cdt) (W : wf ts) (L : zlen ts <= 1073741824) (Rg : regular ts).
Definition seen (a : item * Z) (x : cmember * Z * Z) : Prop := tells (fst a) x /\ (cm_type (fst (fst x)) <> T_BOOL -> width ts (cm_type (fst (fst x))) (8 * snd a) /\ 0 < snd a).
Lemma skipping fb fbit : forall l d, fq_done d = true -> fqn_steps fb fbit d l = Done d.
Proof. induction l as [|[it n] l IH]; intros d D; cbn [fqn_steps]; [reflexivity|]. unfold fqn_step. rewrite D. cbn [rbind]. apply IH. exact D. Qed.
Lemma packed_after : forall a pos x b, Forall (sound ts) (a ++ x :: b) -> packed pos (a ++ x :: b) -> pos <= snd (fst x).
Proof.
  induction a as [|[[m p] l] a IH]; intros pos x b F P; cbn [app] in F, P.
  - destruct x as [[m p] l]. cbn [packed] in P. destruct P as [P _]. cbn. destruct (cm_type m =? T_BOOL); lia.
  - assert (F1 := Forall_inv F). apply Forall_inv_tail in F. cbn [packed] in P. destruct P as [P P2]. specialize (IH _ _ _ F P2). destruct F1 as (_ & _ & _ & Lp & _). destruct (cm_type m =? T_BOOL); lia.
Qed.
Lemma steps_ok fb fbit B m p l after : 0 <= fbit < 8 -> 0 <= B -> B mod 8 = 0 -> B + p <= 8 * fb + fbit < B + p + l -> B + p + l <= 2147483647 ->
  forall before items pos d, Forall2 seen items (before ++ (m, p, l) :: after) -> Forall (sound ts) (before ++ (m, p, l) :: after) -> packed pos (before ++ (m, p, l) :: after) ->
  fq_done d = false -> 8 * fq_byte d + fq_bit d = B + pos -> 0 <= fq_bit d -> 0 <= fq_byte d -> tidy (fq_bit d) (map (fun x => fst (fst x)) before ++ [m]) ->
  exists y b, fqn_steps fb fbit d items = Done (mk_fq (Some (mk_it (cm_name m) (cm_type m) (cm_count m) (p / 8) (p mod 8))) true y b) /\ 8 * y + b = B + p /\ 0 <= b /\ 0 <= y /\ (cm_type m <> T_BOOL -> b = 0).
Proof.
  intros Hf HB HB8 HF HL. induction before as [|[[m1 p1] l1] before IH]; intros items pos d F2 Fs Pk Dn Dp Db Dy Td; cbn [app map fst] in *.
  - inversion F2 as [|[it n] x items' ? Sn _]; subst. assert (F1 := Forall_inv Fs). cbn [fqn_steps]. destruct Sn as [Tl Wd]. cbn [fst snd] in Tl, Wd. rewrite Tl. unfold fqn_step. rewrite Dn. cbn [it_type it_count].
    cbn [packed] in Pk. destruct Pk as [Pk _]. destruct F1 as (_ & C & Nd & Lp & Pp & _ & Al). destruct (needs_width _ _ _ Nd) as (w & Ww & El). cbn [tidy] in Td.
    destruct (cm_type m =? T_BOOL) eqn:T.
    + assert (Tb : cm_type m = T_BOOL) by lia. rewrite (width_bool _ _ _ Tb Ww) in El. rewrite Z.quot_div_nonneg, Z.rem_mod_nonneg by lia. repeat (rewrite cint_ok by lia; cbn [rbind]).
      replace (fb * 8 + fbit <? (fq_byte d + cm_count m / 8) * 8 + (fq_bit d + cm_count m mod 8)) with true by lia. cbn [rbind]. rewrite skipping by reflexivity. do 2 eexists. split; [reflexivity|]. split; [lia|]. split; [lia|]. split; [lia|]. lia.
    + assert (Al' := Al ltac:(lia)). destruct (Wd ltac:(lia)) as [Wd' Np]. rewrite (width_fun _ _ _ _ Ww Wd') in El. destruct Td as [Td _].
      set (k := cm_count m * n) in *. assert (Ek : l = 8 * k) by lia. assert (Hk : 0 < k) by lia.
      destruct (0 <? fq_bit d) eqn:Q; cbv beta iota; rewrite cint_ok by lia; cbn [rbind]; rewrite cint_ok by lia; cbn [rbind].
      * replace (fb <? fq_byte d + 1 + k) with true by lia. cbn [rbind]. rewrite skipping by reflexivity. do 2 eexists. split; [reflexivity|]. lia.
      * replace (fb <? fq_byte d + k) with true by lia. cbn [rbind]. rewrite skipping by reflexivity. do 2 eexists. split; [reflexivity|]. lia.
  - inversion F2 as [|[it n] x items' ? Sn F2']; subst. assert (F1 := Forall_inv Fs). apply Forall_inv_tail in Fs. cbn [fqn_steps]. destruct Sn as [Tl Wd]. cbn [fst snd] in Tl, Wd. rewrite Tl. unfold fqn_step. rewrite Dn. cbn [it_type it_count].
    cbn [packed] in Pk. destruct Pk as [Pk Pk2]. assert (Af := packed_after _ _ _ _ Fs Pk2). cbn [fst snd] in Af. destruct F1 as (_ & C & Nd & Lp & Pp & _ & Al). destruct (needs_width _ _ _ Nd) as (w & Ww & El). cbn [tidy] in Td.
    destruct (cm_type m1 =? T_BOOL) eqn:T.
    + assert (Tb : cm_type m1 = T_BOOL) by lia. rewrite (width_bool _ _ _ Tb Ww) in El. rewrite Z.quot_div_nonneg, Z.rem_mod_nonneg by lia. repeat (rewrite cint_ok by lia; cbn [rbind]).
      replace (fb * 8 + fbit <? (fq_byte d + cm_count m1 / 8) * 8 + (fq_bit d + cm_count m1 mod 8)) with false by lia. cbn [rbind].
      apply (IH items' (p1 + l1)); cbn [fq_done fq_byte fq_bit]; try assumption; try reflexivity; lia.
    + assert (Al' := Al ltac:(lia)). destruct (Wd ltac:(lia)) as [Wd' Np]. rewrite (width_fun _ _ _ _ Ww Wd') in El. destruct Td as [Td Td2].
      set (k := cm_count m1 * n) in *. assert (Ek : l1 = 8 * k) by lia. assert (Hk : 0 < k) by lia.
      destruct (0 <? fq_bit d) eqn:Q; cbv beta iota; rewrite cint_ok by lia; cbn [rbind]; rewrite cint_ok by lia; cbn [rbind].
      * replace (fb <? fq_byte d + 1 + k) with false by lia. cbn [rbind]. apply (IH items' (p1 + l1)); cbn [fq_done fq_byte fq_bit]; try assumption; try reflexivity; lia.
      * replace (fb <? fq_byte d + k) with false by lia. cbn [rbind]. apply (IH items' (p1 + l1)); cbn [fq_done fq_byte fq_bit]; try assumption; try reflexivity; try lia. assert (fq_bit d = 0) by lia. congruence.
Qed.
Lemma items_ok cc i c size pl : mirrors ts cc -> znth ts i = Some c -> type_size ts (cdt_type i) = Done size -> layout ts (c_members c) size pl -> packed 0 pl ->
  exists cc' items, cdt_iter ts (fqn_item ts) cc (cdt_type i) = Done (cc', items, 0) /\ mirrors ts cc' /\ Forall2 seen items pl.
Proof.
  intros M Zc Ts Ly Pk. assert (Ri := znth_range _ _ _ Zc). assert (Fs := all_sound ts W ltac:(lia) Rg i c size pl Zc Ts Ly).
  assert (Hc : forall cc x it, In x pl -> tells it x -> mirrors ts cc -> exists cc' a, fqn_item ts cc it = Done (cc', a) /\ mirrors ts cc' /\ (fst a = it /\ (it_type it <> T_BOOL -> width ts (it_type it) (8 * snd a) /\ 0 < snd a))).
  { intros cc0 [[m p] l] it I Tl M0. rewrite Forall_forall in Fs. destruct (Fs _ I) as (K & C & Nd & Lp & _). rewrite Tl. unfold fqn_item. cbn [it_type]. destruct (cm_type m =? T_BOOL) eqn:T.
    - do 2 eexists. split; [reflexivity|]. split; [exact M0|]. split; [reflexivity | lia].
    - destruct (needs_width _ _ _ Nd) as (w & Ww & El). assert (Wp : 0 < w) by nia. assert (Nb : cm_type m <> T_BOOL) by lia.
      destruct (client_size ts W ltac:(lia) Rg _ _ cc0 K Ww Nb Wp M0) as (n & cc1 & E1 & M1 & Ew & Pn). rewrite E1. cbn [rbind]. do 2 eexists. split; [reflexivity|]. split; [exact M1|]. split; [reflexivity|]. intros _. cbn [snd]. rewrite <- Ew. auto. }
  unfold cdt_iter. destruct (custom_type i ltac:(lia)) as [C1 _].
  assert (N0 : (cdt_type i =? 0) = false). { destruct (cdt_type i =? 0) eqn:Q0; [|reflexivity]. apply Z.eqb_eq in Q0. rewrite Q0 in C1. discriminate. }
  rewrite N0. destruct (pointer_ok ts W ltac:(lia) Rg cc i c M Zc) as (cc1 & -> & M1). cbn [rbind cs_members]. destruct Ly as (Sz & Mp & Al & Od). rewrite <- Mp. destruct pl as [|x pl].
  - cbn [map iter_members rbind]. exists cc1, []. split; [reflexivity|]. split; [exact M1 | constructor].
  - assert (X0 : snd (fst x) = 0). { destruct x as [[m p] l]. cbn [packed] in Pk. destruct Pk as [Pk _]. cbn [fst snd]. assert (F1 := Forall_inv Fs). destruct F1 as (_ & _ & _ & _ & Pp & _ & A1). destruct (cm_type m =? T_BOOL) eqn:T; [exact Pk|]. assert (A2 := A1 ltac:(lia)). lia. }
    destruct (iter_ok ts W ltac:(lia) Rg (fqn_item ts) (fun it a => fst a = it /\ (it_type it <> T_BOOL -> width ts (it_type it) (8 * snd a) /\ 0 < snd a)) pl x cc1 Hc M1 Fs) as (cc2 & l & H & M2 & F2); [destruct x as [[m p] l]; exact (proj2 Pk)|].
    rewrite X0 in H. change (0 / 8) with 0 in H. change (0 mod 8) with 0 in H. rewrite H. cbn [rbind]. exists cc2, l. split; [reflexivity|]. split; [exact M2|].
    clear -F2. revert F2. generalize (x :: pl). intros pl0 F2. induction F2 as [|a y l1 l2 H F2 IH]; constructor; [|exact IH]. clear IH F2. revert a y H. intros [it n] [[m p] l0] (it' & Tl & Ea & Wd). cbn [fst] in Ea. subst it'. split; [exact Tl|]. cbn [fst snd]. unfold tells in Tl. rewrite Tl in Wd. exact Wd.
Qed.
End Members.
(** one step of a path *)
Lemma entry s t a m p size : wf (s_types s) -> zlen (s_types s) <= 1073741824 -> regular (s_types s) -> member_at s t a m p -> type_size (s_types s) t = Done size ->
  exists i c l after, t = cdt_type i /\ znth (s_types s) i = Some c /\ layout (s_types s) (c_members c) size (a ++ (m, p, l) :: after) /\ packed 0 (a ++ (m, p, l) :: after) /\ Forall (sound (s_types s)) (a ++ (m, p, l) :: after) /\
    p + l <= 8 * size /\ 0 <= p /\ 1 <= cm_count m < 2147483648 /\ (forall w, width (s_types s) (cm_type m) w -> 0 < w /\ l = w * cm_count m) /\ known (s_types s) (cm_type m) /\ (cm_type m <> T_BOOL -> p mod 8 = 0) /\
    (In (cm_type m) base_types \/ exists j, 0 <= j < i /\ cm_type m = cdt_type j).
Proof.
  intros W L Rg (c & size1 & pl & l & after & (i & -> & Zc) & Ts1 & Ly & Pk & ->) Ts. rewrite Ts1 in Ts. injection Ts as ->. assert (Ri := znth_range _ _ _ Zc).
  assert (Fs := all_sound _ W ltac:(lia) Rg i c size _ Zc Ts1 Ly). exists i, c, l, after. split; [reflexivity|]. split; [exact Zc|]. split; [exact Ly|]. split; [exact Pk|]. split; [exact Fs|].
  assert (Im : In (m, p, l) (a ++ (m, p, l) :: after)) by (apply in_or_app; right; left; reflexivity). destruct Ly as (Sz & Mp & Al & _). rewrite Forall_forall in Al, Fs. destruct (Al _ Im) as (_ & _ & Pe & _). destruct (Fs _ Im) as (K & C & Nd & Lp & P0 & _ & Al').
  split; [exact Pe|]. split; [exact P0|]. split; [exact C|]. split. { intros w Wd. destruct (needs_width _ _ _ Nd) as (w' & Wd' & El). rewrite <- (width_fun _ _ _ _ Wd Wd') in El. split; [nia | exact El]. }
  split; [exact K|]. split; [exact Al'|]. assert (T := wf_type _ W _ _ Zc). assert (Mk := ty_members _ _ T). rewrite Forall_forall in Mk. assert (Ic : In m (c_members c)) by (rewrite <- Mp; exact (in_map (fun x => fst (fst x)) _ _ Im)). destruct (Mk m Ic) as (_ & _ & K2). exact K2.
Qed.
Lemma last_more k k' ks : last_walk (k :: k' :: ks) = last_walk (k' :: ks).
Proof. reflexivity. Qed.
Lemma leads_nonnil s t ks q : leads s t ks q -> exists k r, ks = k :: r.
Proof. intros [t0 k w|t0 k w ks0 q0]; eauto. Qed.
Lemma leads_sized s t ks q : leads s t ks q -> exists size, type_size (s_types s) t = Done size.
Proof. intros [t0 k w (c & size & pl & l & af & _ & H & _)|t0 k w ks0 q0 (c & size & pl & l & af & _ & H & _)]; exists size; exact H. Qed.
Lemma leads_range s : wf (s_types s) -> zlen (s_types s) <= 1073741824 -> regular (s_types s) -> forall t ks q, leads s t ks q -> forall size, type_size (s_types s) t = Done size ->
  Forall (fun k => seg_ok (wk_seg k)) ks -> idx (wk_seg (last_walk ks)) < cm_count (wk_member (last_walk ks)) ->
  0 <= q < 8 * size /\ (0 < wk_pos (last_walk ks) \/ 0 < idx (wk_seg (last_walk ks)) -> 0 < q) /\
  exists i, 0 <= i < zlen (s_types s) /\ t = cdt_type i /\ zlen ks <= i + 1 /\ forall j, i <= j < zlen (s_types s) -> cm_type (wk_member (last_walk ks)) <> cdt_type j.
Proof.
  intros W L Rg. induction 1 as [t k w Ma Nm Wd|t k w ks q Ma Nm Wd Ik Ld IH]; intros size Ts So Lf; destruct (entry s t _ _ _ size W L Rg Ma Ts) as (i & c & l & after & Et & Zc & _ & _ & _ & Pe & P0 & C & Ww & K & Al & Lo);
    destruct (Ww w Wd) as [Wp El]; assert (Ri := znth_range _ _ _ Zc); assert (S1 := Forall_inv So); destruct S1 as [_ S1].
  - cbn [last_walk last] in *. change (last_walk [k]) with k in *. split; [nia|]. split; [nia|]. exists i. split; [exact Ri|]. split; [exact Et|]. split; [change (zlen [k]) with 1; lia|].
    intros j Hj Q. destruct Lo as [B|(j' & Hj' & Ej)]; [destruct (base_not_custom _ B) as [Nc _]; rewrite Q in Nc; destruct (custom_type j ltac:(lia)) as [C1 _]; congruence|].
    rewrite Q in Ej. destruct (custom_type j ltac:(lia)) as [_ C1], (custom_type j' ltac:(lia)) as [_ C2]. rewrite Ej in C1. lia.
  - destruct (leads_nonnil _ _ _ _ Ld) as (k' & r & ->). rewrite last_more in *. apply Forall_inv_tail in So. destruct (leads_sized _ _ _ _ Ld) as (size' & Ts').
    destruct (IH size' Ts' So Lf) as (Q1 & Q2 & i' & Ri' & Et' & Lk & Nt).
    assert (Ew : w = 8 * size'). { destruct Wd as [w B|n Cu Tn]; [apply widths_fun in B as (_ & _ & Nc & _); destruct (custom_type i' ltac:(lia)) as [C1 _]; congruence|]. rewrite Tn in Ts'. congruence. }
    split; [nia|]. split; [intros G; specialize (Q2 G); nia|]. exists i. split; [exact Ri|]. split; [exact Et|].
    assert (i' < i). { destruct Lo as [B|(j & Hj & Ej)]; [destruct (base_not_custom _ B) as [Nc _]; rewrite Et' in Nc; destruct (custom_type i' ltac:(lia)) as [C1 _]; congruence|]. rewrite Et' in Ej. destruct (custom_type j ltac:(lia)) as [_ C1], (custom_type i' ltac:(lia)) as [_ C2]. rewrite Ej in C2. lia. }
    split; [rewrite zlen_cons; lia|]. intros j Hj. apply Nt. lia.
Qed.
Lemma glue_ok s0 g r : seg_ok g -> zlen s0 + zlen (46 :: show_seg g ++ r) < 1024 -> glue s0 (46 :: show_seg g) = Done (s0 ++ 46 :: show_seg g).
Proof.
  intros [V _] H. unfold glue. rewrite zlen_cons, zlen_app in H. assert (Zr := zlen_nonneg r). rewrite !zlen_cons. assert (Ln : zlen (sg_name g) <= 32) by (apply valid_plain in V; tauto).
  assert (Ls : zlen (show_seg g) <= 54). { unfold show_seg. rewrite zlen_app. destruct (sg_at g) as [i|]; [|change (zlen (@nil Z)) with 0; lia]. rewrite !zlen_app. assert (Q := dec_short i). change (zlen [91]) with 1. change (zlen [93]) with 1. lia. }
  replace (64 <=? 1 + zlen (show_seg g)) with false by (symmetry; apply Z.leb_gt; lia). replace (1024 <=? zlen s0 + (1 + zlen (show_seg g))) with false by (symmetry; apply Z.leb_gt; lia). reflexivity.
Qed.
(** bit [x] of an element of type [t], which is neither BOOL nor compound, and not the first one *)
Definition below (s : server) (t x : Z) : Prop := exists w, width (s_types s) t w /\ 0 < x < w /\ is_custom t = false.
Definition dot_bit (x : Z) : name := if x =? 0 then [] else 46 :: dec_str x.
Lemma leads_below s : wf (s_types s) -> zlen (s_types s) <= 1073741824 -> regular (s_types s) -> forall t ks q, leads s t ks q -> forall size x, type_size (s_types s) t = Done size ->
  Forall (fun k => seg_ok (wk_seg k)) ks -> idx (wk_seg (last_walk ks)) < cm_count (wk_member (last_walk ks)) -> (x = 0 \/ below s (cm_type (wk_member (last_walk ks))) x) -> q + x < 8 * size.
Proof.
  intros W L Rg. induction 1 as [t k w Ma Nm Wd|t k w ks q Ma Nm Wd Ik Ld IH]; intros size x Ts So Lf Bx; destruct (entry s t _ _ _ size W L Rg Ma Ts) as (i & c & l & after & Et & Zc & _ & _ & _ & Pe & P0 & C & Ww & K & Al & Lo);
    destruct (Ww w Wd) as [Wp El]; assert (S1 := Forall_inv So); destruct S1 as [_ S1].
  - change (last_walk [k]) with k in *. assert (x < w) by (destruct Bx as [->|(w' & Wd' & Hx & _)]; [lia|]; rewrite (width_fun _ _ _ _ Wd Wd'); lia). nia.
  - destruct (leads_nonnil _ _ _ _ Ld) as (k' & r & ->). rewrite last_more in *. apply Forall_inv_tail in So. destruct (leads_sized _ _ _ _ Ld) as (size' & Ts'). specialize (IH size' x Ts' So Lf Bx).
    destruct (leads_range s W L Rg _ _ _ Ld size' Ts' So Lf) as (_ & _ & i' & Ri' & Et' & _).
    assert (Ew : w = 8 * size'). { destruct Wd as [w B|n Cu Tn]; [apply widths_fun in B as (_ & _ & Nc & _); destruct (custom_type i' ltac:(lia)) as [C1 _]; congruence|]. rewrite Tn in Ts'. congruence. }
    nia.
Qed.
Lemma named s : wf (s_types s) -> zlen (s_types s) <= 1073741824 -> regular (s_types s) -> forall t ks q, leads s t ks q -> forall fuel size fb fbit y0 s0 mem dn cc x, type_size (s_types s) t = Done size ->
  8 * y0 + 8 * size <= 2147483647 -> 0 <= y0 -> 0 <= fbit < 8 -> 8 * fb + fbit = 8 * y0 + q + x -> (x = 0 \/ below s (cm_type (wk_member (last_walk ks))) x) -> Forall (fun k => seg_ok (wk_seg k)) ks -> Forall exactly ks -> Forall tidy_walk ks ->
  idx (wk_seg (last_walk ks)) < cm_count (wk_member (last_walk ks)) -> (zlen ks = 1 \/ 0 < wk_pos (last_walk ks) \/ 0 < idx (wk_seg (last_walk ks)) \/ 0 < x) -> zlen ks <= Z.of_nat fuel -> zlen s0 + zlen (tail_text ks ++ dot_bit x) < 1024 ->
  mirrors (s_types s) cc -> exists cc', fqn_member fuel (s_types s) fb fbit cc s0 t (mk_fq mem dn y0 0) = Done (cc', s0 ++ tail_text ks ++ dot_bit x) /\ mirrors (s_types s) cc'.
Proof.
  intros W L Rg. induction 1 as [t k w Ma Nm Wd|t k w ks q Ma Nm Wd Ik Ld IH]; intros fuel size fb fbit y0 s0 mem dn cc x Ts Bd Y0 Hf HF Bx So Ex Td Lf Dp Fu Ln M;
    destruct (entry s t _ _ _ size W L Rg Ma Ts) as (i & c & l & after & Et & Zc & Ly & Pk & Fs & Pe & P0 & C & Ww & K & Al & Lo);
    destruct (Ww w Wd) as [Wp El]; assert (Ri := znth_range _ _ _ Zc); assert (S1 := Forall_inv So); assert (E1 := Forall_inv Ex); assert (T1 := Forall_inv Td); assert (S2 := S1); destruct S2 as [_ S2]; unfold exactly in E1; unfold tidy_walk in T1.
  - change (last_walk [k]) with k in *. destruct fuel as [|fuel]; [change (zlen [k]) with 1 in Fu; lia|]. cbn [fqn_member]. rewrite Et in Ts |- *.
    destruct (items_ok (s_types s) W L Rg cc i c size _ M Zc Ts Ly Pk) as (cc1 & items & -> & M1 & F2). cbn [rbind fq_member fq_byte fq_bit].
    assert (Wx : 0 <= w * idx (wk_seg k)) by nia. assert (Wl : w * idx (wk_seg k) + w <= l) by nia.
    assert (Hx : 0 <= x < w) by (destruct Bx as [->|(w' & Wd' & Hx & _)]; [lia|]; rewrite (width_fun _ _ _ _ Wd Wd'); lia).
    destruct (steps_ok (s_types s) fb fbit (8 * y0) (wk_member k) (wk_pos k) l after Hf ltac:(lia) ltac:(lia) ltac:(lia) ltac:(lia) (wk_before k) items 0 (mk_fq mem false y0 0) F2 Fs Pk eq_refl ltac:(cbn; lia) ltac:(cbn; lia) ltac:(cbn; lia) T1) as (y & b & -> & Yb & B0 & Yp & Bn).
    cbn [rbind fq_member fq_byte fq_bit fq_done it_count it_type it_name].
    change (tail_text [k]) with ((46 :: show_seg (wk_seg k)) ++ []) in Ln |- *. rewrite app_nil_r in Ln |- *. assert (G := glue_ok s0 (wk_seg k) (dot_bit x) S1 Ln).
    assert (Fin : forall cc2 y1, mirrors (s_types s) cc2 -> cm_type (wk_member k) <> T_BOOL -> 8 * y1 = 8 * y0 + wk_pos k + w * idx (wk_seg k) -> exists cc', (if negb (y1 =? fb) || negb (0 =? fbit) then if is_custom (cm_type (wk_member k)) then fqn_member fuel (s_types s) fb fbit cc2 (s0 ++ 46 :: show_seg (wk_seg k)) (cm_type (wk_member k)) (mk_fq (Some (mk_it (cm_name (wk_member k)) (cm_type (wk_member k)) (cm_count (wk_member k)) (wk_pos k / 8) (wk_pos k mod 8))) true y1 0) else
        if negb (cm_type (wk_member k) =? T_BOOL) then i0 <-- cint ((fb - y1) * 8 + (fbit - 0));; s1 <-- glue (s0 ++ 46 :: show_seg (wk_seg k)) ([46] ++ print_d i0);; Done (cc2, s1) else Done (cc2, s0 ++ 46 :: show_seg (wk_seg k)) else Done (cc2, s0 ++ 46 :: show_seg (wk_seg k))) = Done (cc', s0 ++ (46 :: show_seg (wk_seg k)) ++ dot_bit x) /\ mirrors (s_types s) cc').
    { intros cc2 y1 M2 Nb Ey. exists cc2. split; [|exact M2]. destruct Bx as [->|(w' & Wd' & Hx' & Cx)].
      - replace (y1 =? fb) with true by lia. replace (0 =? fbit) with true by lia. cbn [negb orb]. change (dot_bit 0) with (@nil Z). rewrite app_nil_r. reflexivity.
      - replace (negb (y1 =? fb) || negb (0 =? fbit)) with true by (symmetry; apply orb_true_iff; destruct (y1 =? fb) eqn:Z1; [right; replace (0 =? fbit) with false by lia; reflexivity | left; reflexivity]). rewrite Cx. replace (cm_type (wk_member k) =? T_BOOL) with false by lia. cbn [negb].
        rewrite cint_ok by lia. cbn [rbind]. replace ((fb - y1) * 8 + (fbit - 0)) with x by lia. rewrite print_dec by lia. unfold dot_bit in Ln |- *. replace (x =? 0) with false in Ln |- * by lia. unfold glue. assert (Dx := dec_short x). rewrite !zlen_app, !zlen_cons in *. change (zlen (@nil Z)) with 0 in *.
        replace (64 <=? 1 + 0 + zlen (dec_str x)) with false by (symmetry; apply Z.leb_gt; lia). match goal with |- context [1024 <=? ?z] => replace (1024 <=? z) with false by (symmetry; apply Z.leb_gt; lia) end. cbn [orb rbind]. rewrite <- app_assoc. reflexivity. }
    assert (Xb : cm_type (wk_member k) = T_BOOL -> x = 0) by (intros Tb; destruct Bx as [Bx|(w' & Wd' & Hx' & _)]; [exact Bx|]; rewrite (width_bool _ _ _ Tb Wd') in Hx'; lia).
    unfold show_seg in *. rewrite Nm. unfold idx in *. destruct (sg_at (wk_seg k)) as [ii|] eqn:Sg.
    + replace (1 <? cm_count (wk_member k)) with true by lia. destruct (cm_type (wk_member k) =? T_BOOL) eqn:T.
      * assert (Tb : cm_type (wk_member k) = T_BOOL) by lia. specialize (Xb Tb). subst x. assert (w = 1) by (eapply width_bool; [exact Tb | exact Wd]). subst w. rewrite cint_ok by lia. cbn [rbind]. replace ((fb - y) * 8 + (fbit - b)) with ii by lia. rewrite print_dec by lia.
        change ([46] ++ sg_name (wk_seg k) ++ [91] ++ dec_str ii ++ [93]) with (46 :: sg_name (wk_seg k) ++ [91] ++ dec_str ii ++ [93]). rewrite G. cbn [rbind]. rewrite Tb. cbn [negb]. change (is_custom T_BOOL) with false. cbn iota.
        exists cc1. split; [|exact M1]. change (dot_bit 0) with (@nil Z). rewrite app_nil_r. destruct (negb (y =? fb) || negb (b =? fbit)); reflexivity.
      * assert (Nb : cm_type (wk_member k) <> T_BOOL) by lia. destruct (client_size _ W ltac:(lia) Rg _ _ cc1 K Wd Nb Wp M1) as (n & cc2 & -> & M2 & Ew & Pn). cbn [rbind]. replace (n =? 0) with false by lia. cbv zeta.
        specialize (Bn Nb). subst b. specialize (Al Nb). assert (Q : Z.quot (fb - y) n = ii). { assert (8 * (fb - y) + fbit = 8 * (n * ii) + x) by lia. rewrite Z.quot_div_nonneg by lia. symmetry. apply (Z.div_unique _ _ _ (fb - y - n * ii)); lia. }
        rewrite Q. rewrite cint_ok by lia. cbn [rbind]. rewrite print_dec by lia.
        change ([46] ++ sg_name (wk_seg k) ++ [91] ++ dec_str ii ++ [93]) with (46 :: sg_name (wk_seg k) ++ [91] ++ dec_str ii ++ [93]). rewrite G. cbn [rbind]. rewrite Nm in Fin. apply Fin; [exact M2 | exact Nb | lia].
    + replace (1 <? cm_count (wk_member k)) with false by lia. rewrite app_nil_r in *. change ([46] ++ sg_name (wk_seg k)) with (46 :: sg_name (wk_seg k)). rewrite G. cbn [rbind].
      destruct (cm_type (wk_member k) =? T_BOOL) eqn:T.
      * assert (Tb : cm_type (wk_member k) = T_BOOL) by lia. specialize (Xb Tb). subst x. exists cc1. split; [|exact M1]. rewrite Tb. change (is_custom T_BOOL) with false. cbn [negb]. change (dot_bit 0) with (@nil Z). rewrite app_nil_r. destruct (negb (y =? fb) || negb (b =? fbit)); reflexivity.
      * assert (Nb : cm_type (wk_member k) <> T_BOOL) by lia. specialize (Bn Nb). subst b. specialize (Al Nb). rewrite Nm in Fin. apply Fin; [exact M1 | exact Nb | lia].
  - destruct (leads_nonnil _ _ _ _ Ld) as (k' & r & ->). rewrite last_more in *. apply Forall_inv_tail in So, Ex, Td. destruct (leads_sized _ _ _ _ Ld) as (size' & Ts').
    destruct (leads_range s W L Rg _ _ _ Ld size' Ts' So Lf) as (Q1 & Q2 & i' & Ri' & Et' & _).
    assert (Lr := zlen_nonneg r). rewrite !zlen_cons in Dp, Fu.
    assert (Qx : 0 < q + x /\ q + x < 8 * size') by (split; [destruct Bx as [->|(w' & _ & Hx & _)]; [specialize (Q2 ltac:(lia)); lia | lia] | exact (leads_below s W L Rg _ _ _ Ld size' x Ts' So Lf Bx)]). clear Q2. destruct (custom_type i' ltac:(lia)) as [Cu _]. rewrite <- Et' in Cu.
    assert (Nb : cm_type (wk_member k) <> T_BOOL) by (intros Q; rewrite Q in Cu; discriminate Cu).
    assert (Ew : w = 8 * size'). { destruct Wd as [w B|n Cn Tn]; [apply widths_fun in B as (_ & _ & Nc & _); congruence|]. rewrite Tn in Ts'. congruence. }
    destruct fuel as [|fuel]; [lia|]. cbn [fqn_member]. rewrite Et in Ts |- *.
    destruct (items_ok (s_types s) W L Rg cc i c size _ M Zc Ts Ly Pk) as (cc1 & items & -> & M1 & F2). cbn [rbind fq_member fq_byte fq_bit].
    assert (Wx : 0 <= w * idx (wk_seg k)) by nia. assert (Wl : w * idx (wk_seg k) + w <= l) by nia.
    destruct (steps_ok (s_types s) fb fbit (8 * y0) (wk_member k) (wk_pos k) l after Hf ltac:(lia) ltac:(lia) ltac:(lia) ltac:(lia) (wk_before k) items 0 (mk_fq mem false y0 0) F2 Fs Pk eq_refl ltac:(cbn; lia) ltac:(cbn; lia) ltac:(cbn; lia) T1) as (y & b & -> & Yb & B0 & Yp & Bn).
    cbn [rbind fq_member fq_byte fq_bit fq_done it_count it_type it_name]. specialize (Bn Nb). specialize (Al Nb). subst b.
    change (tail_text (k :: k' :: r)) with ((46 :: show_seg (wk_seg k)) ++ tail_text (k' :: r)) in Ln |- *. rewrite <- app_assoc in Ln |- *. assert (G := glue_ok s0 (wk_seg k) (tail_text (k' :: r) ++ dot_bit x) S1 Ln). assert (Go : zlen (s0 ++ 46 :: show_seg (wk_seg k)) + zlen (tail_text (k' :: r) ++ dot_bit x) < 1024) by (rewrite !zlen_app in Ln |- *; lia).
    assert (Tb : (cm_type (wk_member k) =? T_BOOL) = false) by lia. rewrite Tb, app_assoc.
    assert (Fin : forall cc2 d0 m0 y1, mirrors (s_types s) cc2 -> y1 = y + size' * idx (wk_seg k) -> exists cc', (if negb (y1 =? fb) || negb (0 =? fbit) then if is_custom (cm_type (wk_member k)) then fqn_member fuel (s_types s) fb fbit cc2 (s0 ++ 46 :: show_seg (wk_seg k)) (cm_type (wk_member k)) (mk_fq m0 d0 y1 0) else
        if negb false then i0 <-- cint ((fb - y1) * 8 + (fbit - 0));; s1 <-- glue (s0 ++ 46 :: show_seg (wk_seg k)) ([46] ++ print_d i0);; Done (cc2, s1) else Done (cc2, s0 ++ 46 :: show_seg (wk_seg k)) else Done (cc2, s0 ++ 46 :: show_seg (wk_seg k))) = Done (cc', (s0 ++ 46 :: show_seg (wk_seg k)) ++ tail_text (k' :: r) ++ dot_bit x) /\ mirrors (s_types s) cc').
    { intros cc2 d0 m0 y1 M2 Ey. replace (negb (y1 =? fb) || negb (0 =? fbit)) with true by (symmetry; apply orb_true_iff; destruct (y1 =? fb) eqn:Z1; [right; replace (0 =? fbit) with false by lia; reflexivity | left; reflexivity]). rewrite Cu.
      apply (IH fuel size'); try assumption; try lia. rewrite zlen_cons. lia. }
    unfold show_seg in G |- *. unfold show_seg in Fin. rewrite Nm. unfold idx in *. destruct (sg_at (wk_seg k)) as [ii|] eqn:Sg.
    + replace (1 <? cm_count (wk_member k)) with true by lia. destruct (client_size _ W ltac:(lia) Rg _ _ cc1 K Wd Nb Wp M1) as (n & cc2 & -> & M2 & Ew2 & Pn). cbn [rbind]. replace (n =? 0) with false by lia. cbv zeta. assert (n = size') by lia. subst n.
      assert (Q : Z.quot (fb - y) size' = ii). { assert (8 * (fb - y) + fbit = 8 * (size' * ii) + (q + x)) by lia. rewrite Z.quot_div_nonneg by lia. symmetry. apply (Z.div_unique _ _ _ (fb - y - size' * ii)); lia. }
      rewrite Q. assert (Si : 0 <= size' * ii <= 2147483647) by nia. rewrite cint_ok by lia. cbn [rbind]. rewrite print_dec by lia.
      change ([46] ++ sg_name (wk_seg k) ++ [91] ++ dec_str ii ++ [93]) with (46 :: sg_name (wk_seg k) ++ [91] ++ dec_str ii ++ [93]). rewrite G. cbn [rbind]. apply Fin; [exact M2 | lia].
    + replace (1 <? cm_count (wk_member k)) with false by lia. rewrite app_nil_r in *. change ([46] ++ sg_name (wk_seg k)) with (46 :: sg_name (wk_seg k)). rewrite G. cbn [rbind]. apply Fin; [exact M1 | lia].
Qed.
Lemma member_text : forall E s cc tags tg tag ks q n h size x,
  reachable E s -> few s -> readable s -> agrees s cc -> tags (ct_idx tag) = Some tag -> sg_name tg = ct_name tag -> seg_ok tg ->
  leads s (ct_type tag) ks q -> Forall (fun k => seg_ok (wk_seg k)) ks -> idx (wk_seg (last_walk ks)) < cm_count (wk_member (last_walk ks)) ->
  type_size (s_types s) (ct_type tag) = Done size -> 8 * size * Z.max 1 (ct_count tag) <= 2147483647 ->
  h_index h = ct_idx tag -> h_type h <> ct_type tag -> 8 * h_byte h + h_bit h = 8 * size * idx tg + q + x -> 0 <= h_bit h -> 0 <= h_byte h -> h_count h = n -> (x = 0 \/ below s (cm_type (wk_member (last_walk ks))) x) -> h_bit h < 8 -> Forall exactly ks ->
  match sg_at tg with Some i => i < ct_count tag /\ 1 < ct_count tag /\ (0 < h_byte h \/ n <> ct_count tag) | None => ct_count tag <= 1 end ->
  (zlen ks = 1 \/ 0 < wk_pos (last_walk ks) \/ 0 < idx (wk_seg (last_walk ks)) \/ 0 < x) -> Forall tidy_walk ks -> zlen (show tg (map wk_seg ks) ++ dot_bit x) < 1024 ->
  exists cc', dax_fqn (s_types s) tags cc h = Done (cc', Some (show tg (map wk_seg ks) ++ dot_bit x)) /\ agrees s cc'.
Proof.
  intros E s cc tags tg tag ks q n h size x R Fw Rd A Tg Nm So Ld Sk Lf Ts Bd P1 P2 P3 P4 P5 P6 Bx Hb Ex Ix Dp Td Ln. assert (W := reachable_wf _ _ R). assert (Rg := readable_regular _ Rd). unfold few in Fw. assert (Lz : zlen (s_types s) <= 1073741824) by lia.
  destruct (leads_range s W Lz Rg _ _ _ Ld size Ts Sk Lf) as (Q1 & _ & i & Ri & Et & Lk & _). assert (Q2 := leads_below s W Lz Rg _ _ _ Ld size x Ts Sk Lf Bx). assert (X0 : 0 <= x) by (destruct Bx as [->|(w & _ & Hx & _)]; lia). destruct (custom_type i ltac:(lia)) as [Cu _]. rewrite <- Et in Cu.
  unfold dax_fqn. rewrite P1, Tg. assert (Nb : ct_type tag <> T_BOOL) by (intros Q; rewrite Q in Cu; discriminate Cu). replace (ct_type tag =? T_BOOL) with false by lia.
  assert (Kn : known (s_types s) (ct_type tag)) by (right; exists i; auto). assert (Wd : width (s_types s) (ct_type tag) (8 * size)) by (apply width_cdt; assumption).
  destruct (client_size _ W ltac:(lia) Rg _ _ cc Kn Wd Nb ltac:(lia) A) as (m & cc1 & -> & M1 & Ew & Pn). cbn [rbind]. assert (m = size) by lia. subst m. replace (size =? 0) with false by lia.
  rewrite Cu. assert (Ht : (h_type h =? ct_type tag) = false) by lia. rewrite Ht. cbn [andb negb]. destruct So as [Sv Si]. rewrite show_tail, <- app_assoc in Ln |- *. rewrite zlen_app in Ln.
  assert (Fu : zlen ks <= Z.of_nat (Datatypes.S (length (s_types s)))) by (unfold zlen in *; lia).
  assert (Hd : h_byte h / size = idx tg). { symmetry. apply (Z.div_unique _ _ _ (h_byte h - size * idx tg)); [left; lia | lia]. }
  assert (Us : u32 size = size) by (unfold u32; rewrite Z.mod_small by nia; reflexivity). unfold idx in *. unfold show_seg in Ln |- *. rewrite Nm in Ln |- *. destruct (sg_at tg) as [ii|].
  - destruct Ix as (I1 & I2 & I3). assert (Bi : 8 * size * (ii + 1) <= 2147483647) by nia. assert (Ip : 0 <= size * ii) by nia.
    replace ((1 <? ct_count tag) && ((0 <? h_byte h) || negb (h_count h =? ct_count tag))) with true by lia. cbv zeta beta iota. rewrite Us, Hd. rewrite (s32_small ii) by lia. rewrite cint_ok by lia. cbn [rbind]. rewrite print_dec by lia. rewrite s32_small by lia.
    destruct (named s W Lz Rg _ _ _ Ld (Datatypes.S (length (s_types s))) size (h_byte h) (h_bit h) (ii * size) (ct_name tag ++ [91] ++ dec_str ii ++ [93]) None false cc1 x Ts ltac:(lia) ltac:(lia) ltac:(lia) ltac:(lia) Bx Sk Ex Td Lf Dp Fu Ln M1) as (cc2 & E2 & M2).
    rewrite E2. cbn [rbind]. exists cc2. auto.
  - replace (1 <? ct_count tag) with false by lia. cbn [andb]. cbv beta iota. rewrite cint_ok by lia. cbn [rbind]. rewrite s32_small by nia. rewrite app_nil_r in *.
    destruct (named s W Lz Rg _ _ _ Ld (Datatypes.S (length (s_types s))) size (h_byte h) (h_bit h) (0 * size) (ct_name tag) None false cc1 x Ts ltac:(nia) ltac:(lia) ltac:(lia) ltac:(lia) Bx Sk Ex Td Lf Dp Fu Ln M1) as (cc2 & E2 & M2).
    rewrite E2. cbn [rbind]. exists cc2. auto.
Qed.
(** the name of a handle that points at a member: the path of that member, with an index exactly for arrays.
    Missing: the tag's index is left out when the handle begins in the first byte and has as many elements as the tag (C167_index_refuted);
    a member that lies at the very beginning of a compound member is not named (C167_first_refuted), nor is bit 0 of a member (C167_bit0_refuted);
    the remainders of adjacent BOOLs are not carried over (C167_carry_refuted); and the name is shorter than the buffer. *)
Theorem C167_member_partial : forall E s cc tags tg tag ks q w n h size,
  reachable E s -> few s -> readable s -> agrees s cc -> tags (ct_idx tag) = Some tag -> sg_name tg = ct_name tag -> seg_ok tg ->
  leads s (ct_type tag) ks q -> Forall (fun k => seg_ok (wk_seg k)) ks -> idx (wk_seg (last_walk ks)) < cm_count (wk_member (last_walk ks)) ->
  type_size (s_types s) (ct_type tag) = Done size -> 8 * size * Z.max 1 (ct_count tag) <= 2147483647 ->
  points h tag (cm_type (wk_member (last_walk ks))) (8 * size * idx tg + q) w n -> h_bit h < 8 -> Forall exactly ks ->
  match sg_at tg with Some i => i < ct_count tag /\ 1 < ct_count tag /\ (0 < h_byte h \/ n <> ct_count tag) | None => ct_count tag <= 1 end ->
  (zlen ks = 1 \/ 0 < wk_pos (last_walk ks) \/ 0 < idx (wk_seg (last_walk ks))) -> Forall tidy_walk ks -> zlen (show tg (map wk_seg ks)) < 1024 ->
  exists cc', dax_fqn (s_types s) tags cc h = Done (cc', Some (show tg (map wk_seg ks))) /\ agrees s cc'.
Proof.
  intros E s cc tags tg tag ks q w n h size R Fw Rd A Tg Nm So Ld Sk Lf Ts Bd (P1 & P2 & P3 & P4 & P5 & P6 & P7) Hb Ex Ix Dp Td Ln. assert (W := reachable_wf _ _ R). assert (Rg := readable_regular _ Rd). assert (Fw' := Fw). unfold few in Fw'.
  destruct (leads_range s W ltac:(lia) Rg _ _ _ Ld size Ts Sk Lf) as (_ & _ & i & Ri & Et & _ & Nt).
  assert (Ht : h_type h <> ct_type tag) by (rewrite P2, Et; apply Nt; lia). assert (P3' : 8 * h_byte h + h_bit h = 8 * size * idx tg + q + 0) by lia.
  assert (Dp' : zlen ks = 1 \/ 0 < wk_pos (last_walk ks) \/ 0 < idx (wk_seg (last_walk ks)) \/ 0 < 0) by (destruct Dp as [Dp|[Dp|Dp]]; auto).
  assert (Ln' : zlen (show tg (map wk_seg ks) ++ dot_bit 0) < 1024) by (change (dot_bit 0) with (@nil Z); rewrite app_nil_r; exact Ln).
  destruct (member_text E s cc tags tg tag ks q n h size 0 R Fw Rd A Tg Nm So Ld Sk Lf Ts Bd P1 Ht P3' P4 P5 P6 (or_introl eq_refl) Hb Ex Ix Dp' Td Ln') as (cc' & E1 & A1).
  change (dot_bit 0) with (@nil Z) in E1. rewrite app_nil_r in E1. exists cc'. auto.
Qed.
(** the name of a handle that points at bit [x] (not bit 0) of a member, or of an element of a member *)
Theorem C167_member_bit_partial : forall E s cc tags tg tag ks q w x n h size,
  reachable E s -> few s -> readable s -> agrees s cc -> tags (ct_idx tag) = Some tag -> sg_name tg = ct_name tag -> seg_ok tg ->
  leads s (ct_type tag) ks q -> Forall (fun k => seg_ok (wk_seg k)) ks -> idx (wk_seg (last_walk ks)) < cm_count (wk_member (last_walk ks)) ->
  In (cm_type (wk_member (last_walk ks)), w) widths -> 0 < x < w ->
  type_size (s_types s) (ct_type tag) = Done size -> 8 * size * Z.max 1 (ct_count tag) <= 2147483647 ->
  points h tag T_BOOL (8 * size * idx tg + q + x) 1 n -> h_bit h < 8 -> Forall exactly ks ->
  match sg_at tg with Some i => i < ct_count tag /\ 1 < ct_count tag /\ (0 < h_byte h \/ n <> ct_count tag) | None => ct_count tag <= 1 end ->
  Forall tidy_walk ks -> zlen (show tg (map wk_seg ks) ++ 46 :: dec_str x) < 1024 ->
  exists cc', dax_fqn (s_types s) tags cc h = Done (cc', Some (show tg (map wk_seg ks) ++ 46 :: dec_str x)) /\ agrees s cc'.
Proof.
  intros E s cc tags tg tag ks q w x n h size R Fw Rd A Tg Nm So Ld Sk Lf Wx Hx Ts Bd (P1 & P2 & P3 & P4 & P5 & P6 & P7) Hb Ex Ix Td Ln. assert (W := reachable_wf _ _ R). assert (Rg := readable_regular _ Rd). assert (Fw' := Fw). unfold few in Fw'.
  destruct (leads_range s W ltac:(lia) Rg _ _ _ Ld size Ts Sk Lf) as (_ & _ & i & Ri & Et & _ & Nt).
  assert (D : dot_bit x = 46 :: dec_str x) by (unfold dot_bit; replace (x =? 0) with false by lia; reflexivity). rewrite <- D in *.
  assert (Ht : h_type h <> ct_type tag) by (rewrite P2, Et; intros Q; destruct (custom_type i ltac:(lia)) as [C1 _]; rewrite <- Q in C1; discriminate C1).
  assert (Bx : below s (cm_type (wk_member (last_walk ks))) x) by (exists w; split; [left; exact Wx|]; split; [exact Hx|]; apply widths_fun in Wx; tauto).
  assert (Dp : zlen ks = 1 \/ 0 < wk_pos (last_walk ks) \/ 0 < idx (wk_seg (last_walk ks)) \/ 0 < x) by (right; right; right; lia).
  exact (member_text E s cc tags tg tag ks q n h size x R Fw Rd A Tg Nm So Ld Sk Lf Ts Bd P1 Ht P3 P4 P5 P6 (or_intror Bx) Hb Ex Ix Dp Td Ln).
Qed.
(** and dax_tag_handle finds the same place again under that name, where it resolves such names at all (C49) *)
Theorem C167_back_partial : forall E s cc db tags tg tag ks q w n h size,
  reachable E s -> few s -> readable s -> agrees s cc -> tags (ct_idx tag) = Some tag -> sg_name tg = ct_name tag -> seg_ok tg -> db (ct_name tag) = Some tag ->
  leads s (ct_type tag) ks q -> width (s_types s) (cm_type (wk_member (last_walk ks))) w -> 1 <= n -> last_fits ks n -> tame n ks ->
  type_size (s_types s) (ct_type tag) = Done size -> 8 * size * Z.max 1 (ct_count tag) <= 2147483647 ->
  points h tag (cm_type (wk_member (last_walk ks))) (8 * size * idx tg + q) w n -> h_bit h < 8 -> Forall exactly ks ->
  match sg_at tg with Some i => i < ct_count tag /\ 1 < ct_count tag /\ (0 < h_byte h \/ n <> ct_count tag) | None => ct_count tag <= 1 end ->
  (zlen ks = 1 \/ 0 < wk_pos (last_walk ks) \/ 0 < idx (wk_seg (last_walk ks))) -> Forall tidy_walk ks -> zlen (show tg (map wk_seg ks)) < 1024 ->
  exists cc1 t cc2 h', dax_fqn (s_types s) tags cc h = Done (cc1, Some t) /\ tag_handle (s_types s) db cc1 t n = Done (cc2, inl h') /\
    points h' tag (cm_type (wk_member (last_walk ks))) (8 * size * idx tg + q) w n /\ (h_bit h' < 8 -> h' = h).
Proof.
  intros E s cc db tags tg tag ks q w n h size R Fw Rd A Tg Nm So Db Ld Wd N1 Lf Tm Ts Bd Pt Hb Ex Ix Dp Td Ln.
  assert (Sk : Forall (fun k => seg_ok (wk_seg k)) ks) by (clear -Tm; induction ks as [|k ks IH]; [constructor|]; cbn [tame] in Tm; constructor; tauto).
  assert (Hm : howmany (wk_seg (last_walk ks)) (wk_member (last_walk ks)) n = n) by (unfold howmany; replace (n =? 0) with false by lia; reflexivity).
  assert (Li : idx (wk_seg (last_walk ks)) < cm_count (wk_member (last_walk ks))) by (unfold last_fits in Lf; rewrite Hm in Lf; lia).
  destruct (C167_member_partial E s cc tags tg tag ks q w n h size R Fw Rd A Tg Nm So Ld Sk Li Ts Bd Pt Hb Ex Ix Dp Td Ln) as (cc1 & E1 & A1).
  assert (Ti : match sg_at tg with Some i => i < ct_count tag | None => ct_count tag <= 1 end) by (destruct (sg_at tg); tauto). rewrite <- Nm in Db.
  destruct (C49_member_partial E s cc1 db tg tag ks q w n size R Fw Rd A1 So Db Ti Ld Wd ltac:(lia) Lf Tm Ts Bd) as (cc2 & h' & E2 & A2 & P2 & _). rewrite Hm in P2.
  exists cc1, (show tg (map wk_seg ks)), cc2, h'. split; [exact E1|]. split; [exact E2|]. split; [exact P2|]. intros H8. exact (same_handle _ _ _ _ _ _ _ P2 Pt H8 Hb).
Qed.

(** ** Where the claim fails, on concrete types *)
Definition fq_state : server := after_ops envS (ty_ops ++ [OpCdtCreate 5 (str "Flat:n,INT,1:p,Pt,2"); OpCdtCreate 5 (str "Wide:a,BOOL,7:b,BOOL,7:n,INT,1")]).
Definition tags_t (t n : Z) : Z -> option ctag := fun _ => Some (mk_ct (str "t") 20 t n 0).
(** four bits of the first of four INTs: the name has no index, dax_tag_handle refuses it *)
Theorem C167_index_refuted : exists cc h, tag_handle (s_types fq_state) (some_tag T_INT 4) [] (str "t[0].3") 4 = Done (cc, inl h) /\
  dax_fqn (s_types fq_state) (tags_t T_INT 4) cc h = Done (cc, Some (str "t.3")) /\ tag_handle (s_types fq_state) (some_tag T_INT 4) cc (str "t.3") 4 = Done (cc, inr E_ARG).
Proof. exists [], (mk_h 20 0 3 4 1 T_BOOL). split; [vm_compute; reflexivity|]. split; vm_compute; reflexivity. Qed.
(** the same for the three flags of the first of three Pts *)
Theorem C167_element_refuted : exists cc cc1 h, tag_handle (s_types fq_state) (some_tag (cdt_type 2) 3) [] (str "t[0].flag") 3 = Done (cc, inl h) /\
  dax_fqn (s_types fq_state) (tags_t (cdt_type 2) 3) cc h = Done (cc1, Some (str "t.flag[0]")) /\ tag_handle (s_types fq_state) (some_tag (cdt_type 2) 3) cc1 (str "t.flag[0]") 3 = Done (cc1, inr E_ARBITRARY).
Proof. do 3 eexists. split; [vm_compute; reflexivity|]. split; [vm_compute; reflexivity|]. vm_compute. reflexivity. Qed.
(** the flag of the first Pt in a Flat: the name is that of the Pt *)
Theorem C167_first_refuted : exists cc cc1 cc2 h h', tag_handle (s_types fq_state) (some_tag (cdt_type 4) 1) [] (str "t.p[0].flag") 1 = Done (cc, inl h) /\ h_type h = T_BOOL /\
  dax_fqn (s_types fq_state) (tags_t (cdt_type 4) 1) cc h = Done (cc1, Some (str "t.p[0]")) /\ tag_handle (s_types fq_state) (some_tag (cdt_type 4) 1) cc1 (str "t.p[0]") 1 = Done (cc2, inl h') /\ h_type h' = cdt_type 2.
Proof. do 5 eexists. split; [vm_compute; reflexivity|]. split; [vm_compute; reflexivity|]. split; [vm_compute; reflexivity|]. split; [vm_compute; reflexivity|]. vm_compute. reflexivity. Qed.
(** bit 0 of the INT in a Flat: the name is that of the INT *)
Theorem C167_bit0_refuted : exists cc cc1 cc2 h h', tag_handle (s_types fq_state) (some_tag (cdt_type 4) 1) [] (str "t.n.0") 1 = Done (cc, inl h) /\ h_type h = T_BOOL /\
  dax_fqn (s_types fq_state) (tags_t (cdt_type 4) 1) cc h = Done (cc1, Some (str "t.n")) /\ tag_handle (s_types fq_state) (some_tag (cdt_type 4) 1) cc1 (str "t.n") 1 = Done (cc2, inl h') /\ h_type h' = T_INT.
Proof. do 5 eexists. split; [vm_compute; reflexivity|]. split; [vm_compute; reflexivity|]. split; [vm_compute; reflexivity|]. split; [vm_compute; reflexivity|]. vm_compute. reflexivity. Qed.
(** the INT in a Wide, which begins at byte 2 behind twice seven BOOLs: the code thinks it begins at byte 1 and names a bit of it *)
Theorem C167_carry_refuted : exists cc cc1 cc2 h h', tag_handle (s_types fq_state) (some_tag (cdt_type 5) 1) [] (str "t.n") 1 = Done (cc, inl h) /\ h_byte h = 2 /\ h_type h = T_INT /\
  dax_fqn (s_types fq_state) (tags_t (cdt_type 5) 1) cc h = Done (cc1, Some (str "t.n.8")) /\ tag_handle (s_types fq_state) (some_tag (cdt_type 5) 1) cc1 (str "t.n.8") 1 = Done (cc2, inl h') /\ h_type h' = T_BOOL.
Proof. do 5 eexists. split; [vm_compute; reflexivity|]. split; [vm_compute; reflexivity|]. split; [vm_compute; reflexivity|]. split; [vm_compute; reflexivity|]. split; [vm_compute; reflexivity|]. vm_compute. reflexivity. Qed.
(** the hypotheses are met: two of four INTs; bits 9 to 11 of an INT; t[2].p[1].x[1] in an array of three Flats *)
Example C167_ex : (points (mk_h 20 2 0 2 4 T_INT) (mk_ct (str "t") 20 T_INT 4 0) T_INT (16 * 1) 16 2 /\ dax_fqn (s_types pa_state) (tags_t T_INT 4) [] (mk_h 20 2 0 2 4 T_INT) = Done ([], Some (str "t[1]"))) /\
  (points (mk_h 20 3 1 3 1 T_BOOL) (mk_ct (str "t") 20 T_INT 4 0) T_BOOL (16 * 1 + 9) 1 3 /\ dax_fqn (s_types pa_state) (tags_t T_INT 4) [] (mk_h 20 3 1 3 1 T_BOOL) = Done ([], Some (str "t[1].9"))) /\
  reachable envS pa_state /\ few pa_state /\ readable pa_state /\ agrees pa_state [] /\
  (let ks := [w_p [(mk_cm (str "n") T_INT 1, 0, 16)] 16 (Some 1); w_x (Some 1)] in
   leads pa_state (cdt_type 4) ks 80 /\ tame 1 ks /\ last_fits ks 1 /\ Forall exactly ks /\ Forall tidy_walk ks /\ 0 < wk_pos (last_walk ks) /\ seg_ok (mk_seg (str "t") (Some 2)) /\ type_size (s_types pa_state) (cdt_type 4) = Done 12 /\
   points (mk_h 20 34 0 1 2 T_INT) (mk_ct (str "t") 20 (cdt_type 4) 3 0) T_INT (8 * 12 * 2 + 80) 16 1) /\
  exists cc, dax_fqn (s_types pa_state) (tags_t (cdt_type 4) 3) [] (mk_h 20 34 0 1 2 T_INT) = Done (cc, Some (str "t[2].p[1].x[1]")).
Proof.
  split; [split; [repeat split; cbn; lia | vm_compute; reflexivity]|]. split; [split; [repeat split; cbn; lia | vm_compute; reflexivity]|].
  destruct C49_ex as (X1 & X2 & X3 & X4 & (Y1 & _ & _ & Y2 & _ & Y3) & _). split; [exact X1|]. split; [exact X2|]. split; [exact X3|]. split; [exact X4|].
  split; [|eexists; vm_compute; reflexivity]. cbv zeta. split; [exact Y1|].
  split.
  { cbn [tame]. split; [split; [reflexivity | cbn; lia]|]. split; [constructor; [intros Q; discriminate Q | constructor]|]. split; [intros _; split; [reflexivity | intros _; cbn; lia]|].
    split; [split; [reflexivity | cbn; lia]|]. split; [constructor; [intros _; cbn; lia | constructor]|]. split; [intros Q; congruence | exact I]. }
  split; [cbv; discriminate|]. split; [constructor; [cbn; lia | constructor; [cbn; lia | constructor]]|].
  split; [constructor; [cbn; lia | constructor; [cbn; lia | constructor]]|]. split; [reflexivity|]. split; [exact Y2|]. split; [exact Y3|]. repeat split; cbn; lia.
Qed.
Example C167_bit_ex : points (mk_h 20 35 2 3 1 T_BOOL) (mk_ct (str "t") 20 (cdt_type 4) 3 0) T_BOOL (8 * 12 * 2 + 80 + 10) 1 3 /\ In (cm_type (wk_member (last_walk [w_p [(mk_cm (str "n") T_INT 1, 0, 16)] 16 (Some 1); w_x (Some 1)])), 16) widths /\
  exists cc, dax_fqn (s_types pa_state) (tags_t (cdt_type 4) 3) [] (mk_h 20 35 2 3 1 T_BOOL) = Done (cc, Some (str "t[2].p[1].x[1].10")).
Proof. split; [repeat split; cbn; lia|]. split; [cbn; tauto | eexists; vm_compute; reflexivity]. Qed.

(** ** C168: the number of members *)
Theorem C168_count : forall E s cc t c, reachable E s -> few s -> readable s -> agrees s cc -> denotes s t c ->
  exists cc', cdt_member_count (s_types s) cc t = Done (cc', zlen (c_members c)) /\ agrees s cc'.
Proof.
  intros E s cc t c R F Rd A (i & -> & Zc). assert (W := reachable_wf _ _ R). assert (Rg := readable_regular _ Rd). unfold few in F. assert (Ri := znth_range _ _ _ Zc).
  unfold cdt_member_count. destruct (pointer_ok (s_types s) W ltac:(lia) Rg cc i c A Zc) as (cc1 & -> & M1). exists cc1. split; [reflexivity | exact M1].
Qed.
(** a compound type that does not exist yet is an error *)
Theorem C168_none : forall E s cc, reachable E s -> few s -> readable s -> agrees s cc -> cdt_member_count (s_types s) cc (cdt_type (zlen (s_types s))) = Done (cc, E_ARG) /\ E_ARG < 0.
Proof. intros E s cc R F Rd A. unfold few in F. split; [|reflexivity]. unfold cdt_member_count. rewrite no_pointer; [reflexivity | lia | exact A]. Qed.
(** a type without members is not an error: its number of members is 0 *)
Theorem C168_base : forall ts cc t, In t base_types -> cdt_member_count ts cc t = Done (cc, 0).
Proof. intros ts cc t B. unfold cdt_member_count, cdt_pointer. destruct (base_not_custom t B) as [-> _]. reflexivity. Qed.
Example C168_ex : (exists cc, cdt_member_count (s_types pa_state) [] (cdt_type 3) = Done (cc, 3)) /\ denotes pa_state (cdt_type 3) c_box /\ zlen (c_members c_box) = 3.
Proof. split; [eexists; vm_compute; reflexivity|]. split; [exists 3; split; [reflexivity | vm_compute; reflexivity] | reflexivity]. Qed.
