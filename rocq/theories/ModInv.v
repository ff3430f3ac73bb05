(** * ModInv: the server's own tags, its own types and the module list in all reachable states *)
From Verif Require Import Base Const Types State Events Atomic Server Lib SearchProofs Shape Inv Reach Spec Frame Effects Out DataFrame.

(** ** start-up, computed *)
Definition sys_tags : list (name * Z) :=
  [ (str "_tagcount", T_DINT); (str "_lastindex", T_DINT); (str "_tag_added", cdt_type 1); (str "_tag_deleted", cdt_type 1);
    (str "_dbsize", T_DINT); (str "_starttime", T_TIME); (str "_lastmodule", T_CHAR); (str "_overrides_installed", T_DINT);
    (str "_overrides_set", T_DINT); (str "_time", T_TIME); (str "_my_tagname", T_CHAR) ].
Definition sys_types : list cdt := match cdt_create [] mod_cdt with
  | Done (ts, _, _) => match cdt_create ts desc_cdt with Done (ts', _, _) => ts' | Undef _ => [] end | Undef _ => [] end.
Definition view (s : server) :=
  (map (fun t => (t_name t, t_type t, has (t_attr t) A_OWNED)) (s_db s), s_types s, s_mods s, s_nextuid s).
Lemma init_view E now r : exists s, init_tagbase E (empty_server now r) = Done (s, tt) /\
  view s = (map (fun x => (Some (fst x), snd x, false)) sys_tags, sys_types, [], s_nextuid (empty_server now r)).
Proof.
  assert (H : (match init_tagbase E (empty_server now r) with Done (s, _) => Some (view s) | Undef _ => None end) =
    Some (map (fun x => (Some (fst x), snd x, false)) sys_tags, sys_types, [], s_nextuid (empty_server now r))) by (vm_compute; reflexivity).
  destruct (init_tagbase E (empty_server now r)) as [[s []]|]; [|discriminate]. exists s. split; congruence.
Qed.

(** ** what every step but (un)registration keeps *)
Record srel (s s' : server) : Prop := {
  sr_mods : map mod_core (s_mods s') = map mod_core (s_mods s);
  sr_uid : s_nextuid s' = s_nextuid s;
  sr_types : exists x, s_types s' = s_types s ++ x;
  sr_len : zlen (s_db s) <= zlen (s_db s');
  sr_tag : forall j t, j < 11 -> znth (s_db s) j = Some t -> exists t', znth (s_db s') j = Some t' /\
     t_name t' = t_name t /\ t_type t' = t_type t /\ has (t_attr t') A_OWNED = has (t_attr t) A_OWNED }.
Lemma srel_refl s : srel s s.
Proof. constructor; eauto; [exists []; rewrite app_nil_r; reflexivity | lia]. Qed.
Lemma srel_trans a b c : srel a b -> srel b c -> srel a c.
Proof.
  intros [A1 A2 [x A3] A4 A5] [B1 B2 [y B3] B4 B5]. constructor; try congruence; [exists (x ++ y); rewrite B3, A3, app_assoc; reflexivity | lia|].
  intros j t Hj Ht. destruct (A5 _ _ Hj Ht) as (t1 & P1 & P2 & P3 & P4). destruct (B5 _ _ Hj P1) as (t2 & Q1 & Q2 & Q3 & Q4).
  exists t2. repeat split; congruence.
Qed.
Lemma srel_shape s s' : shape s s' -> srel s s'.
Proof.
  intros S. constructor; [apply S | apply S | exists []; rewrite app_nil_r; apply S | rewrite (sh_len _ _ S); lia|].
  intros j t _ Ht. destruct (shape_tag _ _ _ _ S Ht) as (t' & A & B). exists t'. split; [exact A|]. repeat split; apply B.
Qed.
Lemma srel_same s s' : s_db s' = s_db s -> s_types s' = s_types s -> map mod_core (s_mods s') = map mod_core (s_mods s) -> s_nextuid s' = s_nextuid s -> srel s s'.
Proof.
  intros A B C D. constructor; try assumption; [exists []; rewrite app_nil_r; exact B | rewrite A; lia|]. rewrite A. eauto.
Qed.
Lemma srel_set_tag s i t t' : znth (s_db s) i = Some t -> (i < 11 -> t_name t' = t_name t /\ t_type t' = t_type t /\ has (t_attr t') A_OWNED = has (t_attr t) A_OWNED) ->
  srel s (set_tag s i t').
Proof.
  intros Ht W. constructor; try reflexivity; [exists []; rewrite app_nil_r; reflexivity | cbn; rewrite zset_zlen; lia|].
  intros j u Hj Hu. cbn. rewrite znth_zset. destruct ((i =? j) && (0 <=? i) && (i <? zlen (s_db s))) eqn:B; [|eauto].
  assert (i = j) by lia. subst i. assert (u = t) by congruence. subst u. exists t'. split; [reflexivity | apply W; exact Hj].
Qed.
Lemma set_attribute_srel E i a s s' u : 11 <= i \/ a = 0 -> set_attribute E i a s = Done (s', u) -> srel s s'.
Proof.
  intros C H. destruct C as [C| ->].
  - destruct (set_attribute_spec _ _ _ _ _ _ H) as (t & r & f & x & Ht & _ & ->).
    match goal with |- srel _ (set_ret ?Y _) => apply (srel_trans _ Y); [|apply srel_same; reflexivity] end.
    eapply srel_set_tag; [exact Ht|]. lia.
  - unfold set_attribute in H. destruct (znth (s_db s) i); [|discriminate]. cbn in H. injection H as <- _. apply srel_refl.
Qed.
(** adding a tag: either a client adds one of its own or the server passes no attributes *)
Lemma tag_add_srel E fd nm type count attr s s' r : Inv s -> 0 <= count -> tag_add E fd nm type count attr s = Done (s', r) ->
  11 <= zlen (s_db s) -> (attr = 0 \/ forall j t, znth (s_db s) j = Some t -> t_name t = Some nm -> 11 <= j) -> srel s s'.
Proof.
  intros I Hc H L C. apply tag_add_cases in H; [|exact I | lia].
  destruct H as [s' r Hr S1 | n t s0 s' u S1 Ht Hnm Hty Hct How Hsa
    | n t s0 d size s1 s' u v S1 Ht Hnm Hty Hct How Hns Hrg Hsa Htw
    | n t s0 d S1 Ht Hnm Hty Hct Hrg Hns
    | s0 s1 s3 s4 s' ix size u v w x S1 Hno Hck Hvn Hcp Hns Hix Hw1 Hw2 Hsa Hw3].
  - destruct S1 as [->|[z ->]]; [apply srel_refl | apply srel_same; reflexivity].
  - eapply srel_trans with (b := s0); [destruct S1 as [->|[z ->]]; [apply srel_refl | apply srel_same; reflexivity]|].
    eapply set_attribute_srel; [|exact Hsa]. destruct C as [->|C]; [tauto | left; eapply C; eassumption].
  - destruct (set_dbsize_db _ _ S1) as (Edb & _).
    eapply srel_trans with (b := s0); [destruct S1 as [->|[z ->]]; [apply srel_refl | apply srel_same; reflexivity]|].
    rewrite <- Edb in Ht. eapply srel_trans; [eapply srel_set_tag; [exact Ht|]|].
    2:{ eapply srel_trans; [eapply set_attribute_srel; [|exact Hsa]|].
        - destruct C as [->|C]; [tauto | left; eapply C; [rewrite <- Edb|]; eassumption].
        - apply srel_shape. eapply tag_write_shape; exact Htw. }
    intros _. auto.
  - destruct (set_dbsize_db _ _ S1) as (Edb & _).
    eapply srel_trans with (b := s0); [destruct S1 as [->|[z ->]]; [apply srel_refl | apply srel_same; reflexivity]|].
    rewrite <- Edb in Ht. eapply srel_set_tag; [exact Ht|]. auto.
  - eapply srel_trans with (b := s0); [destruct S1 as [->|[z ->]]; [apply srel_refl | apply srel_same; reflexivity]|].
    eapply srel_trans; [apply srel_shape; eapply sys_write_shape; exact Hw1|].
    eapply srel_trans; [|apply srel_shape; eapply tag_write_shape; exact Hw3].
    eapply srel_trans; [|eapply set_attribute_srel; [left; exact L | exact Hsa]].
    eapply srel_trans; [|apply srel_shape; eapply sys_write_shape; exact Hw2].
    constructor; try reflexivity; [exists []; rewrite app_nil_r; reflexivity | cbn; rewrite zlen_app; unfold zlen; cbn; lia|].
    intros j t Hj Ht. exists t. cbn. rewrite znth_app1 by (apply znth_range in Ht; lia). auto.
Qed.
Lemma tag_del_srel E i s s' r : 11 <= i -> tag_del E i s = Done (s', r) -> srel s s'.
Proof.
  intros Hi H. assert (H0 := H). apply tag_del_effect in H as [[_ ->]|(_ & _ & _ & C & _ & L & T & M)]; [apply srel_refl|].
  constructor; [rewrite M; reflexivity | | exists []; rewrite app_nil_r; exact T | lia|].
  - apply tag_del_cases in H0. destruct H0 as [r Hr | t nm o ix s1 s3 s' t1 v u Ht Hn Hd Ho Hix Hs1 Hw Ht1 Hw2]; [reflexivity|].
    rewrite (sh_uid _ _ (sys_write_shape _ _ _ _ _ _ Hw2)). cbn. rewrite (sh_uid _ _ (tag_write_shape _ _ _ _ _ _ _ _ Hw)). subst s1. reflexivity.
  - intros j t Hj Ht. assert (Q : core_at s' j = core_at s j) by (apply C; lia). unfold core_at in Q. rewrite Ht in Q.
    destruct (znth (s_db s') j) as [t'|]; [|discriminate]. exists t'. cbn in Q. unfold tcore in Q. split; [reflexivity|]. repeat split; congruence.
Qed.

(** ** the invariant *)
Definition sys_ok (E : env) (s : server) : Prop := forall j n ty, znth sys_tags j = Some (n, ty) ->
  exists t, znth (s_db s) j = Some t /\
    ((t_name t = Some n /\ t_type t = ty /\ has (t_attr t) A_OWNED = false) \/ (t_name t = None /\ en_excl E <> [])).
Definition mod_ok (E : env) (s : server) : Prop :=
  NoDup (map m_uid (s_mods s)) /\ NoDup (map m_fd (s_mods s)) /\
  forall m, In m (s_mods s) -> m_uid m < s_nextuid s /\
    ((m_tagidx m = 0 /\ In (m_name m) (en_excl E)) \/ 11 <= m_tagidx m < zlen (s_db s)).
Record SysInv (E : env) (s : server) : Prop := {
  si_types : exists x, s_types s = sys_types ++ x;
  si_tags : sys_ok E s;
  si_mods : mod_ok E s }.

Lemma sys_ok_srel E s s' : srel s s' -> sys_ok E s -> sys_ok E s'.
Proof.
  intros R S j n ty H. destruct (S _ _ _ H) as (t & A & B). assert (j < 11) by (apply znth_range in H; cbn in H; lia).
  destruct (sr_tag _ _ R _ _ H0 A) as (t' & P1 & P2 & P3 & P4). exists t'. split; [exact P1|]. rewrite P2, P3, P4. exact B.
Qed.
Definition uids (l : list (Z * name * Z * Z)) := map (fun x => fst (fst (fst x))) l.
Definition fds (l : list (Z * name * Z * Z)) := map (fun x => snd (fst x)) l.
Lemma uids_core l : map m_uid l = uids (map mod_core l).
Proof. unfold uids. rewrite map_map. reflexivity. Qed.
Lemma fds_core l : map m_fd l = fds (map mod_core l).
Proof. unfold fds. rewrite map_map. reflexivity. Qed.
Definition mcore_ok (E : env) (s : server) (l : list (Z * name * Z * Z)) : Prop :=
  NoDup (uids l) /\ NoDup (fds l) /\
  forall u n f k, In (u, n, f, k) l -> u < s_nextuid s /\ ((k = 0 /\ In n (en_excl E)) \/ 11 <= k < zlen (s_db s)).
Lemma mod_ok_core E s : mod_ok E s <-> mcore_ok E s (map mod_core (s_mods s)).
Proof.
  unfold mod_ok, mcore_ok. rewrite <- uids_core, <- fds_core. split; intros (A & B & C); (split; [exact A|]; split; [exact B|]).
  - intros u n f k H. apply in_map_iff in H as (m & H1 & H2). unfold mod_core in H1. injection H1 as <- <- <- <-. apply C; exact H2.
  - intros m H. apply (C (m_uid m) (m_name m) (m_fd m) (m_tagidx m)). apply in_map_iff. exists m. auto.
Qed.
Lemma mcore_sub E s s' l l' : mcore_ok E s l -> s_nextuid s <= s_nextuid s' -> zlen (s_db s) <= zlen (s_db s') ->
  (forall x, In x l' -> In x l) -> NoDup (uids l') -> NoDup (fds l') -> mcore_ok E s' l'.
Proof.
  intros (A & B & C) U L Sub N1 N2. split; [exact N1|]. split; [exact N2|]. intros u n f k H. destruct (C u n f k (Sub _ H)) as [P [Q|Q]]; (split; [lia|]); [left; exact Q | right; lia].
Qed.
Lemma SysInv_srel E s s' : srel s s' -> SysInv E s -> SysInv E s'.
Proof.
  intros R [[x T] S M]. constructor.
  - destruct (sr_types _ _ R) as [y Y]. exists (x ++ y). rewrite Y, T, app_assoc. reflexivity.
  - eapply sys_ok_srel; eassumption.
  - apply mod_ok_core. apply mod_ok_core in M. rewrite (sr_mods _ _ R). destruct M as (A & B & C).
    eapply mcore_sub; [split; [exact A|]; split; [exact B | exact C] | rewrite (sr_uid _ _ R); lia | apply (sr_len _ _ R) | auto | exact A | exact B].
Qed.
(** *** disconnecting *)
Lemma tag_del_tu E i s s' r : tag_del E i s = Done (s', r) -> s_types s' = s_types s /\ s_nextuid s' = s_nextuid s.
Proof.
  intros H. apply tag_del_cases in H. destruct H as [r Hr | t nm o ix s1 s3 s' t1 v u Ht Hn Hd Ho Hix Hs1 Hw Ht1 Hw2]; [auto|].
  assert (A := sys_write_shape _ _ _ _ _ _ Hw2). assert (B := tag_write_shape _ _ _ _ _ _ _ _ Hw).
  rewrite (sh_uid _ _ A), (sh_types _ _ A). cbn. rewrite (sh_uid _ _ B), (sh_types _ _ B). subst s1. auto.
Qed.
Lemma del_owned_loop_tu E fd k : forall n s s' u, del_owned_loop E fd k n s = Done (s', u) -> s_types s' = s_types s /\ s_nextuid s' = s_nextuid s.
Proof.
  induction k as [|k IH]; intros n s s' u H; cbn [del_owned_loop] in H; [inv_all; auto|]. inv1 H. apply IH in H as [-> ->].
  unfold del_owned in Hm. inv1 Hm. destruct (tag_owned s fd n); [|inv_all; auto]. apply bind_done in Hm as (s1 & v1 & H1 & H2). apply ret_done in H2 as [-> _].
  eapply tag_del_tu; exact H1.
Qed.
Lemma module_unregister_tu E fd s s' u : module_unregister E fd s = Done (s', u) -> s_types s' = s_types s /\ s_nextuid s' = s_nextuid s.
Proof.
  intros H. unfold module_unregister in H. inv1 H. destruct (find_mod s fd); [|inv_all; auto].
  inv1 H. inv1 H. inv1 H. inv1 H. unfold modify in H. injection H as <- _. cbn.
  destruct (tag_del_tu _ _ _ _ _ Hm1) as [-> ->]. destruct (del_owned_loop_tu _ _ _ _ _ _ _ Hm0) as [-> ->].
  apply cleanup_loop_shape in Hm. split; apply Hm.
Qed.
Lemma NoDup_filter_map {A B} (f : A -> B) p l : NoDup (map f l) -> NoDup (map f (filter p l)).
Proof.
  induction l as [|x l IH]; intros H; cbn in *; [constructor|]. apply NoDup_cons_iff in H as [H1 H2].
  destruct (p x); [|auto]. cbn. constructor; [|auto]. intros Q. apply H1. apply in_map_iff in Q as (y & Q1 & Q2). apply filter_In in Q2 as [Q2 _].
  apply in_map_iff. exists y. auto.
Qed.
Lemma module_unregister_sys E fd s s' u : Inv s -> SysInv E s -> module_unregister E fd s = Done (s', u) ->
  SysInv E s' /\ find_mod s' fd = None.
Proof.
  intros I [[x T] S M] H. destruct (find_mod s fd) as [m|] eqn:F.
  2:{ unfold module_unregister in H. inv1 H. rewrite F in H. inv_all. split; [constructor; eauto | exact F]. }
  destruct (module_unregister_tu _ _ _ _ _ H) as [Et Eu].
  destruct (module_unregister_effect _ _ _ _ _ _ I F H) as (A1 & A2 & A3 & A4).
  assert (Fm := F). apply find_some in Fm as [Fin Ffd]. destruct M as (M1 & M2 & M3).
  split; [constructor|].
  - exists x. congruence.
  - intros j n ty Hj. destruct (S _ _ _ Hj) as (t & B1 & B2). destruct (A1 j) as [[K _]|[K G]].
    + unfold core_at in K. rewrite B1 in K. destruct (znth (s_db s') j) as [t'|]; [|discriminate]. exists t'. split; [reflexivity|].
      cbn in K. unfold tcore in K. injection K as K1 K2 _ _ _ _ _ _ K3. rewrite K1, K2, K3. exact B2.
    + destruct G as (t' & G1 & G2 & _). exists t'. split; [exact G1|]. right. split; [exact G2|].
      destruct B2 as [(B2 & _ & B3)|[_ B2]]; [|exact B2]. destruct K as [K|K].
      * unfold tag_owned in K. rewrite B1, B3 in K. discriminate.
      * apply znth_range in Hj. cbn in Hj. destruct (M3 _ Fin) as [_ [[_ Q]|Q]]; [|lia]. intros Z. rewrite Z in Q. exact Q.
  - apply mod_ok_core. rewrite A4. eapply mcore_sub with (l := map mod_core (s_mods s)) (s := s).
    + apply mod_ok_core. split; [exact M1|]. split; [exact M2 | exact M3].
    + lia.
    + lia.
    + intros y Hy. apply in_map_iff in Hy as (z & Z1 & Z2). apply filter_In in Z2 as [Z2 _]. apply in_map_iff. eauto.
    + rewrite <- uids_core. apply NoDup_filter_map. exact M1.
    + rewrite <- fds_core. apply NoDup_filter_map. exact M2.
  - destruct (find_mod s' fd) as [m'|] eqn:F'; [|reflexivity]. exfalso. apply find_some in F' as [Q1 Q2].
    assert (Q3 : In (mod_core m') (map mod_core (s_mods s'))) by (apply in_map; exact Q1). rewrite A4 in Q3.
    apply in_map_iff in Q3 as (m2 & Q3 & Q4). apply filter_In in Q4 as [Q4 Q5]. unfold mod_core in Q3. injection Q3 as Q3 _ Q6 _.
    assert (m2 = m); [|subst m2; rewrite Z.eqb_refl in Q5; discriminate].
    assert (Inj : forall a b, In a (s_mods s) -> In b (s_mods s) -> m_fd a = m_fd b -> a = b).
    { clear - M2. induction (s_mods s) as [|y l IH]; intros a b Ha Hb Hab; [destruct Ha|]. cbn in M2. apply NoDup_cons_iff in M2 as [N1 N2].
      destruct Ha as [->|Ha], Hb as [->|Hb]; auto; exfalso; apply N1; [rewrite Hab | rewrite <- Hab]; apply in_map; assumption. }
    apply Inj; [assumption | assumption | lia].
Qed.
(** *** registering *)
Lemma find_cdt_app n ts x k i : find_cdt n ts k = Some i -> find_cdt n (ts ++ x) k = Some i.
Proof. revert k; induction ts as [|c ts IH]; intros k H; cbn in *; [discriminate|]. destruct (_ : bool); [exact H | apply IH; exact H]. Qed.
Lemma module_cdt x : cdt_get_type (sys_types ++ x) (str "_module") = cdt_type 0.
Proof.
  unfold cdt_get_type. replace (find_base (str "_module") base_names) with (@None Z) by (vm_compute; reflexivity).
  rewrite (find_cdt_app _ sys_types x 0 0) by (vm_compute; reflexivity). reflexivity.
Qed.
Lemma module_register_sys E nm fd s s' u : Inv s -> SysInv E s -> 11 <= zlen (s_db s) -> module_register E nm fd s = Done (s', u) ->
  SysInv E s'.
Proof.
  intros I S L H. unfold module_register in H. inv1 H. inv1 H. inv1 H. inv1 H.
  assert (G : Inv s0 /\ SysInv E s0 /\ find_mod s0 fd = None /\ zlen (s_db s0) = zlen (s_db s)).
  { destruct (find_mod s fd) as [m|] eqn:F.
    - assert (Fd : m_fd m = fd) by (apply find_some in F; destruct F; lia). rewrite Fd in Hm.
      split; [eapply module_unregister_good; eassumption|]. destruct (module_unregister_sys _ _ _ _ _ I S Hm) as [A B].
      split; [exact A|]. split; [exact B|]. apply (module_unregister_effect _ _ _ _ _ _ I F Hm).
    - clear H. inv_all. auto. }
  clear Hm. destruct G as (I0 & S0 & F0 & L0). clear S I. rewrite <- L0 in L. clear L0.
  set (s1 := set_nextuid _ _) in H.
  assert (New : forall y, In y (s_mods s0) -> m_fd y <> fd).
  { intros y Hy Q. assert (N := find_none _ _ F0 _ Hy). cbn in N. lia. }
  destruct S0 as [[x T] S M]. destruct M as (M1 & M2 & M3).
  assert (NU : ~ In (s_nextuid s0) (map m_uid (s_mods s0))).
  { intros Q. apply in_map_iff in Q as (y & Q1 & Q2). apply M3 in Q2. lia. }
  assert (NF : ~ In fd (map m_fd (s_mods s0))).
  { intros Q. apply in_map_iff in Q as (y & Q1 & Q2). apply (New y Q2 Q1). }
  destruct (existsb (fun y => name_eqb y nm) (en_excl E)) eqn:Ex.
  - inv_all. constructor; [exists x; exact T | exact S|].
    split; [constructor; assumption|]. split; [constructor; assumption|]. intros y [<-|Hy].
    + cbn. split; [lia|]. left. split; [reflexivity|]. apply existsb_exists in Ex as (z & Z1 & Z2). apply name_eqb_eq in Z2. subst z. exact Z1.
    + destruct (M3 _ Hy) as [P Q]. cbn. split; [lia | exact Q].
  - inv1 H. inv1 H. destruct v0 as [tn uuid]. destruct (module_tagname_shape _ _ _ _ Hr) as [rest ->]. inv1 H. inv1 H. inv1 H.
    destruct (v0 <? 0) eqn:Neg; [discriminate|].
    assert (I2 : Inv (set_moduuid s1 uuid)) by (destruct I0; constructor; assumption).
    assert (Ty : cdt_get_type (s_types (set_moduuid s1 uuid)) (str "_module") = cdt_type 0) by (cbn; rewrite T; apply module_cdt).
    rewrite Ty in Hm.
    assert (R1 : srel (set_moduuid s1 uuid) s2) by (eapply tag_add_srel; [exact I2 | | exact Hm | exact L | left; reflexivity]; lia).
    assert (I3 := proj1 (tag_add_good E (-1) _ _ 1 0 ltac:(lia) _ _ _ Hm I2)).
    destruct (tag_add_post E (-1) _ _ 1 0 _ _ _ I2 ltac:(lia) Hm ltac:(lia)) as (t3 & Z3 & N3 & Y3 & _).
    assert (S2 : sys_ok E s2) by (eapply sys_ok_srel; [exact R1 | exact S]).
    assert (Hv : 11 <= v0).
    { destruct (Z.leb_spec 11 v0); [assumption|]. exfalso. destruct (znth_some sys_tags v0) as [[n ty] Hq]; [change (zlen sys_tags) with 11; lia|].
      destruct (S2 _ _ _ Hq) as (t & Q1 & [(Q2 & Q3 & _)|[Q2 _]]); [|congruence].
      assert (t = t3) by congruence. subst t. rewrite N3 in Q2. injection Q2 as Q2. subst n. rewrite Y3 in Q3. subst ty.
      apply znth_In in Hq. cbn in Hq. repeat (destruct Hq as [Hq|Hq]; [discriminate Hq|]). exact Hq. }
    inv1 H. inv1 H. inv1 H. inv1 H. inv1 H. inv1 H.
    set (s9 := upd_mod _ _ s2) in *.
    assert (R2 : srel s9 s').
    { eapply srel_trans; [apply srel_shape; eapply tag_write_shape; exact Hm0|].
      eapply srel_trans; [apply srel_shape; eapply tag_write_shape; exact Hm1|].
      eapply srel_trans; [eapply srel_set_tag; [exact Ht|]; lia|].
      inv_all. apply srel_shape. eapply tag_write_shape; eassumption. }
    eapply SysInv_srel; [exact R2|]. constructor.
    + destruct (sr_types _ _ R1) as [y Y]. exists (x ++ y). cbn. rewrite Y. cbn. rewrite T, app_assoc. reflexivity.
    + exact S2.
    + apply mod_ok_core.
      assert (C3 : map mod_core (s_mods s9) = (s_nextuid s0, nm, fd, v0) :: map mod_core (s_mods s0)).
      { assert (C := sr_mods _ _ R1). cbn [s_mods set_moduuid s1 set_nextuid set_mods] in C. unfold s1 in C. cbn in C.
        cbn. destruct (s_mods s2) as [|m0 ms]; [discriminate|]. cbn in C. injection C as C0 C1 C2' C3 C4. cbn [map].
        rewrite C0, Z.eqb_refl. unfold mod_core at 1. cbn. rewrite C0, C1, C2'. f_equal.
        rewrite <- C4 in *. clear - NU C4. assert (NU' : ~ In (s_nextuid s0) (map m_uid ms)).
        { intros Q. apply NU. rewrite uids_core in Q |- *. rewrite <- C4. exact Q. }
        clear C4 NU. induction ms as [|y l IH]; [reflexivity|]. cbn. cbn in NU'. replace (m_uid y =? s_nextuid s0) with false by lia. f_equal. apply IH. tauto. }
      rewrite C3. split; [|split].
      * cbn. constructor; [rewrite <- uids_core; exact NU | rewrite <- uids_core; exact M1].
      * cbn. constructor; [rewrite <- fds_core; exact NF | rewrite <- fds_core; exact M2].
      * assert (Len := sr_len _ _ R1). cbn in Len. assert (Zr := znth_range _ _ _ Z3). assert (U := sr_uid _ _ R1). cbn in U.
        intros a b c d [Q|Q].
        -- injection Q as <- <- <- <-. cbn. split; [lia|]. right. lia.
        -- apply in_map_iff in Q as (y & Q1 & Q2). unfold mod_core in Q1. injection Q1 as <- <- <- <-. destruct (M3 _ Q2) as [P W]. cbn.
           split; [lia|]. destruct W as [W|W]; [left; exact W | right; lia].
Qed.
Lemma SysInv_len E s : SysInv E s -> 11 <= zlen (s_db s).
Proof. intros [_ S _]. destruct (S 10 (str "_my_tagname") T_CHAR eq_refl) as (t & A & _). apply znth_range in A. lia. Qed.
Lemma SysInv_same E s s' : SysInv E s -> s_db s' = s_db s -> s_types s' = s_types s -> s_mods s' = s_mods s -> s_nextuid s' = s_nextuid s -> SysInv E s'.
Proof. intros S A B C D. eapply SysInv_srel; [|exact S]. apply srel_same; congruence. Qed.
Lemma sys_name_low E s j t : SysInv E s -> znth (s_db s) j = Some t -> j < 11 -> t_name t = None \/ exists n, t_name t = Some (95 :: n).
Proof.
  intros [_ S _] Ht Hj. assert (R := znth_range _ _ _ Ht). destruct (znth_some sys_tags j) as [[n ty] Hq]; [change (zlen sys_tags) with 11; lia|].
  destruct (S _ _ _ Hq) as (t1 & A & B). assert (t1 = t) by congruence. subst t1. destruct B as [(B & _)|[B _]]; [|tauto].
  right. rewrite B. apply znth_In in Hq. cbn in Hq. repeat (destruct Hq as [Hq|Hq]; [injection Hq as <- <-; eexists; reflexivity|]). destruct Hq.
Qed.
Lemma handle_op_sys E o s s' u : Inv s -> SysInv E s -> handle_op E o s = Done (s', u) -> SysInv E s'.
Proof.
  intros I S H. assert (L := SysInv_len _ _ S).
  destruct (shape_op o) eqn:So; [eapply SysInv_srel; [apply srel_shape; eapply handle_op_shape; eassumption | exact S]|].
  destruct o; try discriminate So; clear So; cbn [handle_op] in H.
  - inv1 H. inv1 H. inv1 H. apply module_register_sys in Hm; try assumption.
    eapply SysInv_srel; [|exact Hm]. apply srel_shape. eapply shape_trans; [eapply tag_read_shape; exact Hm0 | eapply respond_shape; exact H].
  - eapply module_unregister_sys; eassumption.
  - inv1 H. assert (S0 : SysInv E s0).
    { destruct (nthb nm 0 =? 95) eqn:U; [clear H; inv_all; exact S|]. eapply SysInv_srel; [|exact S].
      assert (Hc : 0 <= u32 count) by (unfold u32; apply Z.mod_pos_bound; lia).
      eapply tag_add_srel; [exact I | exact Hc | exact Hm | exact L|]. right.
      intros j t Ht Hn. destruct (Z.leb_spec 11 j); [assumption|]. destruct (sys_name_low _ _ _ _ S Ht H0) as [Q|[n Q]]; [congruence|].
      rewrite Hn in Q. injection Q as ->. discriminate U. }
    eapply SysInv_srel; [|exact S0]. apply srel_shape. eapply reply_int_shape; exact H.
  - unfold h_tag_del in H. inv1 H. inv1 H. inv1 H.
    assert (S0 : SysInv E s0).
    { destruct v as [[[[[a b] c] d] nm]|]; [|clear H; inv_all; exact S].
      destruct (nthb nm 0 =? 95) eqn:U; [clear H; inv_all; exact S|]. clear H. eapply SysInv_srel; [|exact S]. eapply tag_del_srel; [|exact Hm].
      unfold tag_get_index, info_at in Hr. destruct ((idx <? 0) || (zlen (s_db s) <=? idx)); [discriminate|].
      destruct (znth (s_db s) idx) as [t|] eqn:Ht; [|discriminate]. destruct (Z.leb_spec 11 idx); [assumption|].
      destruct (sys_name_low _ _ _ _ S Ht H) as [Q|[n Q]]; rewrite Q in Hr; [destruct (t_data t); discriminate|].
      destruct (t_data t); try discriminate Hr; injection Hr as _ _ _ _ <-; discriminate U. }
    eapply SysInv_srel; [|exact S0]. apply srel_shape. inv1 H; [eapply respond_shape | eapply reply_err_shape]; exact H.
  - unfold h_cdt_create in H. inv1 H. inv1 H. destruct v as [[ts ty] err]. inv1 H. apply cdt_create_grows in Hr as [x ->].
    eapply SysInv_srel; [|exact S]. eapply srel_trans with (b := set_types s (s_types s ++ x)).
    + constructor; [reflexivity | reflexivity | exists x; reflexivity | cbn; lia | cbn; eauto].
    + apply srel_shape. inv1 H; [eapply reply_err_shape | eapply respond_shape]; eassumption.
  - unfold modify in H. injection H as <- _. eapply SysInv_same; [exact S | reflexivity..].
Qed.
Lemma step_sys E s o s' : Inv s -> SysInv E s -> step E s o = Done s' -> SysInv E s'.
Proof.
  intros I S H. unfold step in H. destruct (handle_op E o s) as [[s1 u]|] eqn:Q; [|discriminate]. injection H as <-.
  eapply SysInv_same; [eapply handle_op_sys; eassumption | reflexivity..].
Qed.
Lemma exec_sys E os : forall s s', Inv s -> SysInv E s -> exec E s os = Done s' -> SysInv E s'.
Proof.
  induction os as [|o os IH]; intros s s' I S H; cbn in H; [injection H as <-; exact S|].
  apply rbind_done in H as [s1 [H1 H2]]. eapply IH; [eapply step_good; eassumption | eapply step_sys; eassumption | exact H2].
Qed.
Lemma make_type_srel def : pres srel (make_type def).
Proof.
  intros s s' a H. unfold make_type in H. inv1 H. inv1 H. destruct v as [[ts ty] err].
  apply cdt_create_grows in Hr as [x ->]. inv_all. constructor; [reflexivity | reflexivity | exists x; reflexivity | cbn; lia | cbn; eauto].
Qed.
Lemma restore_types_srel l : pres srel (restore_types l).
Proof.
  induction l as [|d l IH]; intros s s' a H; cbn [restore_types] in H; [inv_all; apply srel_refl|].
  inv1 H. eapply srel_trans; [eapply make_type_srel; exact Hm | eapply IH; exact H].
Qed.
Lemma restore_tag_srel E row s s' u : Inv s -> 11 <= zlen (s_db s) -> restore_tag E row s = Done (s', u) -> srel s s'.
Proof.
  intros I L H. unfold restore_tag in H. inv1 H. inv1 H.
  assert (Hc : 0 <= u32 (rr_count row)) by (unfold u32; apply Z.mod_pos_bound; lia).
  eapply srel_trans with (b := s0); [eapply tag_add_srel; [exact I | exact Hc | exact Hm | exact L | left; reflexivity]|]. clear Hm.
  inv_all; try apply srel_refl. eapply srel_set_tag; [eassumption | auto].
Qed.
Lemma restore_tags_sys E l : forall s s' u, Inv s -> SysInv E s -> restore_tags E l s = Done (s', u) -> SysInv E s'.
Proof.
  induction l as [|d l IH]; intros s s' u I S H; cbn [restore_tags] in H; [inv_all; exact S|].
  inv1 H. eapply IH; [eapply restore_tag_good; eassumption | | exact H]. eapply SysInv_srel; [|exact S].
  eapply restore_tag_srel; [exact I | eapply SysInv_len; exact S | exact Hm].
Qed.
Lemma view_sys E s n : view s = (map (fun x => (Some (fst x), snd x, false)) sys_tags, sys_types, [], n) -> SysInv E s.
Proof.
  unfold view. intros H. assert (H1 := f_equal (fun x => fst (fst (fst x))) H). assert (H2 := f_equal (fun x => snd (fst (fst x))) H).
  assert (H3 := f_equal (fun x => snd (fst x)) H). cbn [fst snd] in H1, H2, H3. clear H. constructor.
  - exists []. rewrite app_nil_r. exact H2.
  - intros j nm ty Hj. assert (Q : znth (map (fun x => (Some (fst x), snd x, false)) sys_tags) j = Some (Some nm, ty, false)).
    { rewrite znth_map, Hj. reflexivity. }
    rewrite <- H1 in Q. rewrite znth_map in Q. destruct (znth (s_db s) j) as [t|]; [|discriminate].
    cbn in Q. injection Q as Q1 Q2 Q3. exists t. split; [reflexivity|]. left. auto.
  - unfold mod_ok. rewrite H3. split; [constructor|]. split; [constructor|]. intros m [].
Qed.
Lemma boot_sys E now r s : boot E now r = Done s -> SysInv E s.
Proof.
  unfold boot. match goal with |- match ?m ?x with _ => _ end = _ -> _ => destruct (m x) as [[s1 u]|] eqn:H end; [|discriminate].
  intros K; injection K as <-. inv1 H. destruct (init_view E now (mk_rdb false [] 1 [])) as (s2 & P1 & P2).
  rewrite P1 in Hm. injection Hm as <- _. apply view_sys with (E := E) in P2.
  assert (I2 : Inv s2) by (eapply init_tagbase_good; [exact P1 | apply Inv_empty]).
  destruct (r_open r); [|inv_all; exact P2].
  inv1 H. inv1 H. unfold modify in H; injection H as <- _. eapply SysInv_same with (s := s0); [|reflexivity..].
  eapply restore_tags_sys; [| |exact Hm0]; [eapply restore_types_good; eassumption|].
  eapply SysInv_srel; [eapply restore_types_srel; exact Hm | exact P2].
Qed.
Theorem reachable_sys E s : reachable E s -> SysInv E s.
Proof.
  intros (now & r & s0 & os & H1 & H2). eapply exec_sys; [|eapply boot_sys; exact H1 | exact H2].
  eapply (boot_good _ _ _ _ H1). apply Inv_empty.
Qed.
