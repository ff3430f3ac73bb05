(** * Effects: what adding a tag, connecting and disconnecting do to the set of tags *)
From Verif Require Import Base Const Types State Events Atomic Server Lib SearchProofs Shape Inv Reach Spec Frame.

(** the server's own status tags written by tag_add and tag_del *)
Definition status_ix (j : Z) : Prop := j = IX_TAGCOUNT \/ j = IX_LASTINDEX \/ j = IX_ADDED \/ j = IX_DELETED.

Lemma set_attribute_others E i a : pres (others i) (set_attribute E i a).
Proof.
  intros s s' u H. destruct (set_attribute_spec _ _ _ _ _ _ H) as (t & r & f & x & H1 & H2 & ->).
  intros j Hj. cbn. apply znth_zset_ne. congruence.
Qed.
Lemma set_attribute_name E i a s s' u j : set_attribute E i a s = Done (s', u) -> name_at s' j = name_at s j.
Proof.
  intros H. destruct (set_attribute_spec _ _ _ _ _ _ H) as (t & r & f & x & H1 & H2 & ->).
  unfold name_at. cbn. rewrite znth_zset. destruct ((i =? j) && (0 <=? i) && (i <? zlen (s_db s))) eqn:K; [|reflexivity].
  assert (j = i) by lia. subst j. rewrite H1. reflexivity.
Qed.
Lemma set_attribute_len E i a s s' u : set_attribute E i a s = Done (s', u) -> zlen (s_db s') = zlen (s_db s).
Proof.
  intros H. destruct (set_attribute_spec _ _ _ _ _ _ H) as (t & r & f & x & H1 & H2 & ->). cbn. apply zset_zlen.
Qed.

Lemma tag_add_effect E fd nm type count attr s s' r : Inv s -> 0 <= count < 4294967296 ->
  tag_add E fd nm type count attr s = Done (s', r) ->
  (r < 0 /\ (forall j, core_at s' j = core_at s j) /\ zlen (s_db s') = zlen (s_db s)) \/
  (0 <= r /\ (exists t, named s r nm t /\ t_type t = type) /\ (forall j, name_at s' j = name_at s j) /\
     zlen (s_db s') = zlen (s_db s) /\
     (forall j, j <> r -> ~ status_ix j -> znth (s_db s') j = znth (s_db s) j)) \/
  (r = zlen (s_db s) /\ ~ exists_tag s nm /\ name_at s' r = Some nm /\ (forall j, j <> r -> name_at s' j = name_at s j) /\
     zlen (s_db s') = zlen (s_db s) + 1 /\
     (forall j, j <> r -> ~ status_ix j -> znth (s_db s') j = znth (s_db s) j)).
Proof.
  intros I Hc H. apply tag_add_cases in H; [|exact I | lia].
  destruct H as [s' r Hr S1 | n t s0 s' u S1 Ht Hn Hty Hct How Hsa
    | n t s0 d size s1 s' u v S1 Ht Hn Hty Hct How Hns Hrg Hsa Htw
    | n t s0 d S1 Ht Hn Hty Hct Hrg Hns
    | s0 s1 s3 s4 s' ix size u v w x S1 Hno Hck Hvn Hcp Hns Hix Hw1 Hw2 Hsa Hw3].
  - left. destruct (set_dbsize_db _ _ S1) as (Edb & _). unfold core_at. rewrite Edb. auto.
  - right; left. destruct (set_dbsize_db _ _ S1) as (Edb & _).
    assert (R := znth_range _ _ _ Ht). split; [lia|]. split; [exists t; unfold named; auto|].
    split; [intros j; rewrite (set_attribute_name _ _ _ _ _ _ j Hsa); unfold name_at; rewrite Edb; reflexivity|].
    split; [rewrite (set_attribute_len _ _ _ _ _ _ Hsa), Edb; reflexivity|].
    intros j Hj _. rewrite (set_attribute_others _ _ _ _ _ _ Hsa) by assumption. rewrite Edb. reflexivity.
  - right; left. destruct (set_dbsize_db _ _ S1) as (Edb & _).
    assert (R := znth_range _ _ _ Ht). split; [lia|]. split; [exists t; unfold named; auto|].
    assert (Sh := tag_write_shape _ _ _ _ _ _ _ _ Htw).
    split; [|split].
    + intros j. rewrite (shape_name _ _ j Sh), (set_attribute_name _ _ _ _ _ _ j Hsa). unfold name_at. cbn. rewrite Edb.
      rewrite znth_zset. destruct ((n =? j) && (0 <=? n) && (n <? zlen (s_db s))) eqn:K; [|reflexivity].
      assert (j = n) by lia. subst j. rewrite Ht. reflexivity.
    + rewrite (sh_len _ _ Sh), (set_attribute_len _ _ _ _ _ _ Hsa). cbn. rewrite zset_zlen, Edb. reflexivity.
    + intros j Hj St. unfold status_ix in St. rewrite (tag_write_others _ _ _ _ _ _ _ _ Htw) by tauto.
      rewrite (set_attribute_others _ _ _ _ _ _ Hsa) by assumption. cbn. rewrite znth_zset_ne by congruence. rewrite Edb. reflexivity.
  - left. split; [reflexivity|]. destruct (set_dbsize_db _ _ S1) as (Edb & _). split.
    + intros j. unfold core_at. cbn. rewrite Edb, znth_zset.
      destruct ((n =? j) && (0 <=? n) && (n <? zlen (s_db s))) eqn:K; [|reflexivity].
      assert (j = n) by lia. subst j. rewrite Ht. reflexivity.
    + cbn. rewrite zset_zlen, Edb. reflexivity.
  - right; right. destruct (set_dbsize_db _ _ S1) as (Edb & _).
    assert (Sh1 := sys_write_shape _ _ _ _ _ _ Hw1). assert (Sh2 := sys_write_shape _ _ _ _ _ _ Hw2).
    assert (Sh3 := tag_write_shape _ _ _ _ _ _ _ _ Hw3).
    assert (L1 : zlen (s_db s1) = zlen (s_db s)) by (rewrite (sh_len _ _ Sh1), Edb; reflexivity).
    split; [reflexivity|]. split; [intros (i & t & H1 & H2); eapply Hno; eassumption|].
    set (s2 := set_tagcount _ _) in *.
    assert (N2 : forall j, name_at s' j = name_at s2 j).
    { intros j. rewrite (shape_name _ _ j Sh3), (set_attribute_name _ _ _ _ _ _ j Hsa), (shape_name _ _ j Sh2). reflexivity. }
    assert (N1 : forall j, j <> zlen (s_db s) -> name_at s2 j = name_at s j).
    { intros j Hj. transitivity (name_at s1 j).
      - unfold name_at, s2. cbn. destruct (Z_lt_le_dec j (zlen (s_db s))).
        + rewrite znth_app1 by lia. reflexivity.
        + rewrite (proj2 (znth_none (s_db s1 ++ _) j)) by (rewrite zlen_app; unfold zlen at 2; cbn; lia).
          rewrite (proj2 (znth_none (s_db s1) j)) by lia. reflexivity.
      - rewrite (shape_name _ _ j Sh1). unfold name_at. rewrite Edb. reflexivity. }
    split; [rewrite N2; unfold name_at, s2; cbn; rewrite <- L1, znth_last; reflexivity|].
    split; [intros j Hj; rewrite N2; apply N1; exact Hj|].
    split.
    { rewrite (sh_len _ _ Sh3), (set_attribute_len _ _ _ _ _ _ Hsa), (sh_len _ _ Sh2). unfold s2. cbn.
      rewrite zlen_app, L1. reflexivity. }
    intros j Hj St. unfold status_ix in St.
    rewrite (tag_write_others _ _ _ _ _ _ _ _ Hw3) by tauto.
    rewrite (set_attribute_others _ _ _ _ _ _ Hsa) by assumption.
    rewrite (sys_write_others _ _ _ _ _ _ Hw2) by tauto. unfold s2. cbn.
    transitivity (znth (s_db s1) j).
    + destruct (Z_lt_le_dec j (zlen (s_db s1))); [rewrite znth_app1 by lia; reflexivity|].
      rewrite (proj2 (znth_none (s_db s1 ++ _) j)) by (rewrite zlen_app; unfold zlen at 2; cbn; lia).
      rewrite (proj2 (znth_none (s_db s1) j)) by lia. reflexivity.
    + rewrite (sys_write_others _ _ _ _ _ _ Hw1) by tauto. rewrite Edb. reflexivity.
Qed.

(** ** Disconnecting *)
(** the part of a tag that cleaning up events leaves alone *)
Definition ev_only (t t' : tag) : Prop :=
  exists e a, t' = set_attr (set_events t e) a /\ core_attr (t_attr t) a.
Definition evrel (s s' : server) : Prop :=
  zlen (s_db s') = zlen (s_db s) /\ s_types s' = s_types s /\ s_index s' = s_index s /\ s_tagcount s' = s_tagcount s /\
  map mod_core (s_mods s') = map mod_core (s_mods s) /\ s_out s' = s_out s /\
  forall i t, znth (s_db s) i = Some t -> exists t', znth (s_db s') i = Some t' /\ ev_only t t'.
Lemma ev_only_refl t : ev_only t t.
Proof. exists (t_events t), (t_attr t). split; [destruct t; reflexivity | apply core_attr_refl]. Qed.
Lemma ev_only_trans a b c : ev_only a b -> ev_only b c -> ev_only a c.
Proof.
  intros (e & x & -> & H1) (e' & x' & -> & H2). exists e', x'. split; [destruct a; reflexivity|].
  eapply core_attr_trans; [exact H1|]. exact H2.
Qed.
Lemma evrel_refl s : evrel s s.
Proof. repeat split; auto. intros i t H; exists t; split; [assumption | apply ev_only_refl]. Qed.
Lemma evrel_trans a b c : evrel a b -> evrel b c -> evrel a c.
Proof.
  intros (A1 & A2 & A3 & A4 & A5 & A6 & A7) (B1 & B2 & B3 & B4 & B5 & B6 & B7). repeat split; try congruence.
  intros i t H. destruct (A7 _ _ H) as [t1 [K1 T1]]. destruct (B7 _ _ K1) as [t2 [K2 T2]].
  exists t2; split; [assumption | eapply ev_only_trans; eassumption].
Qed.
Lemma evrel_set_tag s i t t' : znth (s_db s) i = Some t -> ev_only t t' -> evrel s (set_tag s i t').
Proof.
  intros H HT. repeat split; cbn; [apply zset_zlen|].
  intros j u Hj. rewrite znth_zset. destruct ((i =? j) && (0 <=? i) && (i <? zlen (s_db s))) eqn:E.
  - assert (j = i) by lia. subst j. rewrite H in Hj. injection Hj as <-. eauto.
  - exists u. split; [assumption | apply ev_only_refl].
Qed.
Lemma evrel_upd_mod s uid f : (forall m, mod_core (f m) = mod_core m) -> evrel s (upd_mod uid f s).
Proof.
  intros Hf. repeat split; auto; cbn.
  - rewrite map_map. apply map_ext. intros m. destruct (m_uid m =? uid); auto.
  - intros i t H; exists t; split; [assumption | apply ev_only_refl].
Qed.
Lemma event_del_evrel E i id mo : pres evrel (event_del E i id mo).
Proof.
  intros s s' a H. unfold event_del in H. inv1 H.
  destruct (znth (s_db s) i) as [t|] eqn:Z; [|inv_all; apply evrel_refl].
  assert (Fin : forall evs res, (put_tag i (set_attr (set_events t evs) (match evs with [] => clr_flag (t_attr t) A_EVENT | _ :: _ => t_attr t end)) ;;;
        match mo with
        | None => undef UNull
        | Some m => modify (upd_mod (m_uid m) (fun m => set_evcount m (m_evcount m - 1))) ;;; ret res
        end) s = Done (s', a) -> evrel s s').
  { intros evs res K. inv1 K. destruct mo; [|discriminate]. inv1 K. inv1 K.
    eapply evrel_trans; [eapply evrel_set_tag; [exact Z|]| apply evrel_upd_mod; reflexivity].
    eexists _, _. split; [reflexivity|]. destruct evs; [apply core_clr; reflexivity | apply core_attr_refl]. }
  cbv zeta in H.
  destruct (t_events t) as [|e r]; [inv_all; apply evrel_refl|].
  destruct (e_id e =? id).
  - match type of H with context [negb ?x] => destruct (negb x); [inv_all; apply evrel_refl|] end.
    destruct (en_strict E); [discriminate|]. destruct (existsb _ r); [discriminate|]. eapply Fin; exact H.
  - destruct (find _ r).
    + match type of H with context [negb ?x] => destruct (negb x); [inv_all; apply evrel_refl|] end. eapply Fin; exact H.
    + eapply Fin; exact H.
Qed.
Lemma cleanup_tag_evrel E n uid l : pres evrel (cleanup_tag E n uid l).
Proof.
  induction l as [|e l IH]; intros s s' a H; cbn [cleanup_tag] in H; [inv_all; apply evrel_refl|].
  inv1 H. eapply evrel_trans; [|eapply IH; exact H].
  destruct (e_mod e =? uid); [|inv_all; apply evrel_refl]. destruct (en_strict E); [discriminate|].
  inv1 Hm. inv1 Hm. inv1 Hm. eapply event_del_evrel; eassumption.
Qed.
Lemma cleanup_loop_evrel E k uid : pres evrel (cleanup_loop E k uid).
Proof.
  induction k as [|k IH]; intros s s' a H; cbn [cleanup_loop] in H; [inv_all; apply evrel_refl|].
  inv1 H. destruct (mod_by_uid (s_mods s) uid); [|inv_all; apply evrel_refl].
  destruct (0 <? m_evcount m); [|inv_all; apply evrel_refl].
  inv1 H. inv1 H. eapply evrel_trans; [eapply cleanup_tag_evrel; eassumption | eapply IH; eassumption].
Qed.
Lemma ev_only_core t t' : ev_only t t' -> tcore t' = tcore t.
Proof. intros (e & a & -> & (A & B & C & D & F)). unfold tcore. cbn. congruence. Qed.
Lemma evrel_core s s' i : evrel s s' -> core_at s' i = core_at s i.
Proof.
  intros (L & _ & _ & _ & _ & _ & S). unfold core_at. destruct (znth (s_db s) i) as [t|] eqn:Z.
  - destruct (S _ _ Z) as [t' [Z' T]]. rewrite Z'. cbn. f_equal. apply ev_only_core; assumption.
  - apply znth_none in Z. rewrite (proj2 (znth_none (s_db s') i)) by (rewrite L; exact Z). reflexivity.
Qed.
Definition data_at (s : server) (i : Z) : option tdata := option_map t_data (znth (s_db s) i).
Lemma evrel_data s s' i : evrel s s' -> data_at s' i = data_at s i.
Proof.
  intros (L & _ & _ & _ & _ & _ & S). unfold data_at. destruct (znth (s_db s) i) as [t|] eqn:Z.
  - destruct (S _ _ Z) as [t' [Z' (e & a & -> & _)]]. rewrite Z'. reflexivity.
  - apply znth_none in Z. rewrite (proj2 (znth_none (s_db s') i)) by (rewrite L; exact Z). reflexivity.
Qed.
Lemma core_name s s' i : core_at s' i = core_at s i -> name_at s' i = name_at s i.
Proof.
  unfold core_at, name_at. destruct (znth (s_db s') i), (znth (s_db s) i); cbn; try discriminate; [|reflexivity].
  unfold tcore. congruence.
Qed.
Lemma core_owned s s' fd i : core_at s' i = core_at s i -> tag_owned s' fd i = tag_owned s fd i.
Proof.
  unfold core_at, tag_owned. destruct (znth (s_db s') i), (znth (s_db s) i); cbn; try discriminate; [|reflexivity].
  unfold tcore. congruence.
Qed.

(** a tag that stays is untouched up to its event list *)
Definition kept (s s' : server) (i : Z) : Prop :=
  core_at s' i = core_at s i /\ (~ status_ix i -> data_at s' i = data_at s i).
Lemma kept_refl s i : kept s s i.
Proof. split; auto. Qed.
Lemma kept_trans a b c i : kept a b i -> kept b c i -> kept a c i.
Proof. intros [A1 A2] [B1 B2]. split; [congruence|]. intros H. rewrite B2, A2 by assumption. reflexivity. Qed.

Definition is_gone (s : server) (i : Z) : Prop := exists t, znth (s_db s) i = Some t /\ t_name t = None /\ t_data t = DNull.
Lemma tag_del_kept E i s s' r : tag_del E i s = Done (s', r) ->
  (forall j, j <> i -> kept s s' j) /\
  (Inv s -> is_gone s i \/ znth (s_db s) i = None \/ is_gone s' i) /\ zlen (s_db s') = zlen (s_db s) /\ s_mods s' = s_mods s.
Proof.
  intros H. assert (H' := H). apply tag_del_effect in H as [[Hr ->]|(-> & (t & nm & H1 & H2 & H3) & Hg & Hc & Hz & Hl & Ht & Hm)].
  - split; [intros; apply kept_refl|]. split; [|auto]. intros I.
    unfold tag_del in H'. inv1 H'. destruct (znth (s_db s) i) as [t|] eqn:Z; [|tauto].
    assert (T := iv_tags _ I _ _ Z). left.
    destruct (t_data t) eqn:D.
    { exists t. split; [exact Z|]. split; [apply (it_live _ _ T); exact D | exact D]. }
    all: exfalso; destruct (t_name t); [|discriminate]; destruct (t_maps t); [|discriminate];
         inv H'; discriminate.
  - split.
    + intros j Hj. split; [apply Hc; assumption|]. intros St. unfold status_ix in St. unfold data_at. rewrite Hz; tauto.
    + split; [|auto]. intros _. right; right. destruct Hg as (t' & A & B & C). exists t'. auto.
Qed.
Lemma del_owned_loop_kept E fd : forall k n s s' u, Inv s -> del_owned_loop E fd k n s = Done (s', u) ->
  s_mods s' = s_mods s /\ zlen (s_db s') = zlen (s_db s) /\
  (forall j, ~ (n <= j < n + Z.of_nat k /\ tag_owned s fd j = true) -> kept s s' j) /\
  (forall j, n <= j < n + Z.of_nat k -> tag_owned s fd j = true -> is_gone s' j).
Proof.
  induction k as [|k IH]; intros n s s' u I H; cbn [del_owned_loop] in H.
  - inv_all. repeat split; auto; intros; lia.
  - inv1 H. unfold del_owned in Hm. inv1 Hm.
    destruct (tag_owned s fd n) eqn:Ow.
    + inv1 Hm. inv1 Hm. assert (I1 := tag_del_Inv _ _ _ _ _ I Hm0).
      destruct (tag_del_kept _ _ _ _ _ Hm0) as (K1 & K2 & K3 & K4).
      destruct (IH _ _ _ _ I1 H) as (J0 & J1 & J2 & J3). split; [congruence|]. split; [lia|].
      assert (G0 : is_gone s1 n).
      { destruct (K2 I) as [(t & A & B & C)|[A|A]]; [| |exact A]; exfalso.
        - unfold tag_owned in Ow. rewrite A in Ow. assert (T := iv_tags _ I _ _ A).
          destruct (it_dead _ _ T C) as (_ & _ & _ & _ & Q). rewrite Q in Ow. discriminate.
        - unfold tag_owned in Ow. rewrite A in Ow. discriminate. }
      split.
      * intros j Hj. assert (j <> n) by (intros ->; apply Hj; split; [lia|exact Ow]).
        eapply kept_trans; [apply K1; assumption|]. apply J2. intros [Hr Ho]. apply Hj. split; [lia|].
        rewrite <- Ho. symmetry. apply core_owned. apply K1; assumption.
      * intros j Hr Ho. destruct (Z.eq_dec j n) as [->|Hne].
        -- assert (K : kept s1 s' n) by (apply J2; lia). destruct G0 as (t & A & B & C).
           destruct K as [K _]. unfold core_at in K. rewrite A in K. cbn in K.
           destruct (znth (s_db s') n) as [t'|] eqn:Z; [|discriminate]. cbn in K. exists t'. split; [exact Z|].
           assert (t_name t' = None) by (unfold tcore in K; congruence). split; [assumption|].
           assert (I' := del_owned_loop_good _ _ _ _ _ _ _ H I1). destruct I' as [I' _].
           apply (it_live _ _ (iv_tags _ I' _ _ Z)); assumption.
        -- apply J3; [lia|]. rewrite <- Ho. apply core_owned. apply K1; assumption.
    + inv1 Hm. destruct (IH _ _ _ _ I H) as (J0 & J1 & J2 & J3). split; [exact J0|]. split; [exact J1|]. split.
      * intros j Hj. apply J2. intros [Hr Ho]. apply Hj. split; [lia|exact Ho].
      * intros j Hr Ho. destruct (Z.eq_dec j n) as [->|Hne]; [congruence|]. apply J3; [lia|exact Ho].
Qed.

Lemma find_mod_core s s' fd : map mod_core (s_mods s') = map mod_core (s_mods s) ->
  option_map mod_core (find_mod s' fd) = option_map mod_core (find_mod s fd).
Proof.
  unfold find_mod. generalize (s_mods s) (s_mods s'). intros l l'. revert l'.
  induction l as [|m l IH]; intros [|m' l'] H; cbn in H; try discriminate; [reflexivity|].
  assert (H1 : mod_core m' = mod_core m) by congruence. assert (H2 : map mod_core l' = map mod_core l) by congruence.
  cbn. assert (Hfd : m_fd m' = m_fd m) by (unfold mod_core in H1; congruence).
  assert (IH' := IH _ H2). rewrite Hfd. destruct (m_fd m =? fd); cbn [option_map]; [congruence | exact IH'].
Qed.

(** a module disconnects: exactly the tags it owns and its status tag go *)
Lemma module_unregister_effect E fd m s s' u : Inv s -> find_mod s fd = Some m ->
  module_unregister E fd s = Done (s', u) ->
  (forall j, kept s s' j \/ ((tag_owned s fd j = true \/ j = m_tagidx m) /\ is_gone s' j)) /\
  (forall j, 0 <= j < zlen (s_db s) -> tag_owned s fd j = true \/ j = m_tagidx m -> is_gone s' j) /\
  zlen (s_db s') = zlen (s_db s) /\
  map mod_core (s_mods s') = map mod_core (filter (fun x => negb (m_uid x =? m_uid m)) (s_mods s)).
Proof.
  intros I Hf H. unfold module_unregister in H. inv1 H. rewrite Hf in H. inv1 H. inv1 H. inv1 H. inv1 H.
  unfold modify in H. injection H as <- _.
  assert (R1 := cleanup_loop_evrel _ _ _ _ _ _ Hm).
  assert (I0 : Inv s0).
  { destruct R1 as (A1 & A2 & A3 & A4 & _ & _ & A6). eapply Inv_wshape; [exact I|]. constructor; auto.
    - exists []. rewrite app_nil_r. exact A2.
    - intros i t Hi. destruct (A6 _ _ Hi) as [t' [Z' (e & a & -> & C)]]. exists (set_attr (set_events t e) a).
      split; [exact Z'|]. constructor; cbn; auto using data_shape_refl. intros _. apply core_dead; exact C. }
  assert (L0 : zlen (s_db s0) = zlen (s_db s)) by (apply R1).
  destruct (del_owned_loop_kept _ _ _ _ _ _ _ I0 Hm0) as (J0 & J1 & J2 & J3).
  assert (I1 := proj1 (del_owned_loop_good _ _ _ _ _ _ _ Hm0 I0)).
  destruct (tag_del_kept _ _ _ _ _ Hm1) as (K1 & K2 & K3 & K4).
  assert (Ow : forall j, tag_owned s0 fd j = tag_owned s fd j) by (intros j; apply core_owned, evrel_core; exact R1).
  assert (Kev : forall j, kept s s0 j).
  { intros j. split; [apply evrel_core; exact R1 | intros _; apply evrel_data; exact R1]. }
  assert (Glast : forall j, 0 <= j < zlen (s_db s) -> j = m_tagidx m -> is_gone s2 j).
  { intros j Hj ->. destruct (K2 I1) as [G|[G|G]]; [|apply znth_none in G; lia | exact G].
    assert (I2 := tag_del_Inv _ _ _ _ _ I1 Hm1).
    destruct G as (t & A & B & C). destruct (mo_tags _ _ (tag_del_mono _ _ _ _ _ Hm1) _ _ A) as [t' [Z' [T1 T2]]].
    exists t'. split; [exact Z'|]. assert (t_name t' = None) by (destruct T2; congruence). split; [assumption|].
    apply (it_live _ _ (iv_tags _ I2 _ _ Z')); assumption. }
  assert (Gown : forall j, 0 <= j < zlen (s_db s) -> tag_owned s fd j = true -> is_gone s2 j).
  { intros j Hj Ho. assert (G : is_gone s1 j) by (apply J3; [unfold zlen in *; lia | rewrite Ow; exact Ho]).
    assert (I2 := tag_del_Inv _ _ _ _ _ I1 Hm1).
    destruct G as (t & A & B & C). destruct (mo_tags _ _ (tag_del_mono _ _ _ _ _ Hm1) _ _ A) as [t' [Z' [T1 T2]]].
    exists t'. split; [exact Z'|]. assert (t_name t' = None) by (destruct T2; congruence). split; [assumption|].
    apply (it_live _ _ (iv_tags _ I2 _ _ Z')); assumption. }
  split; [|split; [|split]].
  - intros j. destruct (Z_lt_le_dec j 0) as [Hneg|Hpos].
    { left. assert (Hn : forall x, znth (s_db x) j = None) by (intros; apply znth_none; lia).
      unfold kept, core_at, data_at. cbn. rewrite !Hn. auto. }
    destruct (Z_lt_le_dec j (zlen (s_db s))) as [Hin|Hout].
    + destruct (tag_owned s fd j) eqn:Ho; [right; split; [tauto | apply Gown; [lia|exact Ho]]|].
      destruct (Z.eq_dec j (m_tagidx m)) as [->|Hne]; [right; split; [tauto | apply Glast; [lia|reflexivity]]|].
      left. eapply kept_trans; [apply Kev|]. eapply kept_trans; [apply J2; rewrite Ow, Ho; intros [_ Q]; discriminate|].
      apply (K1 j Hne).
    + left. unfold kept, core_at, data_at. cbn. rewrite (proj2 (znth_none (s_db s2) j)), (proj2 (znth_none (s_db s) j)) by lia. auto.
  - intros j Hj [Ho|He]; [apply Gown | apply Glast]; assumption.
  - cbn. lia.
  - cbn. rewrite K4, J0. destruct R1 as (_ & _ & _ & _ & Q & _).
    revert Q. generalize (s_mods s) (s_mods s0). intros l l'. revert l'.
    induction l as [|x l IH]; intros [|x' l'] H; cbn in H; try discriminate; [reflexivity|].
    assert (H1 : mod_core x' = mod_core x) by congruence. assert (H2 : map mod_core l' = map mod_core l) by congruence.
    cbn. assert (Hu : m_uid x' = m_uid x) by (unfold mod_core in H1; congruence).
    rewrite Hu. destruct (m_uid x =? m_uid m); cbn [negb map]; [apply IH; exact H2 | f_equal; [exact H1 | apply IH; exact H2]].
Qed.

(** ** Connecting *)
Lemma set_attr_tag_name s r t a j : znth (s_db s) r = Some t -> name_at (set_tag s r (set_attr t a)) j = name_at s j.
Proof.
  intros H. unfold name_at. cbn. rewrite znth_zset.
  destruct ((r =? j) && (0 <=? r) && (r <? zlen (s_db s))) eqn:K; [|reflexivity].
  assert (j = r) by lia. subst j. rewrite H. reflexivity.
Qed.
Lemma kept_name s s' j : kept s s' j -> name_at s' j = name_at s j.
Proof. intros [H _]. apply core_name; exact H. Qed.
Lemma is_gone_name s j : is_gone s j -> name_at s j = None.
Proof. intros (t & A & B & C). unfold name_at. rewrite A. exact B. Qed.
Lemma module_tagname_shape s nm tn u : module_tagname s nm = Done (tn, u) -> exists r, tn = 95 :: 109 :: r.
Proof.
  unfold module_tagname. intros H. inv1 H. destruct v as [i|e].
  - cbv zeta in H. match type of H with (if ?c then _ else _) = _ => destruct c; [discriminate|] end. injection H as <- _.
    change (str "_m") with [95; 109]. cbn [app].
    set (k := Z.to_nat _). assert (K : (2 <= k)%nat).
    { unfold k. rewrite !zlen_cons. match goal with |- context [zlen ?l] => assert (Q := zlen_nonneg l); generalize dependent (zlen l); intros end. destruct (s_moduuid s <? 1000); lia. }
    destruct k as [|[|k]]; [lia | lia |]. cbn. eauto.
  - injection H as <- _. cbn. eauto.
Qed.
(** the effect of connecting on the directory of tags *)
Lemma module_register_effect E nm fd s s' u : Inv s -> module_register E nm fd s = Done (s', u) ->
  forall j,
    name_at s' j = name_at s j \/
    (name_at s' j = None /\ exists m, find_mod s fd = Some m /\ (tag_owned s fd j = true \/ j = m_tagidx m)) \/
    (j = zlen (s_db s) /\ exists r, name_at s' j = Some (95 :: 109 :: r)).
Proof.
  intros I H j. unfold module_register in H. inv1 H. inv1 H. inv1 H. inv1 H.
  assert (G1 : Inv s0 /\ zlen (s_db s0) = zlen (s_db s) /\
    (name_at s0 j = name_at s j \/
     (name_at s0 j = None /\ exists m, find_mod s fd = Some m /\ (tag_owned s fd j = true \/ j = m_tagidx m)))).
  { destruct (find_mod s fd) as [m|] eqn:F; [|inv_all; auto].
    assert (Fd : m_fd m = fd) by (apply find_some in F; destruct F; lia). rewrite Fd in Hm.
    destruct (module_unregister_effect _ _ _ _ _ _ I F Hm) as (A & _ & C & _).
    split; [eapply module_unregister_good; eassumption|]. split; [exact C|].
    destruct (A j) as [K|[K1 K2]]; [left; apply kept_name; exact K | right; split; [apply is_gone_name; exact K2 | eauto]]. }
  destruct G1 as (I0 & L0 & N0). clear Hm.
  enough (name_at s' j = name_at s0 j \/ (j = zlen (s_db s0) /\ exists r, name_at s' j = Some (95 :: 109 :: r))) as Q.
  { rewrite <- L0. destruct Q as [Q|Q]; [rewrite Q|]; tauto. }
  set (s1 := set_nextuid _ _) in H.
  destruct (existsb (fun x => name_eqb x nm) (en_excl E)); [inv_all; left; reflexivity|].
  inv1 H. inv1 H. destruct v0 as [tn uuid]. inv1 H. inv1 H. inv1 H.
  destruct (module_tagname_shape _ _ _ _ Hr) as [rest ->].
  assert (I2 : Inv (set_moduuid s1 uuid)) by (destruct I0; constructor; assumption).
  assert (Ef := tag_add_effect E (-1) _ _ 1 0 _ _ _ I2 ltac:(lia) Hm).
  destruct (v0 <? 0) eqn:Neg; [discriminate|].
  inv1 H. inv1 H. inv1 H. inv1 H. inv1 H. inv1 H.
  assert (Sh1 := tag_write_shape _ _ _ _ _ _ _ _ Hm0). assert (Sh2 := tag_write_shape _ _ _ _ _ _ _ _ Hm1).
  assert (Nm : name_at s' j = name_at s2 j).
  { inv_all. rewrite (shape_name _ _ j (tag_write_shape _ _ _ _ _ _ _ _ Hm2)).
    rewrite (set_attr_tag_name _ _ _ _ j Ht). rewrite (shape_name _ _ j Sh2), (shape_name _ _ j Sh1). reflexivity. }
  rewrite Nm. destruct Ef as [(Q & _)|[(Q1 & Q2 & Q3 & _)|(Q1 & Q2 & Q3 & Q4 & _)]].
  - lia.
  - left. rewrite Q3. reflexivity.
  - cbn in Q1. destruct (Z.eq_dec j v0) as [->|Hne]; [right; rewrite Q1 at 1; split; [reflexivity|]; rewrite Q3; eauto | left; rewrite Q4 by assumption; reflexivity].
Qed.
