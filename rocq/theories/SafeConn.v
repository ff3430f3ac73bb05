(** * SafeConn: connecting and disconnecting stay defined *)
From Verif Require Import Base Const Types State Events Atomic Server Lib SearchProofs Shape Inv Reach Spec Frame WRel Effects Out DataFrame ModInv IdInv TypesProofs Safe SafeLoops SafeInv SafeWrite SafeOps SafeTags.

(** ** Disconnecting *)
Lemma remove_at_id id l : NoDup (map e_id l) -> forall e, In e (remove_ev id l) -> e_id e <> id.
Proof.
  induction l as [|x l IH]; intros N e I; cbn [remove_ev] in I; [destruct I|]. cbn [map] in N. apply NoDup_cons_iff in N as [N1 N2]. destruct (e_id x =? id) eqn:Q.
  - intros K. apply N1. replace (e_id x) with (e_id e) by lia. apply in_map. exact I.
  - destruct I as [<-|I]; [lia | exact (IH N2 _ I)].
Qed.
Lemma find_unique id l x : NoDup (map e_id l) -> In x l -> e_id x = id -> find (fun e => e_id e =? id) l = Some x.
Proof.
  induction l as [|y l IH]; intros N I Q; [destruct I|]. cbn [map] in N. apply NoDup_cons_iff in N as [N1 N2]. cbn [find]. destruct (e_id y =? id) eqn:K.
  - destruct I as [->|I]; [reflexivity|]. exfalso. apply N1. replace (e_id y) with (e_id x) by lia. apply in_map. exact I.
  - destruct I as [->|I]; [lia | exact (IH N2 I Q)].
Qed.
Lemma event_del_own E i x m s t : en_strict E = false -> LI s -> IdInv s -> znth (s_db s) i = Some t -> In x (t_events t) -> e_mod x = m_uid m ->
  exists s' r t', event_del E i (e_id x) (Some m) s = Done (s', r) /\ LI s' /\ IdInv s' /\ s_db s' = zset (s_db s) i t' /\ t_events t' = remove_ev (e_id x) (t_events t).
Proof.
  intros St L U Ht Ix Mx. destruct (event_del_fine E i (e_id x) (Some m) s ltac:(congruence) L U) as (s' & r & H & L'). { intros t0 H0. assert (t0 = t) by congruence. subst t0. right. apply in_map. exact Ix. }
  assert (U' : IdInv s') by (eapply (IdInv_er (fun _ _ => False)); [eapply event_del_er; [|exact H]; intros m0 _ [] | exact U]).
  assert (Nd := desc_NoDup _ _ (wf_ids _ _ _ (U _ _ Ht))). assert (X : exists t', s_db s' = zset (s_db s) i t' /\ t_events t' = remove_ev (e_id x) (t_events t)).
  { assert (Fx := find_unique (e_id x) _ _ Nd Ix eq_refl). revert H. unfold event_del. rewrite (run_bind get _ s s s eq_refl). cbv beta zeta. rewrite Ht. destruct (t_events t) as [|e evs] eqn:Ev; [destruct Ix|]. cbn [find remove_ev] in *.
    destruct (e_id e =? e_id x) eqn:Q.
    - injection Fx as ->. rewrite Mx, Z.eqb_refl, St. cbn [negb]. destruct (existsb _ _); [discriminate|]. intros H. injection H as <- _. eexists. split; reflexivity.
    - rewrite Fx, Mx, Z.eqb_refl. cbn [negb]. intros H. injection H as <- _. eexists. split; reflexivity. }
  destruct X as (t' & X1 & X2). exists s', r, t'. auto 10.
Qed.
Lemma own_module s i t e : LI s -> znth (s_db s) i = Some t -> In e (t_events t) -> exists m, mod_by_uid (s_mods s) (e_mod e) = Some m.
Proof.
  intros L H I. destruct (li_own _ L _ _ H _ I) as (m & Im & U). unfold mod_by_uid. destruct (find _ _) as [x|] eqn:F; [eauto|]. exfalso. assert (Q := find_none _ _ F _ Im). cbn in Q. lia.
Qed.
Lemma cleanup_tag_ok E n uid : forall l s t, (en_strict E = true -> forall e, In e l -> e_mod e <> uid) -> LI s -> IdInv s -> znth (s_db s) n = Some t -> NoDup (map e_id l) -> (forall e, In e l -> e_mod e = uid -> In e (t_events t)) ->
  exists s' t', cleanup_tag E n uid l s = Done (s', tt) /\ LI s' /\ IdInv s' /\ znth (s_db s') n = Some t' /\ (forall e, In e (t_events t') -> In e (t_events t)) /\
    (forall e, In e l -> e_mod e = uid -> ~ In e (t_events t')) /\ zlen (s_db s') = zlen (s_db s) /\ forall j, j <> n -> znth (s_db s') j = znth (s_db s) j.
Proof.
  induction l as [|e l IH]; intros s t St L U H N K; cbn [cleanup_tag]; [exists s, t; do 5 (split; [first [assumption | reflexivity | auto]|]); split; [intros e [] | auto]|]. cbn [map] in N. apply NoDup_cons_iff in N as [N1 N2]. destruct (e_mod e =? uid) eqn:Q.
  - assert (Se : en_strict E = false) by (destruct (en_strict E); [|reflexivity]; exfalso; apply (St eq_refl e (or_introl eq_refl)); lia). rewrite Se. assert (Ie : In e (t_events t)) by (apply K; [left; reflexivity | lia]). destruct (own_module _ _ _ _ L H Ie) as [m Hm]. replace (e_mod e) with uid in Hm by lia.
    destruct (event_del_own E n e m s t Se L U H Ie) as (s1 & r & t1 & D1 & L1 & U1 & B1 & V1); [apply mod_by_uid_uid in Hm; lia|].
    assert (Nd := desc_NoDup _ _ (wf_ids _ _ _ (U _ _ H))). assert (H1 : znth (s_db s1) n = Some t1) by (rewrite B1; apply znth_zset_eq; apply znth_range in H; exact H).
    destruct (IH s1 t1 (fun Q y I => St Q y (or_intror I)) L1 U1 H1 N2) as (s' & t' & C1 & C2 & C3 & C4 & C5 & C6 & C7 & C8).
    { intros y Y1 Y2. rewrite V1. destruct (remove_ev_keep (e_id e) (t_events t) e y (find_unique _ _ _ Nd Ie eq_refl) (K y (or_intror Y1) Y2)) as [->|Y3]; [|exact Y3]. exfalso. apply N1. apply in_map. exact Y1. }
    exists s', t'. split; [|].
    { erewrite run_bind; [exact C1|]. erewrite run_bind by reflexivity. rewrite Hm. erewrite run_bind by exact D1. reflexivity. }
    split; [exact C2|]. split; [exact C3|]. split; [exact C4|]. split; [intros y Y; apply C5 in Y; rewrite V1 in Y; eapply remove_in; exact Y|]. split; [|split].
    + intros y [<-|Y1] Y2; [|apply C6; assumption]. intros Y3. apply C5 in Y3. rewrite V1 in Y3. exact (remove_at_id _ _ Nd _ Y3 eq_refl).
    + rewrite C7, B1. apply zset_zlen.
    + intros j J. rewrite C8 by exact J. rewrite B1. apply znth_zset_ne. congruence.
  - destruct (IH s t (fun Q y I => St Q y (or_intror I)) L U H N2) as (s' & t' & C1 & C2 & C3 & C4 & C5 & C6 & C7 & C8); [intros y Y; apply K; right; exact Y|]. exists s', t'. split; [erewrite run_bind by reflexivity; exact C1|].
    split; [exact C2|]. split; [exact C3|]. split; [exact C4|]. split; [exact C5|]. split; [intros y [<-|Y1] Y2; [lia | apply C6; assumption] | auto].
Qed.
Lemma cleanup_loop_ok E uid : forall k s, (en_strict E = true -> gone uid s) -> LI s -> IdInv s -> Z.of_nat k <= zlen (s_db s) ->
  (forall i t, Z.of_nat k <= i -> znth (s_db s) i = Some t -> forall e, In e (t_events t) -> e_mod e <> uid) -> exists s', cleanup_loop E k uid s = Done (s', tt) /\ LI s' /\ IdInv s' /\ gone uid s'.
Proof.
  induction k as [|k IH]; intros s St L U Hk G; cbn [cleanup_loop].
  - exists s. split; [reflexivity|]. split; [exact L|]. split; [exact U|]. intros i t H. apply G with (i := i); [apply znth_range in H; lia | exact H].
  - erewrite run_bind by reflexivity. cbv beta. destruct (mod_by_uid (s_mods s) uid) as [m|] eqn:Hm.
    + destruct (0 <? m_evcount m) eqn:Q.
      * destruct (znth_some (s_db s) (Z.of_nat k)) as [t H]; [lia|]. erewrite run_tag_at by exact H. cbv beta. assert (Nd := desc_NoDup _ _ (wf_ids _ _ _ (U _ _ H))).
        destruct (cleanup_tag_ok E (Z.of_nat k) uid (t_events t) s t (fun Q => St Q _ _ H) L U H Nd) as (s' & t' & C1 & C2 & C3 & C4 & C5 & C6 & C7 & C8); [auto|].
        erewrite run_bind by exact C1. apply IH; [intros Q1 j u Hu y Iy; destruct (Z.eq_dec j (Z.of_nat k)) as [->|Ne]; [assert (u = t') by congruence; subst u; exact (St Q1 _ _ H y (C5 _ Iy)) | rewrite C8 in Hu by exact Ne; exact (St Q1 _ _ Hu y Iy)] | exact C2 | exact C3 | lia|]. intros i u Hi Hu e Ie Me. destruct (Z.eq_dec i (Z.of_nat k)) as [->|Ne].
        -- assert (u = t') by congruence. subst u. exact (C6 e (C5 _ Ie) Me Ie).
        -- rewrite C8 in Hu by exact Ne. refine (G i u _ Hu e Ie Me). lia.
      * exists s. split; [reflexivity|]. split; [exact L|]. split; [exact U|]. intros i t H e Ie Me. apply find_some in Hm as [Im Um]. assert (K := li_cnt _ L _ Im). assert (P := owned_pos (m_uid m) t e Ie ltac:(lia)). assert (P2 := osum_ge (m_uid m) _ _ _ H). lia.
    + exists s. split; [reflexivity|]. split; [exact L|]. split; [exact U|]. intros i t H e Ie Me. destruct (own_module _ _ _ _ L H Ie) as [m Q]. congruence.
Qed.
Lemma del_owned_loop_ok E fd : forall k n s, Inv s -> LI s -> exists s', del_owned_loop E fd k n s = Done (s', tt) /\ Inv s' /\ LI s' /\ evsub s s'.
Proof.
  induction k as [|k IH]; intros n s I L; cbn [del_owned_loop]; [exists s; auto using evsub_refl|]. unfold del_owned. destruct (tag_owned s fd n) eqn:Q.
  - destruct (tag_del_ok E n s I L) as (s1 & r & D & L1 & V1). assert (I1 := tag_del_Inv _ _ _ _ _ I D). destruct (IH (n + 1) s1 I1 L1) as (s2 & C1 & C2 & C3 & C4). exists s2. split; [|eauto using evsub_trans].
    erewrite run_bind; [exact C1|]. erewrite run_bind by reflexivity. rewrite Q. erewrite run_bind by exact D. reflexivity.
  - destruct (IH (n + 1) s I L) as (s2 & C1 & C2 & C3 & C4). exists s2. split; [|auto]. erewrite run_bind; [exact C1|]. erewrite run_bind by reflexivity. rewrite Q. reflexivity.
Qed.
Lemma LI_leave s uid : LI s -> gone uid s -> LI (set_mods s (filter (fun x => negb (m_uid x =? uid)) (s_mods s))).
Proof.
  intros [A B C D F G H I J] Go. constructor; try assumption.
  - intros i t Ht. eapply tag_ok_nv; [|exact (C _ _ Ht)]. intros k K. exact K.
  - intros i t Ht e Ie. destruct (D _ _ Ht _ Ie) as (m & Im & Um). exists m. split; [|exact Um]. apply filter_In. split; [exact Im|]. assert (Q := Go _ _ Ht _ Ie). lia.
  - intros m Im. apply filter_In in Im as [Im _]. exact (F _ Im).
  - intros m Im. apply filter_In in Im as [Im _]. exact (G _ Im).
  - intros m g Im. apply filter_In in Im as [Im _]. exact (H _ _ Im).
Qed.
Lemma module_unregister_ok E fd s : (en_strict E = true -> no_events_of s fd) -> Inv s -> LI s -> IdInv s -> exists s', module_unregister E fd s = Done (s', tt) /\ LI s'.
Proof.
  intros St I L U. unfold module_unregister. erewrite run_bind by reflexivity. cbv beta. destruct (find_mod s fd) as [m|] eqn:Fm; [|exists s; auto].
  destruct (cleanup_loop_ok E (m_uid m) (length (s_db s)) s (fun Q i t H e I => St Q m i t e Fm H I) L U) as (s1 & C1 & L1 & U1 & G1); [unfold zlen; lia | intros i t Q H; apply znth_range in H; unfold zlen in H; lia |]. erewrite run_bind by exact C1. erewrite run_bind by reflexivity. cbv beta.
  assert (I1 : Inv s1) by (apply (proj1 (shape_good _ _ (cleanup_loop_shape _ _ _ _ _ _ C1) I))).
  destruct (del_owned_loop_ok E fd (length (s_db s1)) 0 s1 I1 L1) as (s2 & C2 & I2 & L2 & V2). erewrite run_bind by exact C2.
  destruct (tag_del_ok E (m_tagidx m) s2 I2 L2) as (s3 & r & C3 & L3 & V3). erewrite run_bind by exact C3. eexists. split; [reflexivity|]. apply LI_leave; [exact L3|].
  exact (evsub_gone _ _ _ V3 (evsub_gone _ _ _ V2 G1)).
Qed.

(** ** Connecting *)
(** tags behind the server's own whose name begins with an underscore are module tags *)
Definition NI (s : server) : Prop := forall i t x, 11 <= i -> znth (s_db s) i = Some t -> t_name t = Some (95 :: x) ->
  t_type t = cdt_type 0 /\ has (t_attr t) A_OWNED = false /\ has (t_attr t) A_VIRTUAL = false /\ has (t_attr t) A_SPECIAL = true.
Lemma NI_keep s s' : (forall i t', 11 <= i -> znth (s_db s') i = Some t' -> (exists t, znth (s_db s) i = Some t /\ tcore t' = tcore t) \/ forall x, t_name t' <> Some (95 :: x)) -> NI s -> NI s'.
Proof.
  intros K N i t' x Hi H Hn. destruct (K _ _ Hi H) as [(t & Ht & C)|Q]; [|destruct (Q _ Hn)]. unfold tcore in C. injection C as C1 C2 _ _ _ C3 _ C4 C5. rewrite C1 in Hn. destruct (N _ _ _ Hi Ht Hn) as (A & B & D & F). rewrite C2, C5, C3, C4. auto.
Qed.
Lemma NI_shape s s' : shape s s' -> NI s -> NI s'.
Proof.
  intros Sh. apply NI_keep. intros i t' _ H. left. destruct (znth_some (s_db s) i) as [t Ht]; [apply znth_range in H; rewrite (sh_len _ _ Sh) in H; exact H|].
  destruct (shape_tag _ _ _ _ Sh Ht) as (t1 & H1 & T1). assert (t1 = t') by congruence. subst t1. exists t. split; [exact Ht | apply tag_shape_core; exact T1].
Qed.
Lemma NI_db s s' : s_db s' = s_db s -> NI s -> NI s'.
Proof. intros Q N i t x. rewrite Q. apply N. Qed.
Lemma NI_core s s' : (forall i, 11 <= i -> core_at s' i = core_at s i \/ is_gone s' i) -> NI s -> NI s'.
Proof.
  intros K. apply NI_keep. intros i t' Hi H. destruct (K i Hi) as [C|(t & G1 & G2 & _)].
  - left. unfold core_at in C. rewrite H in C. destruct (znth (s_db s) i) as [t|]; [|discriminate]. exists t. split; [reflexivity|]. cbn in C. congruence.
  - right. assert (t = t') by congruence. subst t'. rewrite G2. discriminate.
Qed.
Lemma tag_add_NI E fd nm ty c a s s' r : Inv s -> 0 <= c < 4294967296 -> nthb nm 0 <> 95 -> tag_add E fd nm ty c a s = Done (s', r) -> NI s -> NI s'.
Proof.
  intros I Hc Hn H. destruct (tag_add_effect _ _ _ _ _ _ _ _ _ I Hc H) as [(_ & C & _)|[(_ & (t & N1 & _) & C2 & _ & C)|(_ & _ & C1 & _ & _ & C)]].
  - apply NI_core. auto.
  - apply NI_keep. intros i t' Hi Ht. destruct (Z.eq_dec i r) as [->|Ne].
    + right. intros x Q. destruct N1 as [N1 N2]. assert (C3 := C2 r). unfold name_at in C3. rewrite Ht, N1, Q, N2 in C3. injection C3 as C3. subst nm. apply Hn. reflexivity.
    + left. exists t'. split; [|reflexivity]. rewrite <- C; [exact Ht | exact Ne |]. unfold status_ix, IX_TAGCOUNT, IX_LASTINDEX, IX_ADDED, IX_DELETED. lia.
  - apply NI_keep. intros i t' Hi Ht. destruct (Z.eq_dec i r) as [->|Ne].
    + right. intros x Q. unfold name_at in C1. rewrite Ht, Q in C1. injection C1 as C1. subst nm. apply Hn. reflexivity.
    + left. exists t'. split; [|reflexivity]. rewrite <- C; [exact Ht | exact Ne |]. unfold status_ix, IX_TAGCOUNT, IX_LASTINDEX, IX_ADDED, IX_DELETED. lia.
Qed.
Lemma tag_del_NI E i s s' r : Inv s -> tag_del E i s = Done (s', r) -> NI s -> NI s'.
Proof.
  intros I H. destruct (tag_del_kept _ _ _ _ _ H) as (K & G & Ln & _). apply NI_keep. intros j t' Hj Ht. destruct (Z.eq_dec j i) as [->|Ne].
  - destruct (G I) as [(t & G1 & G2 & _)|[G1|(t & G1 & G2 & _)]].
    + unfold tag_del in H. rewrite (run_bind get _ s s s eq_refl) in H. cbv beta in H. rewrite G1 in H. destruct (t_data t) eqn:D; try (rewrite G2 in H; discriminate). injection H as <- _. left. exists t'. auto.
    + apply znth_range in Ht. rewrite Ln in Ht. destruct (znth_some (s_db s) i Ht) as [x X]. congruence.
    + right. assert (t = t') by congruence. subst t'. rewrite G2. discriminate.
  - left. destruct (K _ Ne) as [C _]. unfold core_at in C. rewrite Ht in C. destruct (znth (s_db s) j) as [t|]; [|discriminate]. exists t. split; [reflexivity|]. cbn in C. congruence.
Qed.
Lemma unregister_NI E fd s s' u : Inv s -> module_unregister E fd s = Done (s', u) -> NI s -> NI s'.
Proof.
  intros I H. destruct (find_mod s fd) as [m|] eqn:F.
  - destruct (module_unregister_effect _ _ _ _ _ _ I F H) as (K & _). apply NI_core. intros i _. destruct (K i) as [[C _]|[_ G]]; auto.
  - unfold module_unregister in H. rewrite (run_bind get _ s s s eq_refl) in H. cbv beta in H. rewrite F in H. injection H as <- _. auto.
Qed.

(** the name of a module tag *)
Lemma dec_rev_short : forall f n k, 0 <= n < 10 ^ Z.of_nat k -> (0 < k)%nat -> (length (dec_rev f n) <= k)%nat.
Proof.
  induction f as [|f IH]; intros n k H K; cbn [dec_rev]; [cbn; lia|]. destruct (n <? 10) eqn:Q; cbn [length]; [lia|]. destruct k as [|k]; [lia|]. destruct k as [|k]; [change (10 ^ Z.of_nat 1) with 10 in H; lia|].
  specialize (IH (n / 10) (Datatypes.S k)). assert (A : 10 ^ Z.of_nat (Datatypes.S (Datatypes.S k)) = 10 * 10 ^ Z.of_nat (Datatypes.S k)) by (rewrite (Nat2Z.inj_succ (Datatypes.S k)), Z.pow_succ_r by lia; reflexivity).
  assert (length (dec_rev f (n / 10)) <= Datatypes.S k)%nat; [apply IH; [|lia] | lia]. rewrite A in H. split; [apply Z.div_pos; lia | apply Z.div_lt_upper_bound; lia].
Qed.
Lemma pad_dec_ok w n : 0 <= n < 10 ^ Z.of_nat w -> (0 < w <= 5)%nat -> zlen (pad_dec w n) = Z.of_nat w /\ forallb isdigit (pad_dec w n) = true.
Proof.
  intros H W. unfold pad_dec. cbv zeta. assert (L : (length (dec_str n) <= w)%nat) by (unfold dec_str; rewrite rev_length; apply dec_rev_short; lia).
  assert (B : n < 2 ^ 64). { assert (10 ^ Z.of_nat w <= 10 ^ 5) by (apply Z.pow_le_mono_r; lia). change (10 ^ 5) with 100000 in *. lia. }
  destruct (dec_str_spec n ltac:(lia)) as (D & _). split; [unfold zlen; rewrite app_length, repeat_length; lia|]. rewrite forallb_app, D, andb_true_r. apply forallb_forall. intros c C. apply repeat_spec in C. subst c. reflexivity.
Qed.
Lemma name_chars l : Forall name_char l -> forallb (fun c => isalpha c || (c =? 95) || isdigit c) l = true.
Proof. intros F. apply forallb_forall. intros c I. rewrite Forall_forall in F. destruct (F _ I) as [-> |[-> | -> ]]; rewrite ?orb_true_r; reflexivity. Qed.
Lemma validate_m l : zlen l <= 31 -> Forall name_char l -> validate_name (95 :: l) = 0.
Proof. intros L F. unfold validate_name, TAGNAME_SIZE. rewrite zlen_cons. replace (32 <? 1 + zlen l) with false by lia. rewrite (name_chars _ F). reflexivity. Qed.
Lemma Forall_firstn {A} (P : A -> Prop) n l : Forall P l -> Forall P (firstn n l).
Proof. intros F. apply Forall_forall. intros x I. rewrite Forall_forall in F. apply F. eapply in_firstn. exact I. Qed.
(** the name is valid and either unused or that of a module tag *)
Lemma module_tagname_ok E s nm : Inv s -> LI s -> SysInv E s -> NI s -> Forall name_char nm -> s_moduuid s < 100000 ->
  exists tn u, module_tagname s nm = Done (tn, u) /\ validate_name tn = 0 /\ 0 <= u /\ exists x, tn = 95 :: x /\
    forall i t, znth (s_db s) i = Some t -> t_name t = Some tn -> 11 <= i.
Proof.
  intros I L S N F B. assert (Uu := li_uuid _ L). unfold module_tagname. cbv zeta. set (base := str "_m" ++ firstn 30 nm). change (str "_m") with [95; 109] in base.
  assert (Lb : zlen base <= 32) by (unfold base, zlen; rewrite app_length, firstn_length; cbn [length]; lia). assert (Fb : Forall name_char base).
  { apply Forall_app. split; [constructor; [right; right; reflexivity | constructor; [left; reflexivity | constructor]] | apply Forall_firstn; exact F]. }
  destruct (name_lookup s base I) as (i & I1 & I2). assert (X : exists r, tag_get_name s base = Done r /\ ((exists e, r = inr e) -> forall j t, znth (s_db s) j = Some t -> t_name t <> Some base)).
  { unfold tag_get_name. rewrite I1. cbn [rbind]. destruct I2 as [[-> Hno]|(t & Ht & Hn)]; [exists (inr E_NOTFOUND); split; [reflexivity | auto]|].
    assert (R := znth_range _ _ _ Ht). replace (i <? 0) with false by lia. destruct (info_at_ok _ _ _ L Ht) as [x X]. exists x. split; [exact X|]. intros [e ->]. exfalso. revert X. unfold info_at. rewrite Ht, Hn. assert (Dn : t_data t <> DNull) by (eapply dead_not_named; [exact (li_inv _ L _ _ Ht) | exact Hn]). intros X. destruct (t_data t); congruence. }
  destruct X as (r & X1 & X2). rewrite X1. cbn [rbind]. destruct r as [inf|e].
  - set (w := if s_moduuid s <? 1000 then 3%nat else 5%nat). set (k := if s_moduuid s <? 1000 then 29 else 27). assert (P : zlen (pad_dec w (s_moduuid s)) = Z.of_nat w /\ forallb isdigit (pad_dec w (s_moduuid s)) = true).
    { apply pad_dec_ok; unfold w; destruct (s_moduuid s <? 1000) eqn:Q; lia. }
    destruct P as [P1 P2]. set (p := pad_dec w (s_moduuid s)) in *. set (f := firstn _ base).
    assert (Lf : zlen f + zlen p <= 32). { unfold f. unfold zlen at 1. rewrite firstn_length, P1. unfold w, k. destruct (_ <? _); lia. }
    assert (Kw : 2 <= Z.min (zlen base) k). { unfold base, zlen. rewrite app_length. cbn [length]. unfold k. destruct (_ <? _); lia. }
    assert (Fh : exists y, f = 95 :: 109 :: y).
    { unfold f. destruct (Z.to_nat (Z.min (zlen base) k)) as [|[|n]] eqn:Q; [lia | lia|]. unfold base. cbn [app firstn]. eauto. }
    destruct Fh as [y Fh]. rewrite zlen_app. replace (32 <? zlen f + zlen p) with false by lia. eexists _, _. split; [reflexivity|]. assert (Fp : Forall name_char p).
    { apply Forall_forall. intros c C. rewrite forallb_forall in P2. right. left. auto. }
    assert (Ff : Forall name_char f) by (apply Forall_firstn; exact Fb).
    rewrite Fh in *. split; [|split; [lia|]].
    + cbn [app]. apply validate_m; [rewrite !zlen_cons in Lf; rewrite zlen_cons, zlen_app; lia|]. inversion Ff; subst. inversion H2; subst. constructor; [assumption | apply Forall_app; auto].
    + cbn [app]. eexists. split; [reflexivity|]. intros j t Ht Hn. destruct (Z_lt_le_dec j 11) as [Lj|Lj]; [exfalso | exact Lj]. assert (Rj := znth_range _ _ _ Ht).
      destruct (znth_some sys_tags j) as [[n ty] Hq]; [change (zlen sys_tags) with 11; lia|]. destruct (si_tags _ _ S _ _ _ Hq) as (t1 & Q1 & [(Q2 & _)|[Q2 _]]); [|congruence]. assert (t1 = t) by congruence. subst t1.
      rewrite Hn in Q2. injection Q2 as Q2. assert (W : (0 < length p)%nat) by (unfold zlen in P1; unfold w in P1; destruct (_ <? _); lia).
      assert (Ld : isdigit (last n 0) = true).
      { rewrite <- Q2. change (95 :: 109 :: y ++ p) with ((95 :: 109 :: y) ++ p). destruct (exists_last (l := p)) as (p' & c & Pc); [destruct p; [cbn in W; lia | discriminate]|]. rewrite Pc in P2 |- *. rewrite app_assoc, last_last.
        rewrite forallb_app in P2. apply andb_true_iff in P2 as [_ P2]. cbn in P2. rewrite andb_true_r in P2. exact P2. }
      apply znth_In in Hq. cbn in Hq. repeat (destruct Hq as [Hq|Hq]; [injection Hq as <- _; discriminate Ld|]). exact Hq.
  - exists base, (s_moduuid s). split; [reflexivity|]. split; [|split; [lia|]].
    + unfold base in *. cbn [app] in *. apply validate_m; [rewrite !zlen_cons in Lb; rewrite zlen_cons; lia | inversion Fb; assumption].
    + eexists. split; [reflexivity|]. intros j t Ht Hn. destruct (X2 (ex_intro _ e eq_refl) _ _ Ht Hn).
Qed.
Lemma set_attribute_0 E i s t : znth (s_db s) i = Some t -> set_attribute E i 0 s = Done (s, tt).
Proof. intros H. unfold set_attribute. rewrite H. reflexivity. Qed.
Lemma tag_add_accepts E fd nm ty c s s' r : Inv s -> 0 < c -> checktype (s_types s) ty = true -> validate_name nm = 0 ->
  (forall i t, znth (s_db s) i = Some t -> t_name t = Some nm -> t_type t = ty /\ c <= t_count t /\ has (t_attr t) A_OWNED = false) -> tag_add E fd nm ty c 0 s = Done (s', r) -> 0 <= r.
Proof.
  intros I C Ck V K H. unfold tag_add in H. replace (c =? 0) with false in H by lia. rewrite (run_bind get _ s s s eq_refl) in H. cbv beta in H. apply bind_done in H as (s0 & u & H0 & H).
  assert (S0 : s_db s0 = s_db s /\ s_index s0 = s_index s /\ s_types s0 = s_types s) by (destruct (_ <=? _) in H0; injection H0 as <- _; auto). destruct S0 as (S1 & S2 & S3). rewrite (run_bind get _ s0 s0 s0 eq_refl) in H. cbv beta in H.
  rewrite S3, Ck, V in H. cbn [negb Z.eqb] in H. apply bind_done in H as (s1 & z & H1 & H). apply lift_done in H1 as [-> H1]. apply bind_done in H as (s2 & n & H2 & H). apply lift_done in H2 as [-> H2]. rewrite S2 in H2.
  destruct (name_lookup s nm I) as (i & I1 & I2). rewrite I1 in H2. injection H2 as <-. destruct I2 as [[-> Hno]|(t & Ht & Hn)].
  - change (0 <=? E_NOTFOUND) with false in H. cbv zeta iota in H. assert (Zl := zlen_nonneg (s_db s0)). repeat (apply bind_done in H as (? & ? & ? & H)). apply ret_done in H as [_ ->]. lia.
  - assert (R := znth_range _ _ _ Ht). replace (0 <=? i) with true in H by lia. assert (Ht0 := Ht). rewrite <- S1 in Ht0. rewrite (run_tag_at _ _ _ _ Ht0) in H. destruct (K _ _ Ht Hn) as (K1 & K2 & K3). rewrite K3 in H. cbn [andb] in H. rewrite K1, Z.eqb_refl in H.
    replace (c <=? t_count t) with true in H by lia. apply bind_done in H as (? & ? & ? & H). apply ret_done in H as [_ ->]. lia.
Qed.
Lemma module_size x : exists n, type_size (sys_types ++ x) (cdt_type 0) = Done n /\ n < 2147483648 /\ checktype (sys_types ++ x) (cdt_type 0) = true.
Proof.
  assert (C : checktype sys_types (cdt_type 0) = true) by (vm_compute; reflexivity). assert (T : exists n, type_size sys_types (cdt_type 0) = Done n /\ n < 2147483648) by (eexists; split; [vm_compute; reflexivity | lia]).
  destruct T as (n & T & B). exists n. split; [apply type_size_app; assumption|]. split; [exact B | apply checktype_app; exact C].
Qed.
Lemma module_tag_add E s tn y x : Inv s -> LI s -> s_types s = sys_types ++ x -> wf (s_types s) -> zlen (s_types s) <= 2147483648 -> room E s -> NI s -> 11 <= zlen (s_db s) -> validate_name tn = 0 -> tn = 95 :: y ->
  (forall i t, znth (s_db s) i = Some t -> t_name t = Some tn -> 11 <= i) ->
  exists s' r t, tag_add E (-1) tn (cdt_type 0) 1 0 s = Done (s', r) /\ LI s' /\ 11 <= r /\ znth (s_db s') r = Some t /\ t_name t = Some tn /\ t_type t = cdt_type 0 /\
    has (t_attr t) A_OWNED = false /\ has (t_attr t) A_VIRTUAL = false /\ (t_events t = [] \/ has (t_attr t) A_SPECIAL = true).
Proof.
  intros I L Tx W B Rm N Ln V Hy Hi. destruct (module_size x) as (n & T1 & T2 & T3). rewrite <- Tx in T1, T3.
  destruct (tag_add_fine E (-1) tn (cdt_type 0) 1 0 s I L W B) as (s' & r & H & L'); [lia | |].
  { split; [exact Rm|]. split; [|discriminate]. exists n. split; [exact T1|]. split; [lia|]. intros i t Ht _ _ Q. assert (Ct := it_count _ _ (li_inv _ L _ _ Ht)). lia. }
  assert (R : 0 <= r).
  { eapply tag_add_accepts; [exact I | | exact T3 | exact V | | exact H]; [lia|]. intros i t Ht Hn. assert (Hj := Hi _ _ Ht Hn). rewrite Hy in Hn. destruct (N _ _ _ Hj Ht Hn) as (A1 & A2 & _). assert (Ct := it_count _ _ (li_inv _ L _ _ Ht)). split; [exact A1|]. split; [lia | exact A2]. }
  exists s', r. assert (H' := H). apply tag_add_cases in H'; [|exact I | lia].
  destruct H' as [s' r Hr S1 | k t s0 s' u S1 Ht Hn Hty Hct How Hsa
    | k t s0 d size s1 s' u v S1 Ht Hn Hty Hct How Hns Hrg Hsa Htw
    | k t s0 d S1 Ht Hn Hty Hct Hrg Hns
    | s0 s1 s3 s4 s' ix size u v w z S1 Hno Hck Hvn Hcp Hns Hix Hw1 Hw2 Hsa Hw3].
  - lia.
  - destruct (set_dbsize_db _ _ S1) as (Edb & _). assert (Ht0 := Ht). rewrite <- Edb in Ht0. rewrite (set_attribute_0 _ _ _ _ Ht0) in Hsa. injection Hsa as <- _. assert (Hj := Hi _ _ Ht Hn). assert (Hn2 := Hn). rewrite Hy in Hn2. destruct (N _ _ _ Hj Ht Hn2) as (A1 & A2 & A3 & A4).
    exists t. auto 12.
  - exfalso. assert (Ct := it_count _ _ (li_inv _ L _ _ Ht)). lia.
  - exfalso. unfold E_ALLOC in R. lia.
  - destruct (set_dbsize_db _ _ S1) as (Edb & Eix & Ety & Est & Etc & _). assert (Wr1 := sys_write_wrel _ _ _ _ _ _ Hw1). assert (Wr2 := sys_write_wrel _ _ _ _ _ _ Hw2). assert (Wr3 := tag_write_wrel _ _ _ _ _ _ _ _ Hw3).
    set (s2 := set_tagcount _ _) in *. set (t0 := new_tag _ _ _ _ _ _ _) in *. assert (Z2 : znth (s_db s2) (zlen (s_db s)) = Some t0). { unfold s2. cbn. rewrite <- Edb. rewrite <- (wr_len _ _ Wr1). apply znth_last. }
    destruct (wr_tag _ _ Wr2 _ _ Z2) as (t3 & Z3 & G3). rewrite (set_attribute_0 _ _ _ _ Z3) in Hsa. injection Hsa as <- _. destruct (wr_tag _ _ Wr3 _ _ Z3) as (t4 & Z4 & G4). assert (G := wtg_trans _ _ _ G3 G4).
    exists t4. split; [exact H|]. split; [exact L'|]. split; [exact Ln|]. split; [exact Z4|]. split; [rewrite (wg_name _ _ G); reflexivity|]. split; [rewrite (wg_type _ _ G); reflexivity|].
    assert (At : t_attr t0 = 0). { unfold t0, new_tag. cbn [t_attr]. change (is_queue (cdt_type 0)) with false. cbv iota. unfold room, fresh_attr in *. destruct (zlen (s_db s) <? 1024) eqn:Q; [reflexivity|]. destruct Rm as [Rm|[R1 _]]; [lia | exact R1]. }
    rewrite (wg_attr _ _ G), At. split; [reflexivity|]. split; [reflexivity|]. left. assert (Q := wg_events _ _ G). destruct (t_events t4); [reflexivity | discriminate].
Qed.
Lemma tag_del_mu E i s s' r : tag_del E i s = Done (s', r) -> s_moduuid s' = s_moduuid s.
Proof.
  intros H. apply tag_del_cases in H. destruct H as [r Hr | t nm o ix s1 s3 s' t1 v u Ht Hn Hd Ho Hix Hs1 Hw Ht1 Hw2]; [auto|].
  rewrite (sh_muid _ _ (sys_write_shape _ _ _ _ _ _ Hw2)). cbn. rewrite (sh_muid _ _ (tag_write_shape _ _ _ _ _ _ _ _ Hw)). subst s1. reflexivity.
Qed.
Lemma del_owned_loop_mu E fd k : forall n s s' u, del_owned_loop E fd k n s = Done (s', u) -> s_moduuid s' = s_moduuid s.
Proof.
  induction k as [|k IH]; intros n s s' u H; cbn [del_owned_loop] in H; [inv_all; auto|]. inv1 H. apply IH in H as ->.
  unfold del_owned in Hm. inv1 Hm. destruct (tag_owned s fd n); [|inv_all; auto]. apply bind_done in Hm as (s1 & v1 & H1 & H2). apply ret_done in H2 as [-> _]. eapply tag_del_mu; exact H1.
Qed.
Lemma module_unregister_mu E fd s s' u : module_unregister E fd s = Done (s', u) -> s_moduuid s' = s_moduuid s.
Proof.
  intros H. unfold module_unregister in H. inv1 H. destruct (find_mod s fd); [|inv_all; auto]. inv1 H. inv1 H. inv1 H. inv1 H. unfold modify in H. injection H as <- _. cbn.
  rewrite (tag_del_mu _ _ _ _ _ Hm1), (del_owned_loop_mu _ _ _ _ _ _ _ Hm0). apply cleanup_loop_shape in Hm. apply Hm.
Qed.
Lemma LI_join s m u : LI s -> IdInv s -> m_uid m = s_nextuid s -> m_evcount m = 0 -> m_groups m = [] -> 0 <= m_fd m -> LI (set_nextuid (set_mods s (m :: s_mods s)) u).
Proof.
  intros [A B C D F G H I J] U M1 M2 M3 M4. set (s' := set_nextuid _ _). constructor; try assumption.
  - intros i t Ht. eapply tag_ok_nv; [|exact (C _ _ Ht)]. intros k K. exact K.
  - intros i t Ht e Ie. destruct (D _ _ Ht _ Ie) as (x & X1 & X2). exists x. split; [right; exact X1 | exact X2].
  - intros x [<-|X]; [|exact (F _ X)]. rewrite M1, M2. change (s_db s') with (s_db s). assert (Q : forall db, (forall i t, znth db i = Some t -> forall e, In e (t_events t) -> e_mod e < s_nextuid s) -> osum (s_nextuid s) db = 0).
    { clear. induction db as [|t db IH]; intros K; [reflexivity|]. rewrite osum_cons, IH.
      - assert (Z0 : owned_in (s_nextuid s) t = 0); [|lia]. unfold owned_in. assert (K0 := K 0 t eq_refl). induction (t_events t) as [|e l IHl]; [reflexivity|]. cbn [filter]. assert (e_mod e < s_nextuid s) by (apply K0; left; reflexivity). replace (e_mod e =? s_nextuid s) with false by lia. apply IHl. intros x X. apply K0. right. exact X.
      - intros i u H. apply (K (i + 1) u). assert (R := znth_range _ _ _ H). change (t :: db) with ([t] ++ db). rewrite znth_app2 by (change (zlen [t]) with 1; lia). change (zlen [t]) with 1. replace (i + 1 - 1) with i by lia. exact H. }
    rewrite Q; [lia|]. intros i t Ht. exact (wf_mod _ _ _ (U _ _ Ht)).
  - intros x [<-|X]; [exact M4 | exact (G _ X)].
  - intros x g [<-|X]; [rewrite M3; intros [] | exact (H _ _ X)].
Qed.
(** writes of the server to a module tag *)
Lemma module_write_ok E r off d s t : LI s -> znth (s_db s) r = Some t -> has (t_attr t) A_VIRTUAL = false -> t_type t = cdt_type 0 -> (t_events t = [] \/ has (t_attr t) A_SPECIAL = true) -> 0 <= off < 77 -> off + zlen d < 2147483648 ->
  exists s' x, tag_write E (-1) r off d s = Done (s', x) /\ moved s s'.
Proof.
  intros L H V T Cs Ho Hd. destruct Cs as [Ev|Sp].
  - apply tag_write_ok; [exact L|]. intros t0 H0. assert (t0 = t) by congruence. subst t0. rewrite V. split; [lia|]. split; [exact Hd|]. intros t1 e H1 Ie. assert (t1 = t) by congruence. subst t1. rewrite Ev in Ie. destruct Ie.
  - unfold tag_write. rewrite H, V. assert (Zd := zlen_nonneg d). replace (fits32 (off + zlen d)) with true by (unfold fits32; lia). cbn [negb]. destruct (li_tag_size s r t L H) as (n & N1 & _). rewrite N1. cbn [rbind].
    destruct (n <? off + zlen d); [do 2 eexists; split; [reflexivity | apply moved_refl]|]. assert (O := li_tag _ L _ _ H). unfold tag_ok, virt_ok in O. destruct (t_data t) as [|b|q| | |]; try (exfalso; destruct O as [O _]; congruence); try (exfalso; destruct O as (_ & O & _); congruence); try contradiction; [do 2 eexists; split; [reflexivity | apply moved_refl]|].
    rewrite Sp. unfold special_write. rewrite T. change (cdt_type 0 =? module_type) with true. cbv iota. replace (off =? 77) with false by lia. cbn [andb].
    assert (F : find_mod s (-1) = None). { unfold find_mod. destruct (find _ _) as [m|] eqn:F; [|reflexivity]. apply find_some in F as [F1 F2]. assert (Q := li_fd _ L _ F1). lia. }
    rewrite F. cbv zeta. cbn [Z.eqb E_NOTFOUND negb]. do 2 eexists; split; [reflexivity | apply moved_refl].
Qed.
Lemma moved_NI s s' : moved s s' -> NI s -> NI s'.
Proof.
  intros [Q _]. apply NI_keep. intros i t' _ H. left. destruct (lq_back _ _ _ _ Q H) as (t & H1 & G & _). exists t. split; [exact H1|]. destruct G. unfold tcore. congruence.
Qed.
Lemma module_register_ok E nm fd s : (en_strict E = true -> no_events_of s fd) -> Inv s -> SysInv E s -> IdInv s -> LI s -> NI s -> wf (s_types s) -> zlen (s_types s) <= 2147483648 -> 0 <= fd -> Forall name_char nm -> s_moduuid s < 100000 -> room E s ->
  exists s', module_register E nm fd s = Done (s', tt) /\ LI s' /\ NI s'.
Proof.
  intros St I S U L N W B Hf Fn Bu Rm. unfold module_register. erewrite run_bind by reflexivity. cbv beta.
  assert (X : exists s0, (match find_mod s fd with Some m => module_unregister E (m_fd m) | None => ret tt end) s = Done (s0, tt) /\ Inv s0 /\ SysInv E s0 /\ IdInv s0 /\ LI s0 /\ NI s0 /\ s_types s0 = s_types s /\ s_moduuid s0 = s_moduuid s /\ zlen (s_db s0) = zlen (s_db s)).
  { destruct (find_mod s fd) as [m|] eqn:F; [|exists s; auto 10]. assert (Fd0 : m_fd m = fd) by (apply find_some in F; destruct F; lia). destruct (module_unregister_ok E (m_fd m) s ltac:(rewrite Fd0; exact St) I L U) as (s0 & H0 & L0). exists s0. split; [exact H0|]. split; [eapply module_unregister_good; eassumption|].
    destruct (module_unregister_sys _ _ _ _ _ I S H0) as [S0 _]. split; [exact S0|]. split; [eapply (IdInv_er (fun _ _ => False)); [eapply module_unregister_er; [exact I | | exact H0]; auto | exact U]|].
    split; [exact L0|]. split; [eapply unregister_NI; eassumption|]. split; [apply (module_unregister_tu _ _ _ _ _ H0)|]. split; [exact (module_unregister_mu _ _ _ _ _ H0)|].
    assert (Fd : m_fd m = fd) by (apply find_some in F; destruct F; lia). rewrite Fd in H0. apply (module_unregister_effect _ _ _ _ _ _ I F H0). }
  destruct X as (s0 & H0 & I0 & S0 & U0 & L0 & N0 & T0 & M0 & Z0). erewrite run_bind by exact H0. erewrite run_bind by reflexivity. cbv beta zeta. erewrite run_bind by reflexivity. set (s1 := set_nextuid _ _).
  assert (L1 : LI s1) by (apply LI_join; auto). assert (I1 : Inv s1) by (destruct I0; constructor; assumption). assert (N1 : NI s1) by exact (NI_db _ _ eq_refl N0).
  destruct (existsb _ (en_excl E)); [exists s1; auto|]. erewrite run_bind by reflexivity. cbv beta.
  destruct (module_tagname_ok E s0 nm I0 L0 S0 N0 Fn) as (tn & uu & Q1 & Q2 & Q3 & y & Q4 & Q5); [lia|]. change (module_tagname s0 nm) with (module_tagname s1 nm) in Q1. erewrite run_lift by exact Q1. cbv beta iota. erewrite run_bind by reflexivity. erewrite run_bind by reflexivity. cbv beta.
  set (s2 := set_moduuid s1 uu). assert (L2 : LI s2). { destruct L1 as [A B0 C D F G H K J]. constructor; try assumption. intros i t Ht. eapply tag_ok_nv; [|exact (C _ _ Ht)]. intros k Kk. exact Kk. }
  assert (I2 : Inv s2) by (destruct I1; constructor; assumption). destruct (si_types _ _ S0) as [x Tx]. assert (Ty : cdt_get_type (s_types s2) (str "_module") = cdt_type 0) by (change (s_types s2) with (s_types s0); rewrite Tx; apply module_cdt).
  rewrite Ty. destruct (module_tag_add E s2 tn y x I2 L2) as (s3 & r & t & A1 & L3 & A3 & A4 & A5 & A6 & A7 & A8 & A9);
    [exact Tx | change (wf (s_types s0)); rewrite T0; exact W | change (zlen (s_types s0) <= 2147483648); rewrite T0; exact B | unfold room; change (s_db s2) with (s_db s0); rewrite Z0; exact Rm | exact (NI_db _ _ eq_refl N1) | change (s_db s2) with (s_db s0); rewrite Z0; exact (SysInv_len _ _ S) | exact Q2 | exact Q4 | exact Q5 |].
  erewrite run_bind by exact A1. cbv beta. replace (r <? 0) with false by lia. erewrite run_bind by reflexivity. erewrite run_bind by reflexivity. cbv beta. set (s4 := upd_mod _ _ s3).
  assert (L4 : LI s4). { apply LI_upd_mod; [exact L3 | intros m; auto | |]; [intros m Im Um; rewrite <- Um; exact (li_cnt _ L3 _ Im) | intros m g Im _; exact (li_grp _ L3 _ _ Im)]. }
  destruct (module_write_ok E r 0 (le_bytes 8 (s_now s4)) s4 t L4 A4 A8 A6 A9) as (s5 & r5 & W5 & M5); [lia | rewrite zlen_le_bytes; lia |]. erewrite run_bind by exact W5. assert (L5 := moved_LI _ _ M5 L4). destruct (moved_tag _ _ _ _ M5 A4) as (t5 & H5 & G5 & _).
  assert (C5 : t_events t5 = [] \/ has (t_attr t5) A_SPECIAL = true). { destruct A9 as [Ev|Sp]; [left; assert (Q := wg_events _ _ G5); rewrite Ev in Q; destruct (t_events t5); [reflexivity | discriminate] | right; rewrite (wg_attr _ _ G5); exact Sp]. }
  destruct (module_write_ok E r 8 (le_bytes 4 fd) s5 t5 L5 H5) as (s6 & r6 & W6 & M6); [rewrite (wg_attr _ _ G5); exact A8 | rewrite (wg_type _ _ G5); exact A6 | exact C5 | lia | rewrite zlen_le_bytes; lia |]. erewrite run_bind by exact W6. assert (L6 := moved_LI _ _ M6 L5). destruct (moved_tag _ _ _ _ M6 H5) as (t6 & H6 & G6 & _).
  assert (G := wtg_trans _ _ _ G5 G6). rewrite (run_tag_at _ _ _ _ H6). cbv beta. erewrite run_bind by reflexivity. set (t7 := set_attr t6 _). set (s7 := set_tag s6 r t7).
  assert (Hf1 : forall f, f = A_VIRTUAL \/ f = A_OVR_SET \/ f = A_OWNED -> has (t_attr t7) f = has (t_attr t6) f). { intros f Q. change (t_attr t7) with (set_flag (t_attr t6) A_SPECIAL). rewrite has_set_flag. replace (has A_SPECIAL f) with false; [apply orb_false_r|]. destruct Q as [-> |[-> | -> ]]; reflexivity. }
  assert (L7 : LI s7). { unfold s7, t7. replace t6 with (set_retid t6 (t_retid t6)) at 1 by (destruct t6; reflexivity). apply LI_attr; auto. eapply dead_not_named; [exact (li_inv _ L6 _ _ H6) | rewrite (wg_name _ _ G); exact A5]. }
  assert (N7 : NI s7).
  { assert (Ef := tag_add_effect E (-1) tn (cdt_type 0) 1 0 s2 s3 r I2 ltac:(lia) A1). assert (K3 : forall i u, 11 <= i -> i <> r -> znth (s_db s3) i = Some u -> exists u0, znth (s_db s2) i = Some u0 /\ tcore u = tcore u0).
    { intros i u Hi Ne Hu. assert (Ns : ~ status_ix i) by (unfold status_ix, IX_TAGCOUNT, IX_LASTINDEX, IX_ADDED, IX_DELETED; lia). destruct Ef as [(_ & C & _)|[(_ & _ & _ & _ & C)|(_ & _ & _ & _ & _ & C)]].
      - specialize (C i). unfold core_at in C. rewrite Hu in C. destruct (znth (s_db s2) i) as [u0|]; [|discriminate]. exists u0. split; [reflexivity|]. cbn in C. congruence.
      - exists u. rewrite <- C by assumption. auto.
      - exists u. rewrite <- C by assumption. auto. }
    intros i u z Hi Hu Hn. unfold s7 in Hu. rewrite znth_set in Hu. destruct ((r =? i) && (0 <=? r) && (r <? zlen (s_db s6))) eqn:Qi.
    - injection Hu as <-. rewrite !Hf1 by auto. change (t_type t7) with (t_type t6). rewrite (wg_type _ _ G), (wg_attr _ _ G). split; [exact A6|]. split; [exact A7|]. split; [exact A8|]. change (t_attr t7) with (set_flag (t_attr t6) A_SPECIAL). rewrite has_set_flag. apply orb_true_r.
    - assert (Ri := znth_range _ _ _ Hu). assert (M := moved_trans _ _ _ M5 M6). destruct (lq_back _ _ _ _ (proj1 M) Hu) as (u4 & U4 & Gu & _). change (s_db s4) with (s_db s3) in U4. destruct (K3 i u4 Hi) as (u2 & U2 & Cu); [assert (Rr := znth_range _ _ _ H6); lia | exact U4 |].
      assert (Cc : tcore u = tcore u2) by (rewrite <- Cu; destruct Gu; unfold tcore; congruence). unfold tcore in Cc. injection Cc as C1 C2 _ _ _ C3 _ C4 C5'. rewrite C2, C3, C4, C5'. apply (N1 i u2 z Hi U2). congruence. }
  destruct (sys_tag_write_ok E IX_LASTMODULE (firstn 32 (tn ++ zeros 33)) s7 L7) as (s8 & r8 & W8 & M8); [unfold IX_LASTMODULE; lia | unfold zlen; rewrite firstn_length; lia |]. erewrite run_bind by exact W8. exists s8. split; [reflexivity|]. split; [exact (moved_LI _ _ M8 L7) | exact (moved_NI _ _ M8 N7)].
Qed.
