(** * The client's tag cache: C50 *)
From Coq Require Import Permutation.
From Verif Require Import Base Const Types State Events Atomic Server Lib SearchProofs Shape Inv Reach Spec Demo Cache CacheProofs.

(** ** the cache functions in any order *)
Inductive rop := RName (n : name) | RIndex (i : Z) | RAdd (t : ctag) | RDel (i : Z).
Definition rstep (c : cache) (o : rop) : run cache :=
  match o with
  | RName n => x <-- check_cache_name c n ;; Done (fst x)
  | RIndex i => x <-- check_cache_index c i ;; Done (fst x)
  | RAdd t => cache_tag_add c t
  | RDel i => x <-- cache_tag_del c i ;; Done (fst x)
  end.
Fixpoint rexec (c : cache) (os : list rop) : run cache :=
  match os with [] => Done c | o :: r => c <-- rstep c o ;; rexec c r end.

(** the invariant: the list structure is intact, its entries were added before, and there are not too many *)
Definition holds (lim : Z) (P : ctag -> Prop) (c : cache) : Prop :=
  exists l, ring c l /\ Forall P (map snd l) /\ zlen l <= Z.max 1 lim /\ ca_limit c = lim.
Lemma moved_forall (P : ctag -> Prop) l1 x l2 : Forall P (map snd (l1 ++ x :: l2)) -> Forall P (map snd (moved l1 x l2)).
Proof.
  intros H. rewrite Forall_forall in *. intros t Ht. apply H.
  eapply Permutation_in; [apply Permutation_sym, Permutation_map, moved_perm | exact Ht].
Qed.
Lemma moved_zlen l1 x l2 : zlen (moved l1 x l2) = zlen (l1 ++ x :: l2).
Proof. unfold zlen. rewrite (Permutation_length (moved_perm l1 x l2)). reflexivity. Qed.
Lemma check_holds lim P c p : holds lim P c ->
  exists c' r, check_cache c p = Done (c', r) /\ holds lim P c' /\ (forall t, r = Some t -> p t = true /\ P t).
Proof.
  intros (l & R & F & Z0 & L). destruct (check_cache_spec c l p R) as [(_ & E) | (l1 & a & t & l2 & c' & -> & _ & Pt & E & R' & L')].
  - exists c, None. split; [exact E|]. split; [exists l; auto | discriminate].
  - exists c', (Some t). split; [exact E|]. split; [exists (moved l1 (a, t) l2); split; [exact R'|]; split; [apply moved_forall; exact F|]; split; [rewrite moved_zlen; exact Z0 | congruence]|].
    intros u [= <-]. split; [exact Pt|]. rewrite Forall_forall in F. apply F. rewrite map_app. apply in_or_app. right. left. reflexivity.
Qed.
Lemma in_removelast {A} (l : list A) x : In x (removelast l) -> In x l.
Proof. induction l as [|a [|b l] IH]; [intros []|intros []|]. intros [->|H]; [left; reflexivity | right; apply IH; exact H]. Qed.
Lemma length_removelast {A} (l : list A) : length (removelast l) = Nat.pred (length l).
Proof. induction l as [|a [|b l] IH]; [reflexivity|reflexivity|]. cbn [removelast length]. cbn [removelast length] in IH. rewrite IH. reflexivity. Qed.
Lemma add_holds lim (P : ctag -> Prop) c t : holds lim P c -> P t -> exists c', cache_tag_add c t = Done c' /\ holds lim P c'.
Proof.
  intros (l & R & F & Z0 & L) Pt. destruct (cache_add_spec c l t R) as (c' & l' & E & R' & M & L'). exists c'. split; [exact E|].
  exists l'. split; [exact R'|]. rewrite M, L in *. assert (Ml : zlen l' = zlen (added lim (map snd l) t)) by (rewrite <- M, zlen_map; reflexivity).
  assert (Fl : Forall P (added lim (map snd l) t)).
  { unfold added. destruct (map snd l) as [|x r] eqn:E0; [constructor; [exact Pt | constructor]|]. rewrite <- E0 in *.
    destruct (zlen (map snd l) <? lim); apply Forall_app; split; try (constructor; [exact Pt | constructor]); [exact F|].
    rewrite Forall_forall in *. intros y Hy. apply F. apply in_removelast. exact Hy. }
  split; [exact Fl|]. split; [|congruence]. rewrite Ml. unfold added. destruct (map snd l) as [|x r] eqn:E0; [change (zlen [t]) with 1; lia|].
  assert (Zl : zlen (x :: r) = zlen l) by (rewrite <- E0; apply zlen_map). destruct (zlen (x :: r) <? lim) eqn:Q; rewrite zlen_app; change (zlen [t]) with 1; [lia|].
  unfold zlen in *. rewrite length_removelast. cbn [length] in *. lia.
Qed.
Lemma del_holds lim P c i : holds lim P c -> exists c' e, cache_tag_del c i = Done (c', e) /\ holds lim P c'.
Proof.
  intros (l & R & F & Z0 & L). destruct (cache_del_spec c l i R) as [(_ & E) | (l1 & a & t & l2 & c' & -> & _ & _ & E & R' & L')].
  - exists c, E_NOTFOUND. split; [exact E|]. exists l. auto.
  - exists c', 0. split; [exact E|]. exists (l1 ++ l2). split; [exact R'|]. rewrite map_app in *. cbn [map snd] in F. apply Forall_app in F as [F1 F2].
    inversion F2; subst. split; [apply Forall_app; split; assumption|]. rewrite zlen_app in *. rewrite zlen_cons in Z0. split; [lia | congruence].
Qed.
Lemma holds_weak lim (P Q : ctag -> Prop) c : (forall t, P t -> Q t) -> holds lim P c -> holds lim Q c.
Proof. intros W (l & R & F & K). exists l. split; [exact R|]. split; [eapply Forall_impl; [exact W | exact F] | exact K]. Qed.
Lemma rexec_holds lim os : forall c P, holds lim P c -> exists c', rexec c os = Done c' /\ holds lim (fun t => P t \/ In (RAdd t) os) c'.
Proof.
  induction os as [|o os IH]; intros c P H; [exists c; split; [reflexivity | eapply holds_weak; [|exact H]; tauto]|].
  assert (exists c1, rstep c o = Done c1 /\ holds lim (fun t => P t \/ o = RAdd t) c1) as (c1 & E1 & H1).
  { destruct o as [n|i|t|i]; cbn [rstep].
    - destruct (check_holds lim P c (has_name n) H) as (c' & r & E & H' & _). unfold check_cache_name. rewrite E. exists c'. split; [reflexivity | eapply holds_weak; [|exact H']; tauto].
    - destruct (check_holds lim P c (has_idx i) H) as (c' & r & E & H' & _). unfold check_cache_index. rewrite E. exists c'. split; [reflexivity | eapply holds_weak; [|exact H']; tauto].
    - apply add_holds; [eapply holds_weak; [|exact H]; tauto | tauto].
    - destruct (del_holds lim P c i H) as (c' & e & E & H'). rewrite E. exists c'. split; [reflexivity | eapply holds_weak; [|exact H']; tauto]. }
  cbn [rexec]. rewrite E1. cbn [rbind]. destruct (IH c1 _ H1) as (c' & E2 & H2). exists c'. split; [exact E2|].
  eapply holds_weak; [|exact H2]. intros t [[A|A]|A]; [tauto | right; left; congruence | right; right; exact A].
Qed.
Lemma init_holds lim P : holds lim P (cache_init lim).
Proof. exists []. split; [apply ring_init|]. split; [constructor|]. split; [change (zlen (@nil (Z * ctag))) with 0; lia | reflexivity]. Qed.

(** Whatever is done with the cache, no freed or unallocated node is touched and every search ends. *)
Theorem C50_safe : forall lim os, exists c, rexec (cache_init lim) os = Done c.
Proof. intros lim os. destruct (rexec_holds lim os _ (fun _ => False) (init_holds lim _)) as (c & E & _). eauto. Qed.
(** A lookup by name returns a tag that was put in and has that name. *)
Theorem C50_by_name : forall lim os c n c' t,
  rexec (cache_init lim) os = Done c -> check_cache_name c n = Done (c', Some t) -> ct_name t = n /\ In (RAdd t) os.
Proof.
  intros lim os c n c' t E H. destruct (rexec_holds lim os _ (fun _ => False) (init_holds lim _)) as (c0 & E0 & I0). assert (c0 = c) by congruence. subst c0.
  destruct (check_holds lim _ c (has_name n) I0) as (c1 & r & E1 & _ & K). unfold check_cache_name in H. rewrite H in E1. injection E1 as _ <-.
  destruct (K t eq_refl) as [A B]. split; [apply name_eqb_eq; exact A | tauto].
Qed.
(** A lookup by index returns a tag that was put in and has that index. *)
Theorem C50_by_index : forall lim os c i c' t,
  rexec (cache_init lim) os = Done c -> check_cache_index c i = Done (c', Some t) -> ct_idx t = i /\ In (RAdd t) os.
Proof.
  intros lim os c i c' t E H. destruct (rexec_holds lim os _ (fun _ => False) (init_holds lim _)) as (c0 & E0 & I0). assert (c0 = c) by congruence. subst c0.
  destruct (check_holds lim _ c (has_idx i) I0) as (c1 & r & E1 & _ & K). unfold check_cache_index in H. rewrite H in E1. injection E1 as _ <-.
  destruct (K t eq_refl) as [A B]. unfold has_idx in A. split; [lia | tauto].
Qed.
(** An entry just put in is found, unless another one with that name (index) is found instead. *)
Theorem C50_added_found : forall lim os t c,
  rexec (cache_init lim) (os ++ [RAdd t]) = Done c ->
  (exists c' u, check_cache_name c (ct_name t) = Done (c', Some u)) /\ (exists c' u, check_cache_index c (ct_idx t) = Done (c', Some u)).
Proof.
  intros lim os t c H. assert (exists c0, rexec (cache_init lim) os = Done c0 /\ cache_tag_add c0 t = Done c) as (c0 & E0 & Ea).
  { revert H. generalize (cache_init lim). induction os as [|o os IH]; intros c1 H; cbn [app rexec] in *.
    - destruct (rstep c1 (RAdd t)) as [c2|] eqn:S2; [|discriminate]. cbn [rbind] in H. injection H as <-. exists c1. split; [reflexivity | exact S2].
    - destruct (rstep c1 o); [|discriminate]. cbn [rbind] in *. apply IH. exact H. }
  destruct (rexec_holds lim os _ (fun _ => False) (init_holds lim _)) as (c1 & E1 & (l & R & _)). assert (c1 = c0) by congruence. subst c1.
  destruct (cache_add_spec c0 l t R) as (c' & l' & E & R' & M & _). assert (c' = c) by congruence. subst c'.
  assert (I : In t (map snd l')).
  { rewrite M. unfold added. destruct (map snd l); [left; reflexivity|]. destruct (_ <? _); apply in_or_app; right; left; reflexivity. }
  apply in_map_iff in I as ([a t0] & T0 & I). cbn [snd] in T0. subst t0.
  split; [unfold check_cache_name | unfold check_cache_index].
  - destruct (check_cache_spec c l' (has_name (ct_name t)) R') as [(F & _) | (l1 & a1 & u & l2 & c2 & _ & _ & _ & E2 & _)]; [|eauto].
    rewrite Forall_forall in F. specialize (F _ I). cbn [snd] in F. unfold has_name in F. rewrite name_eqb_refl in F. discriminate.
  - destruct (check_cache_spec c l' (has_idx (ct_idx t)) R') as [(F & _) | (l1 & a1 & u & l2 & c2 & _ & _ & _ & E2 & _)]; [|eauto].
    rewrite Forall_forall in F. specialize (F _ I). cbn [snd] in F. unfold has_idx in F. lia.
Qed.
(** There are never more indices with an entry than the limit (one, if the limit is below one). *)
Theorem C50_limit_partial : forall lim os c is, rexec (cache_init lim) os = Done c -> NoDup is ->
  (forall i, In i is -> exists c' t, check_cache_index c i = Done (c', Some t)) -> zlen is <= Z.max 1 lim.
Proof.
  intros lim os c is E ND H. destruct (rexec_holds lim os _ (fun _ => False) (init_holds lim _)) as (c0 & E0 & (l & R & _ & Z0 & _)). assert (c0 = c) by congruence. subst c0.
  assert (I : incl is (map (fun x => ct_idx (snd x)) l)).
  { intros i Hi. destruct (H i Hi) as (c' & t & Hc). unfold check_cache_index in Hc.
    destruct (check_cache_spec c l (has_idx i) R) as [(_ & E2) | (l1 & a & u & l2 & c2 & -> & _ & P & E2 & _)]; [congruence|].
    apply in_map_iff. exists (a, u). split; [unfold has_idx in P; cbn; lia | apply in_or_app; right; left; reflexivity]. }
  assert (L := NoDup_incl_length ND I). rewrite map_length in L. unfold zlen in *. lia.
Qed.
(** the limit the library sets is 0 (libinit.c:59, never changed), and then one entry is kept *)
Theorem C50_limit_zero_refuted : exists t c c', rexec (cache_init 0) [RAdd t] = Done c /\ check_cache_index c (ct_idx t) = Done (c', Some t).
Proof. exists (mk_ct (str "foo") 13 T_DINT 10 0). eexists. eexists. split; [reflexivity|]. vm_compute. reflexivity. Qed.
(** two entries for one index: the purge removes one of them.  (The library does not make two, see C50_purged.) *)
Theorem C50_duplicate_refuted : exists t c c' e c'', rexec (cache_init 4) [RAdd t; RAdd t] = Done c /\ cache_tag_del c (ct_idx t) = Done (c', e) /\
  check_cache_index c' (ct_idx t) = Done (c'', Some t).
Proof.
  exists (mk_ct (str "foo") 13 T_DINT 10 0). eexists. eexists. eexists. eexists. split; [vm_compute; reflexivity|]. split; [vm_compute; reflexivity|]. vm_compute. reflexivity.
Qed.

(** ** the library's calls *)
Fixpoint lexec (c : cache) (os : list cop) : run (cache * list (option ctag)) :=
  match os with [] => Done (c, []) | o :: r => x <-- cstep c o ;; y <-- lexec (fst x) r ;; Done (fst y, snd x :: snd y) end.
(** the tag that comes from the server in a call *)
Definition fetched (o : cop) : option ctag := match o with CByName _ a | CByIndex _ a => a | CAdd t => Some t | CDeleted _ => None end.
(** the server's answers are about what was asked, and an index belongs to one name for ever ([names]; this is C02) *)
Definition proper (names : Z -> name) (o : cop) : Prop :=
  match o with
  | CByName n (Some t) => ct_name t = n /\ names (ct_idx t) = n
  | CByIndex i (Some t) => ct_idx t = i /\ names i = ct_name t
  | CAdd t => names (ct_idx t) = ct_name t
  | _ => True
  end.
Definition uniq (names : Z -> name) (P : ctag -> Prop) (c : cache) : Prop :=
  exists l, ring c l /\ Forall P (map snd l) /\ NoDup (map ct_idx (map snd l)) /\ Forall (fun t => names (ct_idx t) = ct_name t) (map snd l).
Lemma nodup_sub (l : list ctag) t lim : NoDup (map ct_idx l) -> ~ In (ct_idx t) (map ct_idx l) -> NoDup (map ct_idx (added lim l t)).
Proof.
  intros ND NI. unfold added. destruct l as [|x r]; [constructor; [intros [] | constructor]|]. set (l := x :: r) in *. clearbody l.
  destruct (zlen l <? lim); rewrite map_app; apply nodup_rot; cbn [map app].
  - constructor; assumption.
  - constructor; [intros H; apply NI; apply in_map_iff in H as (y & A & B); apply in_map_iff; exists y; split; [exact A | apply in_removelast; exact B]|].
    clear NI. induction l as [|a [|b l] IH]; [constructor|constructor|]. cbn [removelast map] in *. inversion ND; subst. constructor; [|apply IH; assumption].
    intros H. apply H1. apply in_map_iff in H as (y & A & B). change (In (ct_idx a) (map ct_idx (b :: l))). apply in_map_iff. exists y. split; [exact A | apply in_removelast; exact B].
Qed.
Lemma added_forall (P : ctag -> Prop) lim l t : Forall P l -> P t -> Forall P (added lim l t).
Proof.
  intros F Pt. unfold added. destruct l as [|x r]; [constructor; [exact Pt | constructor]|]. set (l := x :: r) in *. clearbody l.
  destruct (zlen l <? lim); apply Forall_app; split; try (constructor; [exact Pt | constructor]); [exact F|].
  rewrite Forall_forall in *. intros y Hy. apply F. apply in_removelast. exact Hy.
Qed.
Lemma uniq_add names P c l t : ring c l -> Forall P (map snd l) -> NoDup (map ct_idx (map snd l)) -> Forall (fun t => names (ct_idx t) = ct_name t) (map snd l) ->
  Forall (fun x => ct_idx (snd x) <> ct_idx t) l -> P t -> names (ct_idx t) = ct_name t -> exists c', cache_tag_add c t = Done c' /\ uniq names P c'.
Proof.
  intros R F ND FN NI Pt Nt. destruct (cache_add_spec c l t R) as (c' & l' & E & R' & M & _). exists c'. split; [exact E|]. exists l'. split; [exact R'|]. rewrite M.
  split; [apply added_forall; assumption|]. split; [|apply added_forall; assumption]. apply nodup_sub; [exact ND|].
  intros H. apply in_map_iff in H as (y & A & B). apply in_map_iff in B as (z & B & C). rewrite Forall_forall in NI. apply (NI z C). congruence.
Qed.
Lemma moved_nodup l1 x l2 : NoDup (map ct_idx (map snd (l1 ++ x :: l2))) -> NoDup (map ct_idx (map snd (moved l1 x l2))).
Proof. intros H. eapply Permutation_NoDup; [|exact H]. apply Permutation_map, Permutation_map, moved_perm. Qed.
Lemma uniq_lookup names (P : ctag -> Prop) c p ans : uniq names P c -> 
  (forall t, ans = Some t -> P t /\ names (ct_idx t) = ct_name t /\ forall u, names (ct_idx u) = ct_name u -> p u = false -> ct_idx u <> ct_idx t) ->
  exists c' r, (x <-- check_cache c p ;; match x with
    | (c, Some t) => Done (c, Some t)
    | (c, None) => match ans with None => Done (c, None) | Some t => c <-- cache_tag_add c t ;; Done (c, Some t) end end) = Done (c', r) /\ uniq names P c' /\
    (forall t, r = Some t -> P t /\ (p t = true \/ ans = Some t)).
Proof.
  intros (l & R & F & ND & FN) HA. destruct (check_cache_spec c l p R) as [(Fp & E) | (l1 & a & t & l2 & c' & -> & _ & Pt & E & R' & L')]; rewrite E; cbn [rbind].
  - destruct ans as [t|].
    + destruct (HA t eq_refl) as (A1 & A2 & A3). destruct (uniq_add names P c l t R F ND FN) as (c' & Ec & U); try assumption.
      { rewrite Forall_forall in *. intros x Hx. apply A3; [apply FN, in_map; exact Hx | apply Fp; exact Hx]. }
      rewrite Ec. cbn [rbind]. exists c', (Some t). split; [reflexivity|]. split; [exact U|]. intros u [= <-]. tauto.
    + exists c, None. split; [reflexivity|]. split; [exists l; auto | discriminate].
  - exists c', (Some t). split; [reflexivity|]. split.
    + exists (moved l1 (a, t) l2). split; [exact R'|]. split; [apply moved_forall; exact F|]. split; [apply moved_nodup; exact ND | apply moved_forall; exact FN].
    + intros u [= <-]. rewrite Forall_forall in F. split; [|tauto]. apply F. rewrite map_app. apply in_or_app. right. left. reflexivity.
Qed.
Lemma uniq_del names (P : ctag -> Prop) c i : uniq names P c -> exists c' e l, cache_tag_del c i = Done (c', e) /\ ring c' l /\ Forall P (map snd l) /\
  NoDup (map ct_idx (map snd l)) /\ Forall (fun t => names (ct_idx t) = ct_name t) (map snd l) /\ Forall (fun x => ct_idx (snd x) <> i) l.
Proof.
  intros (l & R & F & ND & FN). destruct (cache_del_spec c l i R) as [(Fi & E) | (l1 & a & t & l2 & c' & -> & F1 & It & E & R' & L')].
  - exists c, E_NOTFOUND, l. auto 6.
  - exists c', 0, (l1 ++ l2). split; [exact E|]. split; [exact R'|]. rewrite !map_app in *. cbn [map snd] in *.
    apply Forall_app in F as [G1 G2]. inversion G2; subst. apply Forall_app in FN as [K1 K2]. inversion K2; subst.
    split; [apply Forall_app; split; assumption|]. split; [apply (NoDup_remove_1 _ _ _ ND)|]. split; [apply Forall_app; split; assumption|].
    apply Forall_app. split; [exact F1|]. apply NoDup_remove_2 in ND. apply Forall_forall. intros x Hx G. apply ND. apply in_or_app. right. apply in_map_iff. exists (snd x). split; [exact G | apply in_map; exact Hx].
Qed.
Lemma cstep_uniq names (P : ctag -> Prop) c o : uniq names P c -> proper names o -> (forall t, fetched o = Some t -> P t) ->
  exists c' r, cstep c o = Done (c', r) /\ uniq names P c' /\ (forall t, r = Some t -> P t) /\
    (forall n a t, o = CByName n a -> r = Some t -> ct_name t = n) /\ (forall i a t, o = CByIndex i a -> r = Some t -> ct_idx t = i).
Proof.
  intros U Pr HP. destruct o as [n ans|i ans|t|i]; cbn [cstep].
  - destruct (uniq_lookup names P c (has_name n) ans U) as (c' & r & E & U' & K).
    { intros t ->. destruct Pr as [A B]. split; [apply HP; reflexivity|]. split; [congruence|]. intros u Hu Hp G. unfold has_name in Hp.
      assert (ct_name u = n) by congruence. rewrite H, name_eqb_refl in Hp. discriminate. }
    exists c', r. split; [exact E|]. split; [exact U'|]. split; [intros t Ht; apply K; exact Ht|]. split; [|discriminate].
    intros n0 a0 t [= <- <-] Ht. destruct (K t Ht) as (_ & [G|G]); [apply name_eqb_eq; exact G|]. subst ans. apply Pr.
  - destruct (uniq_lookup names P c (has_idx i) ans U) as (c' & r & E & U' & K).
    { intros t ->. destruct Pr as [A B]. split; [apply HP; reflexivity|]. split; [congruence|]. intros u Hu Hp G. unfold has_idx in Hp. lia. }
    exists c', r. split; [exact E|]. split; [exact U'|]. split; [intros t Ht; apply K; exact Ht|]. split; [discriminate|].
    intros n0 a0 t [= <- <-] Ht. destruct (K t Ht) as (_ & [G|G]); [unfold has_idx in G; lia|]. subst ans. apply Pr.
  - destruct (uniq_del names P c (ct_idx t) U) as (c1 & e & l & E & R & F & ND & FN & NI). rewrite E. cbn [rbind fst].
    destruct (uniq_add names P c1 l t R F ND FN NI (HP t eq_refl) Pr) as (c2 & E2 & U2). rewrite E2. cbn [rbind]. exists c2, (Some t).
    split; [reflexivity|]. split; [exact U2|]. split; [intros u [= <-]; apply HP; reflexivity | split; discriminate].
  - destruct (uniq_del names P c i U) as (c1 & e & l & E & R & F & ND & FN & NI). rewrite E. cbn [rbind fst]. exists c1, None.
    split; [reflexivity|]. split; [exists l; auto|]. split; [discriminate | split; discriminate].
Qed.
Lemma uniq_weak names (P Q : ctag -> Prop) c : (forall t, P t -> Q t) -> uniq names P c -> uniq names Q c.
Proof. intros W (l & R & F & K). exists l. split; [exact R|]. split; [eapply Forall_impl; [exact W | exact F] | exact K]. Qed.
Lemma lexec_uniq names os : forall (P : ctag -> Prop) c, uniq names P c -> Forall (proper names) os -> (forall o t, In o os -> fetched o = Some t -> P t) ->
  exists c' rs, lexec c os = Done (c', rs) /\ uniq names P c' /\ (forall t, In (Some t) rs -> P t).
Proof.
  induction os as [|o os IH]; intros P c U Pr HP; [exists c, []; split; [reflexivity|]; split; [exact U | intros t []]|].
  inversion Pr as [|? ? Pr1 Pr2]; subst. destruct (cstep_uniq names P c o U Pr1 (fun t => HP o t (or_introl eq_refl))) as (c1 & r & E1 & U1 & K1 & _).
  destruct (IH P c1 U1 Pr2 (fun o' t Ho => HP o' t (or_intror Ho))) as (c2 & rs & E2 & U2 & K2).
  exists c2, (r :: rs). cbn [lexec]. rewrite E1. cbn [rbind fst snd]. rewrite E2. cbn [rbind fst snd]. split; [reflexivity|]. split; [exact U2|].
  intros t [Ht|Ht]; [apply K1; exact Ht | apply K2; exact Ht].
Qed.
Lemma init_uniq names P lim : uniq names P (cache_init lim).
Proof. exists []. split; [apply ring_init|]. repeat constructor. Qed.

(** After the server has said that tag [i] is deleted, no call returns an entry for index [i] until one comes from the server again. *)
Theorem C50_purged : forall names lim before i later c r c1 c2 rs,
  Forall (proper names) before -> Forall (proper names) later ->
  lexec (cache_init lim) before = Done (c, r) -> cstep c (CDeleted i) = Done (c1, None) ->
  (forall o t, In o later -> fetched o = Some t -> ct_idx t <> i) ->
  lexec c1 later = Done (c2, rs) -> forall t, In (Some t) rs -> ct_idx t <> i.
Proof.
  intros names lim before i later c r c1 c2 rs P1 P2 E1 E2 HN E3 t Ht.
  destruct (lexec_uniq names before (fun _ => True) _ (init_uniq names _ lim) P1 (fun _ _ _ _ => Logic.I)) as (c0 & r0 & E0 & U0 & _). assert (c0 = c) by congruence. subst c0.
  destruct (uniq_del names _ c i U0) as (c1' & e & l & Ed & R & F & ND & FN & NI). cbn [cstep] in E2. rewrite Ed in E2. cbn [rbind fst] in E2. injection E2 as <-.
  assert (U1 : uniq names (fun t => ct_idx t <> i) c1').
  { exists l. split; [exact R|]. split; [|split; assumption]. rewrite Forall_forall in *. intros y Hy. apply in_map_iff in Hy as (x & <- & Hx). apply NI. exact Hx. }
  destruct (lexec_uniq names later (fun t => ct_idx t <> i) c1' U1 P2 HN) as (c3 & rs3 & E4 & _ & K). rewrite E3 in E4. injection E4 as _ <-. apply K. exact Ht.
Qed.
(** A tag returned for a name has that name, and it came from the server in this or an earlier call. *)
Theorem C50_answer : forall names lim before n ans c r c' t,
  Forall (proper names) before -> proper names (CByName n ans) -> lexec (cache_init lim) before = Done (c, r) -> cstep c (CByName n ans) = Done (c', Some t) ->
  ct_name t = n /\ exists o, In o (before ++ [CByName n ans]) /\ fetched o = Some t.
Proof.
  intros names lim before n ans c r c' t P1 P2 E1 E2.
  destruct (lexec_uniq names before (fun t => exists o, In o (before ++ [CByName n ans]) /\ fetched o = Some t) _ (init_uniq names _ lim) P1) as (c0 & r0 & E0 & U0 & _).
  { intros o u Ho Hu. exists o. split; [apply in_or_app; left; exact Ho | exact Hu]. }
  assert (c0 = c) by congruence. subst c0.
  destruct (cstep_uniq names _ c (CByName n ans) U0 P2) as (c2 & r2 & E3 & _ & K1 & K2 & _).
  { intros u Hu. exists (CByName n ans). split; [apply in_or_app; right; left; reflexivity | exact Hu]. }
  rewrite E2 in E3. injection E3 as _ <-. split; [apply (K2 n ans t eq_refl eq_refl) | apply K1; reflexivity].
Qed.

(** ** an entry that was never true *)
(** Adding a tag that exists with more elements succeeds and changes nothing; the library then caches the number of
    elements of the call, not the one of the tag. *)
Theorem C50_count_refuted : exists s' t c c' u,
  step env0 demo (OpTagAdd 5 (str "foo") T_DINT 3 0) = Done s' /\ answered demo s' (OResp 5 MSG_TAG_ADD (le_bytes 4 13)) /\
  named s' 13 (str "foo") t /\ t_count t = 10 /\
  cstep (cache_init 8) (CAdd (mk_ct (str "foo") 13 T_DINT 3 0)) = Done (c, Some (mk_ct (str "foo") 13 T_DINT 3 0)) /\
  cstep c (CByName (str "foo") (Some (mk_ct (str "foo") 13 T_DINT 10 0))) = Done (c', Some u) /\ ct_count u = 3.
Proof.
  eexists. eexists. eexists. eexists. eexists. split; [vm_compute; reflexivity|]. split; [exists []; split; [vm_compute; reflexivity | constructor]|].
  split; [split; vm_compute; reflexivity|]. split; [vm_compute; reflexivity|]. split; [vm_compute; reflexivity|]. split; [vm_compute; reflexivity|]. reflexivity.
Qed.

(** ** the hypotheses are met *)
Definition ctA := mk_ct (str "a") 20 T_INT 1 0.
Definition ctB := mk_ct (str "b") 21 T_INT 1 0.
Definition ctC := mk_ct (str "c") 22 T_INT 1 0.
Definition ctD := mk_ct (str "d") 23 T_INT 1 0.
Example C50_ex : exists c c' c'', rexec (cache_init 3) [RAdd ctA; RAdd ctB; RAdd ctC; RName (str "c"); RIndex 22; RAdd ctD; RDel 20; RName (str "c")] = Done c /\
  check_cache_name c (str "d") = Done (c', Some ctD) /\ check_cache_index c' 22 = Done (c'', Some ctC) /\
  (exists x, check_cache_index c'' 21 = Done (x, None)) /\ (exists x, check_cache_index c'' 20 = Done (x, None)).
Proof. eexists. eexists. eexists. split; [vm_compute; reflexivity|]. split; [vm_compute; reflexivity|]. split; [vm_compute; reflexivity|]. split; eexists; vm_compute; reflexivity. Qed.
Definition c50_names (i : Z) : name := if i =? 20 then str "a" else if i =? 21 then str "b" else if i =? 22 then str "c" else str "d".
Example C50_purged_ex : let before := [CByName (str "a") (Some ctA); CByIndex 21 (Some ctB); CAdd ctC] in
  let later := [CByName (str "b") (Some ctB); CByName (str "a") None; CByIndex 20 None; CByIndex 22 None] in
  Forall (proper c50_names) before /\ Forall (proper c50_names) later /\
  exists c r c1 c2, lexec (cache_init 3) before = Done (c, r) /\ cstep c (CDeleted 20) = Done (c1, None) /\
    (forall o t, In o later -> fetched o = Some t -> ct_idx t <> 20) /\ lexec c1 later = Done (c2, [Some ctB; None; None; Some ctC]).
Proof.
  cbv zeta. split; [repeat constructor|]. split; [repeat constructor|]. eexists. eexists. eexists. eexists.
  split; [vm_compute; reflexivity|]. split; [vm_compute; reflexivity|]. split; [|vm_compute; reflexivity].
  intros o t Ho Ht. cbn [In] in Ho. decompose [or] Ho; subst; cbn in Ht; try discriminate; try (injection Ht as <-; discriminate); contradiction.
Qed.
