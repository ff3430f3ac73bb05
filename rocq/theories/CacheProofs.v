(** * CacheProofs: the linked structure of the tag cache stands for a list *)
From Coq Require Import Permutation.
From Verif Require Import Base Const Lib SearchProofs Cache.

(** nodes with their addresses *)
Definition nodes := list (Z * ctag).
Definition hd_or (n : Z) (l : nodes) : Z := match l with [] => n | (a, _) :: _ => a end.
Fixpoint last_or (p : Z) (l : nodes) : Z := match l with [] => p | (a, _) :: r => last_or a r end.
(** [l] is linked in the heap, from a node [p] before to a node [n] after it *)
Fixpoint dls (h : heap) (p : Z) (l : nodes) (n : Z) : Prop :=
  match l with [] => True | (a, t) :: r => h a = Some (mk_cn t (hd_or n r) p) /\ dls h a r n end.
Definition cyc (h : heap) (l : nodes) : Prop := dls h (last_or 0 l) l (hd_or 0 l).

Lemma hd_or_app n l1 l2 : hd_or n (l1 ++ l2) = hd_or (hd_or n l2) l1.
Proof. destruct l1 as [|[a t] l1]; reflexivity. Qed.
Lemma last_or_app p l1 l2 : last_or p (l1 ++ l2) = last_or (last_or p l1) l2.
Proof. revert p; induction l1 as [|[a t] l1 IH]; intros p; [reflexivity | apply IH]. Qed.
Lemma dls_app h p l1 l2 n : dls h p (l1 ++ l2) n <-> dls h p l1 (hd_or n l2) /\ dls h (last_or p l1) l2 n.
Proof.
  revert p; induction l1 as [|[a t] l1 IH]; intros p; cbn [dls app last_or]; [tauto|]. rewrite IH, hd_or_app. tauto.
Qed.
Lemma cyc_step h x l : cyc h (x :: l) <-> cyc h (l ++ [x]).
Proof.
  unfold cyc. rewrite dls_app, last_or_app, hd_or_app. destruct x as [a t]. cbn [last_or hd_or dls]. destruct l as [|[b u] l]; cbn [last_or hd_or dls]; tauto.
Qed.
Lemma cyc_rot h l1 l2 : cyc h (l1 ++ l2) <-> cyc h (l2 ++ l1).
Proof.
  revert l2; induction l1 as [|x l1 IH]; intros l2; [rewrite app_nil_r; reflexivity|].
  cbn [app]. rewrite cyc_step, <- app_assoc, IH, <- app_assoc. reflexivity.
Qed.
Lemma dls_frame h h' p l n : (forall a, In a (map fst l) -> h' a = h a) -> dls h p l n -> dls h' p l n.
Proof.
  revert p; induction l as [|[a t] l IH]; intros p F D; [exact Logic.I|]. destruct D as [D1 D2]. split; [rewrite F by (left; reflexivity); exact D1|].
  apply IH; [intros b Hb; apply F; right; exact Hb | exact D2].
Qed.

(** the cache stands for the list [l] *)
Record ring (c : cache) (l : nodes) : Prop := {
  rg_cyc : cyc (ca_heap c) l;
  rg_head : ca_head c = match l with [] => None | (a, _) :: _ => Some a end;
  rg_nodup : NoDup (map fst l);
  rg_addr : Forall (fun a => 0 <= a < ca_new c) (map fst l);
  rg_count : ca_count c = zlen l;
  rg_new : 0 <= ca_new c }.

Lemma ring_init lim : ring (cache_init lim) [].
Proof. split; cbn; try constructor; lia. Qed.

(** ** searching *)
Lemma search_spec h p head : forall l fuel q n,
  dls h q l n -> n = head -> (length l < fuel)%nat -> ~ In head (map fst l) ->
  (search fuel h p head (hd_or n l) = Done None /\ Forall (fun x => p (snd x) = false) l) \/
  (exists l1 a t l2, l = l1 ++ (a, t) :: l2 /\ Forall (fun x => p (snd x) = false) l1 /\ p t = true /\ search fuel h p head (hd_or n l) = Done (Some a)).
Proof.
  induction l as [|[a t] l IH]; intros fuel q n D -> Hf Hn; destruct fuel as [|fuel]; cbn [length] in Hf; try lia; cbn [search hd_or].
  - rewrite Z.eqb_refl. left. split; [reflexivity | constructor].
  - cbn [map fst In] in Hn. replace (a =? head) with false by (symmetry; apply Z.eqb_neq; tauto). destruct D as [D1 D2].
    unfold deref. rewrite D1. cbn [rbind cn_tag cn_next]. destruct (p t) eqn:P.
    + right. exists [], a, t, l. repeat split; [constructor | exact P].
    + destruct (IH fuel a head D2 eq_refl ltac:(lia) ltac:(tauto)) as [(E & F) | (l1 & b & u & l2 & -> & F & P2 & E)].
      * left. split; [exact E | constructor; assumption].
      * right. exists ((a, t) :: l1), b, u, l2. split; [reflexivity|]. split; [constructor; assumption|]. split; assumption.
Qed.
Lemma nodup_bound (l : list Z) n : 0 <= n -> NoDup l -> Forall (fun a => 0 <= a < n) l -> (length l <= Z.to_nat n)%nat.
Proof.
  intros Hn ND F. assert (I : incl l (map Z.of_nat (seq 0 (Z.to_nat n)))).
  { intros a Ha. rewrite Forall_forall in F. specialize (F a Ha). apply in_map_iff. exists (Z.to_nat a). split; [lia|]. apply in_seq. lia. }
  assert (L := NoDup_incl_length ND I). rewrite map_length, seq_length in L. exact L.
Qed.
Lemma find_spec c l p : ring c l ->
  (find c p = Done None /\ Forall (fun x => p (snd x) = false) l) \/
  (exists l1 a t l2, l = l1 ++ (a, t) :: l2 /\ Forall (fun x => p (snd x) = false) l1 /\ p t = true /\ find c p = Done (Some a)).
Proof.
  intros [C H ND A N Q]. unfold find. rewrite H. destruct l as [|[a t] l]; [left; split; [reflexivity | constructor]|].
  destruct C as [C1 C2]. unfold deref. rewrite C1. cbn [rbind cn_tag cn_next]. destruct (p t) eqn:P.
  - right. exists [], a, t, l. repeat split; [constructor | exact P].
  - assert (L := nodup_bound _ _ Q ND A). cbn [map length] in L. rewrite map_length in L. cbn [map fst] in ND. inversion ND; subst.
    cbn [hd_or] in C2 |- *.
    destruct (search_spec (ca_heap c) p a l (S (Z.to_nat (ca_new c))) a a C2 eq_refl ltac:(lia) ltac:(assumption)) as [(E & F) | (l1 & b & u & l2 & -> & F & P2 & E)].
    + left. split; [exact E | constructor; assumption].
    + right. exists ((a, t) :: l1), b, u, l2. split; [reflexivity|]. split; [constructor; assumption|]. split; assumption.
Qed.

(** ** heap updates *)
Lemma hupd_eq h a n : hupd h a n a = n.
Proof. unfold hupd. rewrite Z.eqb_refl. reflexivity. Qed.
Lemma hupd_ne h a n b : b <> a -> hupd h a n b = h b.
Proof. intros H. unfold hupd. replace (b =? a) with false by lia. reflexivity. Qed.
Ltac hsimp := repeat (rewrite hupd_eq || (rewrite hupd_ne by congruence)).
Lemma put_next_eq h a b n : h a = Some n -> put_next h a b = Done (hupd h a (Some (mk_cn (cn_tag n) b (cn_prev n)))).
Proof. intros H. unfold put_next, deref. rewrite H. reflexivity. Qed.
Lemma put_prev_eq h a b n : h a = Some n -> put_prev h a b = Done (hupd h a (Some (mk_cn (cn_tag n) (cn_next n) b))).
Proof. intros H. unfold put_prev, deref. rewrite H. reflexivity. Qed.
Lemma deref_eq h a n : h a = Some n -> deref h a = Done n.
Proof. intros H. unfold deref. rewrite H. reflexivity. Qed.

(** the pointer surgery of _cache_hit in a ring of at least three nodes, seen from the node before the swapped pair *)
Definition swap (h : heap) (this : Z) : run heap :=
  n <-- deref h this ;;
  let after := cn_prev n in
  an <-- deref h after ;;
  let before := cn_prev an in
  h <-- put_next h before this ;;
  h <-- put_prev h after this ;;
  tn <-- deref h this ;;
  h <-- put_next h after (cn_next tn) ;;
  tn <-- deref h this ;;
  h <-- put_prev h (cn_next tn) after ;;
  h <-- put_next h this after ;;
  put_prev h this before.
Lemma cyc3 h b tb p tp a ta r : cyc h ((b, tb) :: (p, tp) :: (a, ta) :: r) <->
  h b = Some (mk_cn tb p (last_or a r)) /\ h p = Some (mk_cn tp a b) /\ h a = Some (mk_cn ta (hd_or b r) p) /\ dls h a r b.
Proof. unfold cyc. cbn [dls last_or hd_or]. tauto. Qed.
Ltac dd := repeat match goal with H : NoDup (_ :: _) |- _ => inversion H; clear H; subst end; cbn [map fst In] in *.
Lemma swap_spec h b tb p tp a ta r : cyc h ((b, tb) :: (p, tp) :: (a, ta) :: r) -> NoDup (b :: p :: a :: map fst r) ->
  exists h', swap h a = Done h' /\ cyc h' ((b, tb) :: (a, ta) :: (p, tp) :: r) /\ forall x, ~ In x (b :: p :: a :: map fst r) -> h' x = h x.
Proof.
  intros C ND. apply cyc3 in C as (Hb & Hp & Ha & D).
  assert (Nbp : b <> p) by (intros ->; dd; tauto). assert (Nba : b <> a) by (intros ->; dd; tauto). assert (Npa : p <> a) by (intros ->; dd; tauto).
  unfold swap. rewrite (deref_eq _ _ _ Ha). cbn [rbind cn_prev]. cbv zeta. rewrite (deref_eq _ _ _ Hp). cbn [rbind cn_prev].
  rewrite (put_next_eq _ _ _ _ Hb). cbn [rbind cn_tag cn_prev].
  erewrite put_prev_eq by (hsimp; exact Hp). cbn [rbind cn_tag cn_next].
  erewrite deref_eq by (hsimp; exact Ha). cbn [rbind cn_next].
  erewrite put_next_eq by (hsimp; reflexivity). cbn [rbind cn_tag cn_prev].
  erewrite deref_eq by (hsimp; exact Ha). cbn [rbind cn_next].
  destruct r as [|[c tc] r].
  - cbn [hd_or last_or] in *. erewrite put_prev_eq by (hsimp; reflexivity). cbn [rbind cn_tag cn_next].
    erewrite put_next_eq by (hsimp; exact Ha). cbn [rbind cn_tag cn_prev].
    erewrite put_prev_eq by (hsimp; reflexivity). cbn [rbind cn_tag cn_next]. eexists. split; [reflexivity|]. split.
    + apply cyc3. cbn [hd_or last_or dls]. hsimp. repeat split.
    + intros x Hx. cbn [In map] in Hx. assert (x <> a) by (intros ->; tauto). assert (x <> p) by (intros ->; tauto). assert (x <> b) by (intros ->; tauto). hsimp. reflexivity.
  - cbn [hd_or last_or dls] in *. destruct D as [Hc D].
    assert (Ncb : c <> b) by (intros ->; dd; tauto). assert (Ncp : c <> p) by (intros ->; dd; tauto). assert (Nca : c <> a) by (intros ->; dd; tauto).
    erewrite put_prev_eq by (hsimp; exact Hc). cbn [rbind cn_tag cn_next].
    erewrite put_next_eq by (hsimp; exact Ha). cbn [rbind cn_tag cn_prev].
    erewrite put_prev_eq by (hsimp; reflexivity). cbn [rbind cn_tag cn_next]. eexists. split; [reflexivity|]. split.
    + apply cyc3. cbn [hd_or last_or dls]. hsimp. split; [reflexivity|]. split; [reflexivity|]. split; [reflexivity|]. split; [reflexivity|].
      eapply dls_frame; [|exact D]. intros x Hx. assert (x <> a) by (intros ->; dd; tauto). assert (x <> p) by (intros ->; dd; tauto).
      assert (x <> b) by (intros ->; dd; tauto). assert (x <> c) by (intros ->; dd; tauto). hsimp. reflexivity.
    + intros x Hx. cbn [In map fst] in Hx. assert (x <> a) by (intros ->; tauto). assert (x <> p) by (intros ->; tauto). assert (x <> b) by (intros ->; tauto).
      assert (x <> c) by (intros ->; tauto). hsimp. reflexivity.
Qed.
Lemma nodup_rot {A} (l1 l2 : list A) : NoDup (l1 ++ l2) -> NoDup (l2 ++ l1).
Proof. intros H. eapply Permutation_NoDup; [apply Permutation_app_comm | exact H]. Qed.
Lemma dls_lookup h p l1 a t l2 n : dls h p (l1 ++ (a, t) :: l2) n -> h a = Some (mk_cn t (hd_or n l2) (last_or p l1)).
Proof. intros D. apply dls_app in D as [_ [D _]]. exact D. Qed.

(** swapping a node with its predecessor in the list *)
Lemma swap_list h l0 p tp a ta l2 : cyc h (l0 ++ (p, tp) :: (a, ta) :: l2) -> NoDup (map fst (l0 ++ (p, tp) :: (a, ta) :: l2)) ->
  l0 ++ l2 <> [] -> exists h', swap h a = Done h' /\ cyc h' (l0 ++ (a, ta) :: (p, tp) :: l2).
Proof.
  intros C ND NE. destruct (list_eq_dec Z.eq_dec (map fst l0) []) as [E|E].
  - destruct l0; [|discriminate]. cbn [app] in *. destruct (exists_last NE) as (l' & [b tb] & ->).
    assert (C' : cyc h ((b, tb) :: (p, tp) :: (a, ta) :: l')) by (apply cyc_step; exact C).
    assert (ND' : NoDup (b :: p :: a :: map fst l')).
    { replace (map fst ((p, tp) :: (a, ta) :: l' ++ [(b, tb)])) with ((p :: a :: map fst l') ++ [b]) in ND by (cbn [map fst]; rewrite map_app; reflexivity).
      apply nodup_rot in ND. exact ND. }
    destruct (swap_spec _ _ _ _ _ _ _ _ C' ND') as (h' & S1 & C2 & _). exists h'. split; [exact S1|]. apply cyc_step in C2. exact C2.
  - assert (NE0 : l0 <> []) by (intros ->; apply E; reflexivity). destruct (exists_last NE0) as (l' & [b tb] & ->). clear NE NE0 E.
    rewrite <- app_assoc in C, ND. cbn [app] in C, ND. apply cyc_rot in C.
    assert (ND' : NoDup (b :: p :: a :: map fst (l2 ++ l'))).
    { rewrite map_app in ND. apply nodup_rot in ND. rewrite map_app. exact ND. }
    destruct (swap_spec _ _ _ _ _ _ _ (l2 ++ l') C ND') as (h' & S1 & C2 & _). exists h'. split; [exact S1|].
    rewrite <- app_assoc. cbn [app]. apply cyc_rot. exact C2.
Qed.

(** ** _cache_hit: the node moves one place towards the head *)
Definition moved (l1 : nodes) (x : Z * ctag) (l2 : nodes) : nodes :=
  match rev l1 with [] => x :: l2 | y :: r => rev r ++ x :: y :: l2 end.
Lemma moved_perm l1 x l2 : Permutation (l1 ++ x :: l2) (moved l1 x l2).
Proof.
  unfold moved. destruct (rev l1) as [|y r] eqn:R.
  - apply (f_equal (@rev _)) in R. rewrite rev_involutive in R. subst. apply Permutation_refl.
  - apply (f_equal (@rev _)) in R. rewrite rev_involutive in R. cbn [rev] in R. subst. rewrite <- app_assoc. cbn [app].
    apply Permutation_app_head. constructor.
Qed.
Lemma cache_hit_spec c l1 a t l2 : ring c (l1 ++ (a, t) :: l2) ->
  exists c', cache_hit c a = Done (c', t) /\ ring c' (moved l1 (a, t) l2) /\ ca_limit c' = ca_limit c.
Proof.
  intros R. assert (R' := R). destruct R' as [C H ND A N Q]. assert (Pm := moved_perm l1 (a, t) l2). unfold cache_hit. rewrite H.
  assert (Ha : ca_heap c a = Some (mk_cn t (hd_or (hd_or 0 (l1 ++ (a, t) :: l2)) l2) (last_or (last_or 0 (l1 ++ (a, t) :: l2)) l1))) by (apply (dls_lookup _ _ _ _ _ _ _ C)).
  destruct (rev l1) as [|[p tp] r] eqn:Rv.
  { assert (l1 = []) by (apply (f_equal (@rev _)) in Rv; rewrite rev_involutive in Rv; exact Rv). subst l1. cbn [app] in *.
    rewrite (deref_eq _ _ _ Ha). cbn [rbind cn_tag]. rewrite Z.eqb_refl. exists c. split; [reflexivity|]. split; [exact R | reflexivity]. }
  assert (El : l1 = rev r ++ [(p, tp)]) by (apply (f_equal (@rev _)) in Rv; rewrite rev_involutive in Rv; exact Rv).
  set (l0 := rev r) in *.
  assert (Em : moved l1 (a, t) l2 = l0 ++ (a, t) :: (p, tp) :: l2) by (unfold moved; rewrite Rv; reflexivity). rewrite Em in *. clear Rv.
  assert (Hl : l1 ++ (a, t) :: l2 = l0 ++ (p, tp) :: (a, t) :: l2) by (rewrite El, <- app_assoc; reflexivity). rewrite Hl in *. clear Hl El Em. clearbody l0.
  assert (ND2 : NoDup (map fst (l0 ++ (a, t) :: (p, tp) :: l2))) by (eapply Permutation_NoDup; [apply Permutation_map; exact Pm | exact ND]).
  assert (A2 : Forall (fun x => 0 <= x < ca_new c) (map fst (l0 ++ (a, t) :: (p, tp) :: l2))).
  { rewrite Forall_forall in *. intros x Hx. apply A. eapply Permutation_in; [apply Permutation_sym, Permutation_map; exact Pm | exact Hx]. }
  assert (N2 : ca_count c = zlen (l0 ++ (a, t) :: (p, tp) :: l2)) by (rewrite N; unfold zlen; rewrite (Permutation_length Pm); reflexivity).
  destruct l0 as [|[d td] l0].
  - cbn [app] in *. assert (Np : a <> p) by (intros ->; cbn [map fst] in ND; inversion ND; cbn [In] in *; tauto).
    destruct C as [Cp [Ca C]]. rewrite (deref_eq _ _ _ Ca). cbn [rbind]. replace (a =? p) with false by lia. rewrite (deref_eq _ _ _ Cp). cbn [rbind cn_tag cn_next hd_or].
    destruct (ca_count c =? 2) eqn:Q2.
    + assert (l2 = []) by (destruct l2; [reflexivity|]; rewrite N, !zlen_cons in Q2; assert (Z0 := zlen_nonneg l2); lia). subst l2.
      eexists. split; [reflexivity|]. split; [|reflexivity]. split; cbn [ca_heap ca_head ca_new ca_count]; try assumption; [|reflexivity].
      unfold cyc in *. cbn [dls hd_or last_or] in *. repeat split; assumption.
    + rewrite Z.eqb_refl. assert (NE : [] ++ l2 <> []) by (intros Z0; cbn in Z0; subst; rewrite N in Q2; discriminate).
      destruct (swap_list (ca_heap c) [] p tp a t l2) as (h' & S1 & C2); [split; [exact Cp | split; [exact Ca | exact C]] | exact ND | exact NE|].
      unfold swap in S1. rewrite (deref_eq _ _ _ Ca) in S1. cbn [rbind cn_prev] in S1. cbn [cn_prev]. cbv zeta in S1 |- *.
      repeat (apply rbind_done in S1 as (? & E0 & S1); rewrite E0; cbn [rbind]; clear E0). rewrite S1. cbn [rbind].
      eexists. split; [reflexivity|]. split; [|reflexivity]. split; cbn [ca_heap ca_head ca_new ca_count]; try assumption. reflexivity.
  - assert (Na : a <> d).
    { intros ->. cbn [app map fst] in ND. inversion ND as [|? ? ND1 _]; subst. apply ND1. rewrite map_app. apply in_or_app. right. right. left. reflexivity. }
    cbn [app]. rewrite (deref_eq _ _ _ Ha). cbn [rbind]. replace (a =? d) with false by lia.
    assert (exists n, ca_heap c d = Some n /\ cn_next n <> a) as (nd & Hd & Nn).
    { destruct C as [Cd _]. eexists. split; [exact Cd|]. cbn [cn_next]. destruct l0 as [|[e te] l0]; cbn [hd_or app].
      - intros ->. cbn [app map fst] in ND. inversion ND as [|? ? _ ND1]; subst. inversion ND1; subst. cbn [In] in *. tauto.
      - intros ->. cbn [app map fst] in ND. inversion ND as [|? ? _ ND1]; subst. inversion ND1 as [|? ? ND3 _]; subst. apply ND3. rewrite map_app. apply in_or_app. right. right. left. reflexivity. }
    rewrite (deref_eq _ _ _ Hd). cbn [rbind cn_tag]. replace (ca_count c =? 2) with false.
    2:{ rewrite N. symmetry. apply Z.eqb_neq. cbn [app]. rewrite zlen_cons, zlen_app, !zlen_cons. assert (Z0 := zlen_nonneg l0). assert (Z1 := zlen_nonneg l2). lia. }
    replace (a =? cn_next nd) with false by lia.
    destruct (swap_list (ca_heap c) ((d, td) :: l0) p tp a t l2) as (h' & S1 & C2); [exact C | exact ND | discriminate|].
    unfold swap in S1. rewrite (deref_eq _ _ _ Ha) in S1. cbn [rbind cn_prev] in S1. cbn [cn_prev]. cbv zeta in S1 |- *.
    repeat (apply rbind_done in S1 as (? & E0 & S1); rewrite E0; cbn [rbind]; clear E0). rewrite S1. cbn [rbind].
    eexists. split; [reflexivity|]. split; [|reflexivity]. split; cbn [ca_heap ca_head ca_new ca_count]; try assumption. reflexivity.
Qed.

(** ** cache_tag_add *)
Lemma last_or_last p l (x : Z * ctag) : last_or p (l ++ [x]) = fst x.
Proof. rewrite last_or_app. destruct x. reflexivity. Qed.
(** what the contents become *)
Definition added (limit : Z) (l : list ctag) (t : ctag) : list ctag :=
  match l with
  | [] => [t]
  | _ => if zlen l <? limit then l ++ [t] else removelast l ++ [t]
  end.
Lemma cache_add_spec c l t : ring c l ->
  exists c' l', cache_tag_add c t = Done c' /\ ring c' l' /\ map snd l' = added (ca_limit c) (map snd l) t /\ ca_limit c' = ca_limit c.
Proof.
  intros [C H ND A N Q]. unfold cache_tag_add. rewrite H. destruct l as [|[a ta] l].
  - eexists. exists [(ca_new c, t)]. split; [reflexivity|]. split; [|split; reflexivity].
    split; cbn [ca_heap ca_head ca_new ca_count]; [|reflexivity| | |rewrite N; reflexivity|lia].
    + split; [apply hupd_eq | exact Logic.I].
    + constructor; [intros []| constructor].
    + constructor; [cbn; lia | constructor].
  - assert (NE : (a, ta) :: l <> []) by discriminate. destruct (exists_last NE) as (l' & [z tz] & El).
    assert (Hh : ca_heap c a = Some (mk_cn ta (hd_or a l) z)).
    { destruct C as [C1 _]. rewrite C1. do 2 f_equal. rewrite El, last_or_last. reflexivity. }
    rewrite (deref_eq _ _ _ Hh). cbn [rbind cn_prev].
    assert (Hz : exists n, ca_heap c z = Some n /\ cn_tag n = tz).
    { rewrite El in C. eexists. split; [apply (dls_lookup _ _ _ _ _ _ _ C) | reflexivity]. }
    assert (Ed : added (ca_limit c) (map snd ((a, ta) :: l)) t = if zlen ((a, ta) :: l) <? ca_limit c then map snd ((a, ta) :: l) ++ [t] else removelast (map snd ((a, ta) :: l)) ++ [t]).
    { unfold added. cbn [map snd]. rewrite !zlen_cons, zlen_map. reflexivity. }
    rewrite Ed, N. destruct (zlen ((a, ta) :: l) <? ca_limit c) eqn:Lt.
    + assert (Fresh : forall x, In x (map fst ((a, ta) :: l)) -> x <> ca_new c) by (intros x Hx; rewrite Forall_forall in A; specialize (A x Hx); lia).
      assert (Fz : z <> ca_new c) by (apply Fresh; rewrite El, map_app; apply in_or_app; right; left; reflexivity).
      assert (Fa : a <> ca_new c) by (apply Fresh; left; reflexivity). destruct Hz as (nz & Hz & Tz).
      cbv zeta. erewrite put_next_eq by (hsimp; exact Hz). cbn [rbind].
      assert (Ha' : exists na, hupd (hupd (ca_heap c) (ca_new c) (Some (mk_cn t a z))) z (Some (mk_cn (cn_tag nz) (ca_new c) (cn_prev nz))) a = Some na).
      { destruct (Z.eq_dec a z) as [->|Naz]; hsimp; eauto. }
      destruct Ha' as (na & Ha'). erewrite put_prev_eq by exact Ha'. cbn [rbind]. eexists. exists (((a, ta) :: l) ++ [(ca_new c, t)]).
      split; [reflexivity|]. split; [|split; [rewrite map_app; reflexivity | reflexivity]].
      split; cbn [ca_heap ca_head ca_new ca_count]; [| reflexivity | | | rewrite zlen_app; reflexivity | lia].
      * (* seen from the last old node: z, new, a, ... *)
        destruct l' as [|y l'].
        -- cbn [app] in El. injection El as -> -> ->. cbn [app]. unfold cyc. cbn [dls last_or hd_or].
           destruct C as [C1 _]. rewrite C1 in Hz. injection Hz as <-. revert Ha'. hsimp. intros [= <-]. cbn [cn_tag cn_next]. repeat split.
        -- cbn [app] in El. injection El as <- ->. cbn [app]. rewrite <- app_assoc. cbn [app].
           assert (Naz : a <> z) by (intros ->; cbn [map fst] in ND; inversion ND as [|? ? ND1 _]; subst; apply ND1; rewrite map_app; apply in_or_app; right; left; reflexivity).
           revert Ha'. hsimp. rewrite Hh. intros [= <-]. cbn [cn_tag cn_next].
           assert (C' : cyc (ca_heap c) ((z, tz) :: (a, ta) :: l')) by (apply cyc_step; exact C).
           replace ((a, ta) :: l' ++ [(z, tz); (ca_new c, t)]) with (((a, ta) :: l') ++ [(z, tz); (ca_new c, t)]) by reflexivity.
           apply cyc_rot. cbn [app]. destruct C' as [C1 [C2 C3]]. cbn [last_or hd_or dls] in *. rewrite C1 in Hz. injection Hz as <-. cbn [cn_tag cn_prev].
           unfold cyc. cbn [dls last_or hd_or]. hsimp. split; [reflexivity|]. split; [reflexivity|]. split.
           { f_equal. f_equal. rewrite hd_or_app. reflexivity. }
           eapply dls_frame; [|exact C3]. intros x Hx.
           assert (x <> ca_new c) by (apply Fresh; right; rewrite map_app; apply in_or_app; left; exact Hx).
           assert (x <> a) by (intros ->; cbn [map fst] in ND; inversion ND as [|? ? ND1 _]; subst; apply ND1; rewrite map_app; apply in_or_app; left; exact Hx).
           assert (x <> z).
           { intros ->. cbn [map fst] in ND. inversion ND as [|? ? _ ND1]; subst. rewrite map_app in ND1. apply nodup_rot in ND1. cbn [map fst app] in ND1. inversion ND1; subst. tauto. }
           hsimp. reflexivity.
      * rewrite map_app. apply nodup_rot. cbn [map fst app]. constructor; [|exact ND]. intros Hi. apply (Fresh _ Hi). reflexivity.
      * rewrite map_app. apply Forall_app. split; [|constructor; [cbn [fst]; lia | constructor]].
        eapply Forall_impl; [|exact A]. intros x; cbn; lia.
    + destruct Hz as (nz & Hz & Tz). unfold put_tag. rewrite (deref_eq _ _ _ Hz). cbn [rbind]. eexists. exists (l' ++ [(z, t)]).
      split; [reflexivity|]. split; [|split; [|reflexivity]].
      2:{ rewrite El, !map_app. cbn [map snd]. rewrite removelast_last. reflexivity. }
      assert (Hd := f_equal (hd_or 0) El). cbn [hd_or] in Hd. rewrite El in *. clear El NE Ed Lt.
      split; cbn [ca_heap ca_head ca_new ca_count].
      * assert (C1 := C). apply cyc_rot in C1. cbn [app] in C1. apply cyc_rot. cbn [app]. destruct C1 as [C1 C2]. rewrite C1 in Hz. injection Hz as <-.
        cbn [cn_tag cn_next cn_prev]. cbn [last_or hd_or] in *. split; [hsimp; reflexivity|]. cbn [last_or hd_or].
        eapply dls_frame; [|exact C2]. intros x Hx. rewrite map_app in ND. apply nodup_rot in ND. cbn [map fst app] in ND. inversion ND; subst.
        assert (x <> z) by (intros ->; tauto). hsimp. reflexivity.
      * destruct l' as [|[y ty] l']; cbn [app hd_or] in *; congruence.
      * rewrite map_app in *. exact ND.
      * rewrite map_app in *. exact A.
      * rewrite !zlen_app. reflexivity.
      * exact Q.
Qed.

(** ** cache_tag_del *)
Lemma cyc2 h q tq a ta r : cyc h ((q, tq) :: (a, ta) :: r) <->
  h q = Some (mk_cn tq a (last_or a r)) /\ h a = Some (mk_cn ta (hd_or q r) q) /\ dls h a r q.
Proof. unfold cyc. cbn [dls last_or hd_or]. tauto. Qed.
Lemma cyc_cons h q tq r : cyc h ((q, tq) :: r) <-> h q = Some (mk_cn tq (hd_or q r) (last_or q r)) /\ dls h q r q.
Proof. unfold cyc. cbn [dls last_or hd_or]. tauto. Qed.
(** taking out the node after [q] *)
Definition unlink (h : heap) (this : Z) : run heap :=
  n <-- deref h this ;;
  h <-- put_prev h (cn_next n) (cn_prev n) ;;
  h <-- put_next h (cn_prev n) (cn_next n) ;;
  Done (hupd h this None).
Lemma unlink_spec h q tq a ta r : cyc h ((q, tq) :: (a, ta) :: r) -> NoDup (q :: a :: map fst r) ->
  exists h', unlink h a = Done h' /\ cyc h' ((q, tq) :: r).
Proof.
  intros C ND. apply cyc2 in C as (Hq & Ha & D). assert (Nqa : q <> a) by (intros ->; dd; tauto).
  unfold unlink. rewrite (deref_eq _ _ _ Ha). cbn [rbind cn_next cn_prev]. destruct r as [|[c tc] r]; cbn [hd_or last_or dls] in *.
  - rewrite (put_prev_eq _ _ _ _ Hq). cbn [rbind cn_tag cn_next]. erewrite put_next_eq by (hsimp; reflexivity). cbn [rbind cn_tag cn_prev].
    eexists. split; [reflexivity|]. apply cyc_cons. cbn [hd_or last_or dls]. hsimp. split; reflexivity.
  - destruct D as [Hc D]. assert (Ncq : c <> q) by (intros ->; dd; tauto). assert (Nca : c <> a) by (intros ->; dd; tauto).
    rewrite (put_prev_eq _ _ _ _ Hc). cbn [rbind cn_tag cn_next]. erewrite put_next_eq by (hsimp; exact Hq). cbn [rbind cn_tag cn_prev].
    eexists. split; [reflexivity|]. apply cyc_cons. cbn [hd_or last_or dls]. hsimp. split; [reflexivity|]. split; [reflexivity|].
    eapply dls_frame; [|exact D]. intros x Hx. assert (x <> a) by (intros ->; dd; tauto). assert (x <> q) by (intros ->; dd; tauto).
    assert (x <> c) by (intros ->; dd; tauto). hsimp. reflexivity.
Qed.
Lemma unlink_list h l1 a ta l2 : cyc h (l1 ++ (a, ta) :: l2) -> NoDup (map fst (l1 ++ (a, ta) :: l2)) -> l1 ++ l2 <> [] ->
  exists h', unlink h a = Done h' /\ cyc h' (l1 ++ l2).
Proof.
  intros C ND NE. assert (R : exists q tq r, Permutation (map fst (l1 ++ (a, ta) :: l2)) (q :: a :: map fst r) /\ cyc h ((q, tq) :: (a, ta) :: r) /\
    forall h', cyc h' ((q, tq) :: r) -> cyc h' (l1 ++ l2)).
  { destruct (rev l1) as [|[q tq] r] eqn:Rv.
    - assert (l1 = []) by (apply (f_equal (@rev _)) in Rv; rewrite rev_involutive in Rv; exact Rv). subst l1. cbn [app] in *.
      destruct (exists_last NE) as (l' & [q tq] & ->). exists q, tq, l'. split; [|split].
      + cbn [map fst]. rewrite map_app. cbn [map fst]. change (Permutation ((a :: map fst l') ++ [q]) ([q] ++ a :: map fst l')). apply Permutation_app_comm.
      + apply cyc_step. exact C.
      + intros h' H. apply cyc_step in H. exact H.
    - assert (El : l1 = rev r ++ [(q, tq)]) by (apply (f_equal (@rev _)) in Rv; rewrite rev_involutive in Rv; exact Rv). rewrite El in *. clear El Rv.
      set (l0 := rev r) in *. clearbody l0. rewrite <- app_assoc in *. cbn [app] in *. exists q, tq, (l2 ++ l0). split; [|split].
      + rewrite !map_app. cbn [map fst]. change (Permutation (map fst l0 ++ q :: a :: map fst l2) ((q :: a :: map fst l2) ++ map fst l0)). apply Permutation_app_comm.
      + apply cyc_rot in C. exact C.
      + intros h' H. rewrite <- app_assoc. cbn [app]. apply cyc_rot. exact H. }
  destruct R as (q & tq & r & P & C2 & K). assert (ND2 := Permutation_NoDup P ND).
  destruct (unlink_spec _ _ _ _ _ _ C2 ND2) as (h' & U & C3). exists h'. split; [exact U | apply K; exact C3].
Qed.
Lemma cache_del_spec c l i : ring c l ->
  (Forall (fun x => ct_idx (snd x) <> i) l /\ cache_tag_del c i = Done (c, E_NOTFOUND)) \/
  (exists l1 a t l2 c', l = l1 ++ (a, t) :: l2 /\ Forall (fun x => ct_idx (snd x) <> i) l1 /\ ct_idx t = i /\
     cache_tag_del c i = Done (c', 0) /\ ring c' (l1 ++ l2) /\ ca_limit c' = ca_limit c).
Proof.
  intros R. unfold cache_tag_del. destruct (find_spec c l (has_idx i) R) as [(E & F) | (l1 & a & t & l2 & -> & F & P & E)]; rewrite E; cbn [rbind].
  - left. split; [|reflexivity]. eapply Forall_impl; [|exact F]. unfold has_idx. intros x; cbn; lia.
  - right. exists l1, a, t, l2. destruct R as [C H ND A N Q].
    assert (Ha := dls_lookup _ _ _ _ _ _ _ C). rewrite (deref_eq _ _ _ Ha). cbn [rbind cn_next].
    assert (F' : Forall (fun x : Z * ctag => ct_idx (snd x) <> i) l1) by (eapply Forall_impl; [|exact F]; unfold has_idx; intros x; cbn; lia).
    assert (P' : ct_idx t = i) by (unfold has_idx in P; lia).
    assert (NDa : ~ In a (map fst (l1 ++ l2)) /\ NoDup (map fst (l1 ++ l2))).
    { rewrite map_app in ND. cbn [map fst] in ND. rewrite map_app. split; [apply (NoDup_remove_2 _ _ _ ND) | apply (NoDup_remove_1 _ _ _ ND)]. }
    assert (A2 : Forall (fun x => 0 <= x < ca_new c) (map fst (l1 ++ l2))).
    { rewrite map_app in *. cbn [map fst] in A. apply Forall_app in A as [A1 A3]. inversion A3; subst. apply Forall_app. split; assumption. }
    assert (N2 : ca_count c - 1 = zlen (l1 ++ l2)) by (rewrite N, !zlen_app, zlen_cons; lia).
    assert (Hn : (hd_or (hd_or 0 (l1 ++ (a, t) :: l2)) l2 =? a) = true <-> l1 ++ l2 = []).
    { rewrite hd_or_app. cbn [hd_or]. rewrite Z.eqb_eq. destruct NDa as [NDa _]. split.
      - intros G. destruct l2 as [|[b tb] l2].
        + cbn [hd_or] in G. destruct l1 as [|[b tb] l1]; [reflexivity|]. cbn [hd_or] in G. subst b. exfalso. apply NDa. left. reflexivity.
        + cbn [hd_or] in G. subst b. exfalso. apply NDa. rewrite map_app. apply in_or_app. right. left. reflexivity.
      - intros G. apply app_eq_nil in G as [-> ->]. reflexivity. }
    destruct (hd_or (hd_or 0 (l1 ++ (a, t) :: l2)) l2 =? a) eqn:Qa.
    + assert (NE : l1 ++ l2 = []) by (apply Hn; reflexivity). apply app_eq_nil in NE as [-> ->]. eexists. split; [reflexivity|]. split; [constructor|]. split; [exact P'|].
      split; [reflexivity|]. split; [|reflexivity]. split; cbn [ca_heap ca_head ca_new ca_count app]; try reflexivity; try assumption; try constructor.
    + assert (NE : l1 ++ l2 <> []) by (intros G; apply Hn in G; discriminate).
      destruct (unlink_list _ _ _ _ _ C ND NE) as (h' & U & C2). unfold unlink in U. rewrite (deref_eq _ _ _ Ha) in U. cbn [rbind cn_next] in U.
      apply rbind_done in U as (h1 & U1 & U). apply rbind_done in U as (h2 & U2 & U). injection U as <-. rewrite U1. cbn [rbind]. rewrite U2. cbn [rbind].
      eexists. split; [reflexivity|]. split; [exact F'|]. split; [exact P'|]. split; [reflexivity|]. split; [|reflexivity].
      split; cbn [ca_heap ca_head ca_new ca_count]; try assumption; [|apply NDa].
      rewrite H. destruct l1 as [|[b tb] l1].
      * cbn [app]. rewrite Z.eqb_refl. destruct l2 as [|[d td] l2]; [cbn in NE; congruence | reflexivity].
      * cbn [app]. replace (b =? a) with false; [reflexivity|]. symmetry. apply Z.eqb_neq. intros ->. apply (proj1 NDa). left. reflexivity.
Qed.
(** ** lookups *)
Lemma check_cache_spec c l p : ring c l ->
  (Forall (fun x => p (snd x) = false) l /\ check_cache c p = Done (c, None)) \/
  (exists l1 a t l2 c', l = l1 ++ (a, t) :: l2 /\ Forall (fun x => p (snd x) = false) l1 /\ p t = true /\
     check_cache c p = Done (c', Some t) /\ ring c' (moved l1 (a, t) l2) /\ ca_limit c' = ca_limit c).
Proof.
  intros R. unfold check_cache. destruct (find_spec c l p R) as [(E & F) | (l1 & a & t & l2 & -> & F & P & E)]; rewrite E; cbn [rbind].
  - left. split; [exact F | reflexivity].
  - right. destruct (cache_hit_spec _ _ _ _ _ R) as (c' & Hc & R' & L). rewrite Hc. cbn [rbind fst snd]. exists l1, a, t, l2, c'. repeat (split; try assumption; try reflexivity); apply R'.
Qed.
