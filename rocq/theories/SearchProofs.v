(** * Correctness of the binary search over the name index *)
From Verif Require Import Base Const Types State Events Atomic Server Lib.

Definition sorted (ix : list (name * Z)) : Prop :=
  forall i j a b, i < j -> znth ix i = Some a -> znth ix j = Some b -> strcmp (fst a) (fst b) = Lt.

Lemma bsearch_ok ix n : sorted ix -> forall fuel mn mx,
  0 <= mn -> mx < zlen ix -> mn <= mx + 1 -> mx - mn < Z.of_nat fuel ->
  (forall k e, k < mn -> znth ix k = Some e -> strcmp (fst e) n = Lt) ->
  (forall k e, mx < k -> znth ix k = Some e -> strcmp n (fst e) = Lt) ->
  exists r, bsearch fuel ix n mn mx = Done r /\
    match r with
    | inl i => exists t, znth ix i = Some (n, t)
    | inr p => 0 <= p <= zlen ix /\
               (forall k e, k < p -> znth ix k = Some e -> strcmp (fst e) n = Lt) /\
               (forall k e, p <= k -> znth ix k = Some e -> strcmp n (fst e) = Lt)
    end.
Proof.
  intros Hs. induction fuel as [|fuel IH]; intros mn mx H0 H1 H2 H3 Hlo Hhi; cbn [bsearch].
  - replace (mx <? mn) with true by lia. exists (inr mn). split; [reflexivity|].
    split; [lia|]. split; [assumption|]. intros k e Hk. apply Hhi. lia.
  - destruct (Z.ltb_spec mx mn).
    + exists (inr mn). split; [reflexivity|].
      split; [lia|]. split; [assumption|]. intros k e Hk. apply Hhi. lia.
    + set (t := mn + (mx - mn) / 2). assert (Ht : mn <= t <= mx) by (unfold t; lia).
      destruct (znth_some ix t) as [[m v] E]; [lia|]. rewrite E.
      destruct (strcmp n m) eqn:C.
      * exists (inl t). split; [reflexivity|]. apply strcmp_eq in C. subst m. eauto.
      * apply IH; try lia.
        -- assumption.
        -- intros k e Hk Ek. destruct (Z.eq_dec k t) as [->|].
           ++ rewrite E in Ek. injection Ek as <-. exact C.
           ++ eapply strcmp_trans; [exact C|]. apply (Hs t k (m, v) e); [lia | assumption | assumption].
      * apply strcmp_gt in C. apply IH; try lia.
        -- intros k e Hk Ek. destruct (Z.eq_dec k t) as [->|].
           ++ rewrite E in Ek. injection Ek as <-. exact C.
           ++ eapply strcmp_trans; [|exact C]. apply (Hs k t e (m, v)); [lia | assumption | assumption].
        -- assumption.
Qed.

Lemma search_ok ix n : sorted ix ->
  exists r, search ix n = Done r /\
    match r with
    | inl i => exists t, znth ix i = Some (n, t)
    | inr p => 0 <= p <= zlen ix /\
               (forall k e, k < p -> znth ix k = Some e -> strcmp (fst e) n = Lt) /\
               (forall k e, p <= k -> znth ix k = Some e -> strcmp n (fst e) = Lt)
    end.
Proof.
  intros Hs. unfold search. apply bsearch_ok; try assumption; pose proof (zlen_nonneg ix); unfold zlen in *; try lia.
  - intros k e Hk E. apply znth_range in E. lia.
  - intros k e Hk E. apply znth_range in E. unfold zlen in *. lia.
Qed.

Lemma sorted_inj ix n a b i j : sorted ix -> znth ix i = Some (n, a) -> znth ix j = Some (n, b) -> i = j /\ a = b.
Proof.
  intros Hs Hi Hj. assert (i = j).
  { destruct (Z.lt_trichotomy i j) as [H|[H|H]]; [|assumption|]; exfalso.
    - pose proof (Hs i j _ _ H Hi Hj) as C. cbn in C. rewrite strcmp_refl in C. discriminate.
    - pose proof (Hs j i _ _ H Hj Hi) as C. cbn in C. rewrite strcmp_refl in C. discriminate. }
  subst j. split; [reflexivity|]. congruence.
Qed.

(** lookup = membership *)
Lemma get_by_name_in ix n t : sorted ix -> In (n, t) ix -> get_by_name ix n = Done t.
Proof.
  intros Hs Hin. apply In_znth in Hin as [i Hi]. unfold get_by_name.
  destruct (search_ok ix n Hs) as [r [Er Hr]]. rewrite Er. cbn [rbind]. destruct r as [p|p].
  - destruct Hr as [t' Hp]. rewrite Hp. destruct (sorted_inj _ _ _ _ _ _ Hs Hi Hp) as [_ ->]. reflexivity.
  - destruct Hr as [Hb [Hlo Hhi]]. exfalso. destruct (Z_lt_le_dec i p).
    + specialize (Hlo _ _ l Hi). cbn in Hlo. rewrite strcmp_refl in Hlo. discriminate.
    + specialize (Hhi _ _ l Hi). cbn in Hhi. rewrite strcmp_refl in Hhi. discriminate.
Qed.
Lemma get_by_name_notin ix n : sorted ix -> (forall t, ~ In (n, t) ix) -> get_by_name ix n = Done E_NOTFOUND.
Proof.
  intros Hs Hin. unfold get_by_name.
  destruct (search_ok ix n Hs) as [r [Er Hr]]. rewrite Er. cbn [rbind]. destruct r as [p|p]; [|reflexivity].
  destruct Hr as [t' Hp]. exfalso. apply (Hin t'). eapply znth_In; exact Hp.
Qed.
Lemma get_by_name_done ix n t : sorted ix -> (forall a b, In (a, b) ix -> 0 <= b) -> get_by_name ix n = Done t ->
  (In (n, t) ix /\ 0 <= t) \/ (t = E_NOTFOUND /\ forall t', ~ In (n, t') ix).
Proof.
  intros Hs Hpos. unfold get_by_name.
  destruct (search_ok ix n Hs) as [r [Er Hr]]. rewrite Er. cbn [rbind]. destruct r as [p|p].
  - destruct Hr as [t' Hp]. rewrite Hp. intros H; injection H as <-. left.
    apply znth_In in Hp. split; [assumption|]. eapply Hpos; exact Hp.
  - intros H; injection H as <-. right. split; [reflexivity|]. intros t' Hin.
    destruct Hr as [Hb [Hlo Hhi]]. apply In_znth in Hin as [i Hi]. destruct (Z_lt_le_dec i p).
    + specialize (Hlo _ _ l Hi). cbn in Hlo. rewrite strcmp_refl in Hlo. discriminate.
    + specialize (Hhi _ _ l Hi). cbn in Hhi. rewrite strcmp_refl in Hhi. discriminate.
Qed.

(** [Sorted]-style characterisation through append *)
Lemma sorted_app l m : sorted (l ++ m) <->
  sorted l /\ sorted m /\ (forall a b, In a l -> In b m -> strcmp (fst a) (fst b) = Lt).
Proof.
  split.
  - intros H. repeat split.
    + intros i j a b Hij Hi Hj. apply (H i j a b Hij); rewrite znth_app1; auto;
        apply znth_range in Hi; apply znth_range in Hj; lia.
    + intros i j a b Hij Hi Hj. pose proof (znth_range _ _ _ Hi). pose proof (znth_range _ _ _ Hj).
      apply (H (zlen l + i) (zlen l + j) a b); [lia| |]; rewrite znth_app2 by lia; rewrite <- ?Hi, <- ?Hj; f_equal; lia.
    + intros a b Ha Hb. apply In_znth in Ha as [i Hi]. apply In_znth in Hb as [j Hj].
      pose proof (znth_range _ _ _ Hi). pose proof (znth_range _ _ _ Hj).
      apply (H i (zlen l + j) a b); [lia| |].
      * rewrite znth_app1 by lia. exact Hi.
      * rewrite znth_app2 by lia. rewrite <- Hj. f_equal. lia.
  - intros [H1 [H2 H3]] i j a b Hij Hi Hj.
    destruct (Z_lt_le_dec i (zlen l)) as [Li|Li], (Z_lt_le_dec j (zlen l)) as [Lj|Lj]; try lia.
    + rewrite znth_app1 in Hi, Hj by lia. apply (H1 i j); assumption.
    + rewrite znth_app1 in Hi by lia. rewrite znth_app2 in Hj by lia. apply H3; eapply znth_In; eassumption.
    + rewrite znth_app2 in Hi, Hj by lia. apply (H2 (i - zlen l) (j - zlen l)); [lia | assumption | assumption].
Qed.
Lemma sorted_cons a l : sorted (a :: l) <-> sorted l /\ (forall b, In b l -> strcmp (fst a) (fst b) = Lt).
Proof.
  change (a :: l) with ([a] ++ l). rewrite sorted_app. split.
  - intros [_ [H1 H2]]. split; [assumption|]. intros b Hb. apply H2; [left; reflexivity | assumption].
  - intros [H1 H2]. repeat split; [|assumption|].
    + intros i j x y Hij Hi Hj. apply znth_range in Hi, Hj. unfold zlen in *; cbn in *; lia.
    + intros x b [<-|[]] Hb. apply H2; assumption.
Qed.

Lemma add_index_ok ix n i : sorted ix -> (forall t, ~ In (n, t) ix) ->
  exists l r, ix = l ++ r /\ add_index ix n i = Done (l ++ (n, i) :: r) /\ sorted (l ++ (n, i) :: r).
Proof.
  intros Hs Hin. unfold add_index. destruct (search_ok ix n Hs) as [r [Er Hr]]. rewrite Er. cbn [rbind].
  destruct r as [p|p].
  - destruct Hr as [t' Hp]. exfalso. apply (Hin t'). eapply znth_In; exact Hp.
  - destruct Hr as [Hb [Hlo Hhi]]. exists (firstn (Z.to_nat p) ix), (skipn (Z.to_nat p) ix).
    rewrite firstn_skipn. split; [reflexivity|]. split; [reflexivity|].
    pose proof Hs as Hs'. rewrite <- (firstn_skipn (Z.to_nat p) ix) in Hs'. apply sorted_app in Hs' as [S1 [S2 S3]].
    assert (Hl : forall a, In a (firstn (Z.to_nat p) ix) -> strcmp (fst a) n = Lt).
    { intros a Ha. apply In_znth in Ha as [k Hk]. pose proof (znth_range _ _ _ Hk) as Hr. rewrite zlen_firstn in Hr.
      rewrite znth_firstn in Hk by lia. eapply Hlo; [|exact Hk]. lia. }
    assert (Hr : forall a, In a (skipn (Z.to_nat p) ix) -> strcmp n (fst a) = Lt).
    { intros a Ha. apply In_znth in Ha as [k Hk]. pose proof (znth_range _ _ _ Hk) as Hr.
      rewrite znth_skipn in Hk by lia. eapply Hhi; [|exact Hk]. lia. }
    apply sorted_app. split; [assumption|]. split; [apply sorted_cons; split; assumption|].
    intros a b Ha [<-|Hb']; [apply Hl; assumption | apply S3; assumption].
Qed.
Lemma del_index_ok ix n t : sorted ix -> In (n, t) ix ->
  exists l r, ix = l ++ (n, t) :: r /\ del_index ix n = Done (l ++ r) /\ sorted (l ++ r).
Proof.
  intros Hs Hin. unfold del_index. destruct (search_ok ix n Hs) as [r [Er Hr]]. rewrite Er. cbn [rbind].
  apply In_znth in Hin as [i Hi]. destruct r as [p|p].
  - destruct Hr as [t' Hp]. destruct (sorted_inj _ _ _ _ _ _ Hs Hi Hp) as [-> ->].
    pose proof (znth_range _ _ _ Hp) as Hr. apply znth_iff in Hp as [_ Hp].
    apply nth_error_split in Hp as [l [r [-> Hl]]]. exists l, r.
    split; [reflexivity|]. rewrite <- Hl. split.
    + rewrite firstn_app, Nat.sub_diag, firstn_all. cbn [firstn]. rewrite app_nil_r.
      replace (S (length l)) with (length (l ++ [(n, t')])) by (rewrite app_length; cbn; lia).
      replace (l ++ (n, t') :: r) with ((l ++ [(n, t')]) ++ r) by (rewrite <- app_assoc; reflexivity).
      rewrite skipn_app, Nat.sub_diag, skipn_all. reflexivity.
    + apply sorted_app in Hs as [S1 [S2 S3]]. apply sorted_cons in S2 as [S2 S4].
      apply sorted_app. split; [assumption|]. split; [assumption|]. intros a b Ha Hb. apply S3; [assumption | right; assumption].
  - destruct Hr as [Hb [Hlo Hhi]]. exfalso. destruct (Z_lt_le_dec i p).
    + specialize (Hlo _ _ l Hi). cbn in Hlo. rewrite strcmp_refl in Hlo. discriminate.
    + specialize (Hhi _ _ l Hi). cbn in Hhi. rewrite strcmp_refl in Hhi. discriminate.
Qed.
