(** * Prop_Retain: retained tags and restarts (C60) *)
From Verif Require Import Base Const Types State Events Atomic Server Lib SearchProofs Shape Inv Reach Spec Frame Effects Out DataFrame WRel ModInv Demo Prop_Tags Prop_Data.

(** ** the invariant that ties the retention file to the tag base *)
Definition elem (t : tag) : Z := typesize_bits (t_type t) / 8.
(** the stored blob [x] of [row] holds the leading bytes of tag [t], at least the elements the row counts *)
Definition row_data (t : tag) (row : rrow) (x : list Z) : Prop :=
  In (t_type t) base_types -> t_type t <> T_BOOL -> t_count t * elem t < 2147483648 ->
  forall b, t_data t = DBytes b -> x = firstn (length x) b /\ rr_count row * elem t <= zlen x.
Definition row_of (t : tag) (nm : name) (row : rrow) : Prop :=
  rr_id row = t_retid t /\ rr_name row = nm /\ 0 < rr_count row <= t_count t /\
  (In (t_type t) base_types -> cdt_get_name [] (t_type t) = Some (rr_type row)) /\
  forall x, rr_data row = Some x -> row_data t row x.
Record RetInv (s : server) : Prop := {
  ri_closed : r_open (s_ret s) = false -> r_rows (s_ret s) = [] /\ r_next (s_ret s) = 1;
  ri_ids : forall row, In row (r_rows (s_ret s)) -> 1 <= rr_id row < r_next (s_ret s);
  ri_uniq : NoDup (map rr_id (r_rows (s_ret s)));
  ri_names : NoDup (map rr_name (r_rows (s_ret s)));
  ri_valid : forall row, In row (r_rows (s_ret s)) -> validate_name (rr_name row) = 0 /\ nthb (rr_name row) 0 <> 95;
  ri_next : 1 <= r_next (s_ret s);
  ri_tag : forall i t, znth (s_db s) i = Some t -> 0 <= t_retid t < r_next (s_ret s);
  ri_inj : forall i j t u, znth (s_db s) i = Some t -> znth (s_db s) j = Some u -> t_retid t = t_retid u -> 0 < t_retid t -> i = j;
  ri_live : forall i t nm, znth (s_db s) i = Some t -> t_name t = Some nm -> 0 < t_retid t ->
    has (t_attr t) A_RETAIN = true /\ exists row, In row (r_rows (s_ret s)) /\ row_of t nm row }.
(** rows stay and never lose their data; tags keep their row as long as they exist *)
Definition row_le (a b : rrow) : Prop :=
  rr_id b = rr_id a /\ rr_name b = rr_name a /\ rr_type b = rr_type a /\ rr_count b = rr_count a /\ (rr_data a <> None -> rr_data b <> None).
(** a tag of the same size keeps its bytes, or the file has data for it *)
Definition bytes_of (t : tag) : option (list Z) := match t_data t with DBytes b => Some b | _ => None end.
Definition kept (rows : list rrow) (t t' : tag) : Prop :=
  t_count t <= t_count t' /\
  (t_count t' = t_count t -> bytes_of t' = bytes_of t \/ bytes_of t' = None \/
     exists row, In row rows /\ rr_id row = t_retid t /\ rr_data row <> None).
Record rmono (s s' : server) : Prop := {
  rm_open : r_open (s_ret s') = r_open (s_ret s);
  rm_row : forall row, In row (r_rows (s_ret s)) -> exists row', In row' (r_rows (s_ret s')) /\ row_le row row';
  rm_tag : forall i t, znth (s_db s) i = Some t -> exists t', znth (s_db s') i = Some t' /\ t_type t' = t_type t /\
    (0 < t_retid t -> t_retid t' = t_retid t /\ (t_name t' <> None -> kept (r_rows (s_ret s')) t t')) /\ (t_name t' = t_name t \/ t_name t' = None) }.
Definition rq (s s' : server) : Prop := RetInv s -> RetInv s' /\ rmono s s'.
Lemma row_le_refl a : row_le a a.
Proof. repeat split; auto. Qed.
Lemma row_le_trans a b c : row_le a b -> row_le b c -> row_le a c.
Proof. intros (A1 & A2 & A3 & A4 & A5) (B1 & B2 & B3 & B4 & B5). repeat split; try congruence. auto. Qed.
Lemma kept_refl r t : kept r t t.
Proof. split; [lia | auto]. Qed.
Lemma rmono_refl s : rmono s s.
Proof. constructor; [reflexivity | eauto using row_le_refl |]. intros i t H. exists t. auto 7 using kept_refl. Qed.
Lemma kept_trans r1 r2 t1 t2 t3 : (forall row, In row r1 -> exists row', In row' r2 /\ row_le row row') -> t_retid t2 = t_retid t1 ->
  kept r1 t1 t2 -> kept r2 t2 t3 -> kept r2 t1 t3.
Proof.
  intros R E [A1 A2] [B1 B2]. split; [lia|]. intros Q. destruct B2 as [B2|[B2|B2]]; [lia | | |].
  - destruct A2 as [A2|[A2|(row & X & Y & Z)]]; [lia | left; congruence | right; left; congruence |].
    destruct (R _ X) as (row' & X' & L). destruct L as (L1 & _ & _ & _ & L5). right; right. exists row'. split; [exact X'|]. split; [congruence | auto].
  - auto.
  - rewrite E in B2. auto.
Qed.
Lemma rmono_trans a b c : rmono a b -> rmono b c -> rmono a c.
Proof.
  intros [A1 A2 A3] [B1 B2 B3]. constructor; [congruence | |].
  - intros row H. destruct (A2 _ H) as (r1 & X & Y). destruct (B2 _ X) as (r2 & Z & W). eauto using row_le_trans.
  - intros i t H. destruct (A3 _ _ H) as (t1 & X1 & X2 & X3 & X4). destruct (B3 _ _ X1) as (t2 & Y1 & Y2 & Y3 & Y4).
    exists t2. split; [exact Y1|]. split; [congruence|].
    split; [|destruct Y4 as [Y4|Y4]; [rewrite Y4; exact X4 | right; exact Y4]].
    intros P. destruct (X3 P) as [X5 X6]. destruct (Y3 ltac:(lia)) as [Y5 Y6]. split; [congruence|]. intros N.
    eapply kept_trans; [exact B2 | exact X5 | apply X6 | apply Y6; exact N]. destruct Y4 as [Y4|Y4]; congruence.
Qed.
Lemma rq_refl s : rq s s.
Proof. intros R. split; [exact R | apply rmono_refl]. Qed.
Lemma rq_trans a b c : rq a b -> rq b c -> rq a c.
Proof. intros F G R. destruct (F R) as [R1 M1]. destruct (G R1) as [R2 M2]. split; [exact R2 | eapply rmono_trans; eassumption]. Qed.
Lemma rq_same s s' : s_db s' = s_db s -> s_ret s' = s_ret s -> rq s s'.
Proof.
  intros D T [A B C F G H I J K]. split.
  - constructor; rewrite ?D, ?T; assumption.
  - constructor; rewrite ?D, ?T; [reflexivity | eauto using row_le_refl |]. intros i t Ht. exists t. auto 7 using kept_refl.
Qed.
Lemma row_of_same t t' nm row : t_retid t' = t_retid t -> t_type t' = t_type t -> t_count t' = t_count t -> bytes_of t' = bytes_of t ->
  row_of t nm row -> row_of t' nm row.
Proof.
  intros A B C D (X1 & X2 & X3 & X4 & X5). split; [congruence|]. split; [exact X2|]. split; [rewrite C; exact X3|]. split; [rewrite B; exact X4|].
  intros x Hx. specialize (X5 _ Hx). unfold row_data, elem in *. rewrite B, C. intros P1 P2 P3 b Hb. apply (X5 P1 P2 P3).
  unfold bytes_of in D. rewrite Hb in D. destruct (t_data t); try discriminate. injection D as ->. reflexivity.
Qed.
(** a tag record is replaced: the retention id stays, and so does everything a row describes *)
Lemma rq_set_tag_gen s i t t' : znth (s_db s) i = Some t -> t_retid t' = t_retid t -> t_type t' = t_type t -> (t_name t' = t_name t \/ t_name t' = None) ->
  (0 < t_retid t -> t_name t' <> None -> t_count t <= t_count t' /\ (t_count t' = t_count t -> bytes_of t' = bytes_of t \/ bytes_of t' = None) /\
     has (t_attr t') A_RETAIN = has (t_attr t) A_RETAIN /\ forall nm row, row_of t nm row -> row_of t' nm row) ->
  rq s (set_tag s i t').
Proof.
  intros Ht Er Et En P R. assert (Rg := znth_range _ _ _ Ht). destruct R as [A B C F G H I J K].
  assert (Z : forall j u, znth (s_db (set_tag s i t')) j = Some u -> (j = i /\ u = t') \/ (j <> i /\ znth (s_db s) j = Some u)).
  { intros j u Hu. cbn in Hu. rewrite znth_zset in Hu. destruct ((i =? j) && (0 <=? i) && (i <? zlen (s_db s))) eqn:Q.
    - injection Hu as <-. left. split; [lia | reflexivity].
    - right. split; [lia | exact Hu]. }
  split.
  - constructor; try assumption.
    + intros j u Hu. destruct (Z _ _ Hu) as [[-> ->]|[_ Hu']]; [rewrite Er; eapply I; exact Ht | eapply I; exact Hu'].
    + intros j k u v Hu Hv Q P0. destruct (Z _ _ Hu) as [[-> ->]|[N1 Hu']], (Z _ _ Hv) as [[-> ->]|[N2 Hv']]; [reflexivity | | |].
      * rewrite Er in Q, P0. eapply J; eassumption.
      * rewrite Er in Q. eapply J; eassumption.
      * eapply J; eassumption.
    + intros j u nm Hu Hn P0. destruct (Z _ _ Hu) as [[-> ->]|[_ Hu']]; [|eapply K; eassumption].
      rewrite Er in P0. destruct (P P0) as (P1 & P2 & P3 & P4); [congruence|]. destruct En as [En|En]; [|congruence]. rewrite En in Hn.
      destruct (K _ _ _ Ht Hn P0) as (K1 & row & K2 & K3). split; [congruence|]. exists row. split; [exact K2|].
      apply P4. exact K3.
  - constructor; [reflexivity | eauto using row_le_refl |]. intros j u Hu. destruct (Z.eq_dec j i) as [->|N].
    + assert (u = t) by congruence. subst u. exists t'. cbn. rewrite znth_zset_eq by exact Rg. split; [reflexivity|]. split; [exact Et|]. split; [|exact En].
      intros P0. split; [exact Er|]. intros Nn. destruct (P P0 Nn) as (P1 & P2 & _). split; [exact P1|]. intros Q. destruct (P2 Q); auto.
    + exists u. cbn. rewrite znth_zset_ne by congruence. auto 7 using kept_refl.
Qed.
Lemma rq_set_tag s i t t' : znth (s_db s) i = Some t -> t_retid t' = t_retid t -> t_type t' = t_type t -> (t_name t' = t_name t \/ t_name t' = None) ->
  (0 < t_retid t -> t_name t' <> None -> t_count t' = t_count t /\ bytes_of t' = bytes_of t /\ has (t_attr t') A_RETAIN = has (t_attr t) A_RETAIN) ->
  rq s (set_tag s i t').
Proof.
  intros Ht Er Et En P. eapply rq_set_tag_gen; [exact Ht | exact Er | exact Et | exact En|]. intros P0 Nn. destruct (P P0 Nn) as (P1 & P2 & P3).
  split; [lia|]. split; [auto|]. split; [exact P3|]. intros nm row R. eapply row_of_same; eassumption.
Qed.
(** storing new bytes: the row of the tag is rewritten *)
Lemma NoDup_map_inj {A B} (f : A -> B) l x y : NoDup (map f l) -> In x l -> In y l -> f x = f y -> x = y.
Proof.
  induction l as [|a l IH]; cbn; intros N X Y Q; [contradiction|]. inversion N as [|z zs N1 N2]; subst.
  destruct X as [->|X], Y as [->|Y]; auto; exfalso; apply N1; [rewrite Q | rewrite <- Q]; apply in_map; assumption.
Qed.
Lemma base_elem ts t : In (t_type t) base_types -> t_type t <> T_BOOL -> type_size ts (t_type t) = Done (elem t) /\ 0 < elem t.
Proof.
  unfold elem. generalize (t_type t). intros ty H N. cbn in H.
  repeat (destruct H as [<-|H]; [first [contradiction (N eq_refl) | split; reflexivity]|]). contradiction.
Qed.
Lemma slice_prefix n (b : list BinNums.Z) : slice 0 n b = firstn (length (slice 0 n b)) b.
Proof.
  unfold slice. cbn [Z.to_nat skipn]. rewrite firstn_length. destruct (Nat.le_ge_cases (Z.to_nat n) (length b)) as [L|L].
  - rewrite Nat.min_l by exact L. reflexivity.
  - rewrite Nat.min_r by exact L. rewrite firstn_all. apply firstn_all2. exact L.
Qed.
Lemma commit_rq E i t b off n s s' u : znth (s_db s) i = Some t -> commit E i t b off n s = Done (s', u) -> rq s s'.
Proof.
  intros Ht H R. unfold commit in H. inv1 H. destruct v as [evs o]. cbn [fst snd] in H.
  set (t' := set_events (set_data t (DBytes b)) evs) in *. assert (Rg := znth_range _ _ _ Ht).
  assert (Z : forall j w, znth (zset (s_db s) i t') j = Some w -> (j = i /\ w = t') \/ (j <> i /\ znth (s_db s) j = Some w)).
  { intros j w Hu. rewrite znth_zset in Hu. destruct ((i =? j) && (0 <=? i) && (i <? zlen (s_db s))) eqn:Q.
    - injection Hu as <-. left. split; [lia | reflexivity].
    - right. split; [lia | exact Hu]. }
  destruct (has (t_attr t) A_RETAIN) eqn:At.
  2:{ injection H as <- _. eapply rq_trans with (b := set_tag s i t'); [|apply rq_same; reflexivity|exact R].
      eapply rq_set_tag; [exact Ht | reflexivity | reflexivity | left; reflexivity |].
      intros P Nn. exfalso. destruct (t_name t) as [nm|] eqn:Hn; [|apply Nn; exact Hn].
      destruct (ri_live _ R _ _ _ Ht Hn P) as [Q _]. congruence. }
  inv1 H. injection H as <- _. unfold ret_tag_write in Hr0. destruct (r_open (s_ret s)) eqn:Op; cbn [negb] in Hr0.
  2:{ injection Hr0 as <-. assert (Q : t_retid t = 0).
      { assert (B := ri_tag _ R _ _ Ht). destruct (ri_closed _ R Op) as [_ Nx]. lia. }
      eapply rq_trans with (b := set_tag s i t'); [|apply rq_same; reflexivity|exact R].
      eapply rq_set_tag; [exact Ht | reflexivity | reflexivity | left; reflexivity | intros; lia]. }
  inv1 Hr0. cbn [t_data t' set_events set_data] in Hr0. inv1 Hr0. injection Hr0 as <-. rename v1 into x. rename v0 into sz.
  unfold rd in Hr2. destruct (in_bounds 0 sz (zlen b)) eqn:Bd; [|discriminate]. injection Hr2 as <-.
  change (t_retid t') with (t_retid t).
  set (f := fun row => if rr_id row =? t_retid t then mk_row (rr_id row) (rr_name row) (rr_type row) (rr_count row) (Some (slice 0 sz b)) else row).
  assert (F1 : forall row, rr_id (f row) = rr_id row /\ rr_name (f row) = rr_name row /\ rr_type (f row) = rr_type row /\ rr_count (f row) = rr_count row)
    by (intros row; unfold f; destruct (rr_id row =? t_retid t); auto).
  destruct R as [A B C F G H I J K].
  assert (Mi : map rr_id (map f (r_rows (s_ret s))) = map rr_id (r_rows (s_ret s))) by (rewrite map_map; apply map_ext; intros row; apply F1).
  assert (Mn : map rr_name (map f (r_rows (s_ret s))) = map rr_name (r_rows (s_ret s))) by (rewrite map_map; apply map_ext; intros row; apply F1).
  split.
  - constructor; cbn [s_ret s_db set_ret set_out set_tag set_db r_open r_rows r_next]; fold f.
    + discriminate.
    + intros row Hr2. apply in_map_iff in Hr2 as (r0 & <- & Hr2). destruct (F1 r0) as (-> & _). apply B. exact Hr2.
    + rewrite Mi. exact C.
    + rewrite Mn. exact F.
    + intros row Hr2. apply in_map_iff in Hr2 as (r0 & <- & Hr2). destruct (F1 r0) as (_ & -> & _). apply G. exact Hr2.
    + exact H.
    + intros j w Hw. destruct (Z _ _ Hw) as [[-> ->]|[_ Hw']]; [eapply (I i t); exact Ht | eapply I; exact Hw'].
    + intros j k w v Hw Hv Q P0. destruct (Z _ _ Hw) as [[-> ->]|[N1 Hw']], (Z _ _ Hv) as [[-> ->]|[N2 Hv']]; [reflexivity | | |].
      * eapply (J i k t v); eassumption.
      * eapply (J j i w t); eassumption.
      * eapply J; eassumption.
    + intros j w nm Hw Hn P0. destruct (Z _ _ Hw) as [[-> ->]|[N Hw']].
      * change (t_retid t') with (t_retid t) in P0. change (t_name t') with (t_name t) in Hn. change (t_attr t') with (t_attr t).
        destruct (K _ _ _ Ht Hn P0) as (K1 & row & K2 & K3). split; [exact K1|]. exists (f row). split; [apply in_map; exact K2|].
        destruct K3 as (X1 & X2 & X3 & X4 & X5). destruct (F1 row) as (Y1 & Y2 & Y3 & Y4).
        split; [rewrite Y1; exact X1|]. split; [rewrite Y2; exact X2|]. split; [rewrite Y4; exact X3|]. split; [rewrite Y3; exact X4|].
        intros x Hx. unfold f in Hx. rewrite X1, Z.eqb_refl in Hx. cbn in Hx. injection Hx as <-.
        intros Hb Nb Hc b0 D. cbn in D. injection D as <-. rewrite Y4. change (elem t') with (elem t) in *. change (t_count t') with (t_count t) in Hc.
        change (t_type t') with (t_type t) in *.
        destruct (base_elem (s_types s) t Hb Nb) as [S1 S2]. unfold raw_size in Hr1. change (t_type t') with (t_type t) in Hr1. rewrite S1 in Hr1. cbn [rbind] in Hr1.
        change (t_count t') with (t_count t) in Hr1. rewrite s32_small in Hr1 by nia. injection Hr1 as <-.
        assert (L := zlen_slice _ _ _ Bd). split; [|nia].
        apply slice_prefix.
      * destruct (K _ _ _ Hw' Hn P0) as (K1 & row & K2 & K3). split; [exact K1|]. exists row. split; [|exact K3].
        assert (Q : f row = row).
        { unfold f. destruct (rr_id row =? t_retid t) eqn:Q; [|reflexivity]. exfalso. apply N. destruct K3 as (X1 & _).
          eapply (J j i w t); [exact Hw' | exact Ht | lia | exact P0]. }
        rewrite <- Q. apply in_map. exact K2.
  - constructor; cbn [s_ret s_db set_ret set_out set_tag set_db r_open r_rows r_next]; fold f.
    + congruence.
    + intros row Hr2. exists (f row). split; [apply in_map; exact Hr2|]. destruct (F1 row) as (Y1 & Y2 & Y3 & Y4).
      repeat split; try assumption. unfold f. destruct (rr_id row =? t_retid t); [discriminate | auto].
    + intros j w Hw. destruct (Z.eq_dec j i) as [->|N].
      * assert (w = t) by congruence. subst w. exists t'. rewrite znth_zset_eq by exact Rg. split; [reflexivity|]. split; [reflexivity|].
        split; [|left; reflexivity]. intros P0. split; [reflexivity|]. intros Nn. split; [reflexivity|]. intros _. right; right.
        change (t_name t') with (t_name t) in Nn. destruct (t_name t) as [nm|] eqn:Hn; [|congruence].
        destruct (K _ _ _ Ht Hn P0) as (K1 & row & K2 & K3). exists (f row). split; [apply in_map; exact K2|]. destruct K3 as (X1 & _).
        destruct (F1 row) as (Y1 & _). split; [congruence|]. unfold f. rewrite X1, Z.eqb_refl. discriminate.
      * exists w. rewrite znth_zset_ne by congruence. auto 7 using kept_refl.
Qed.
(** ** the pass over the server's functions *)
Lemma queue_rq s i t q q' evs : znth (s_db s) i = Some t -> t_data t = DQueue q -> rq s (set_tag s i (set_events (set_data t (DQueue q')) evs)).
Proof.
  intros Ht D. eapply rq_set_tag; [exact Ht | reflexivity | reflexivity | left; reflexivity |]. intros _ _. unfold bytes_of. rewrite D. cbn. auto.
Qed.
Lemma set_events_same t : set_events t (t_events t) = t.
Proof. destruct t; reflexivity. Qed.
Lemma tag_write_rq E fd i off d : pres rq (tag_write E fd i off d).
Proof.
  intros s s' r H. unfold tag_write in H. inv_all; try apply rq_refl; try (eapply commit_rq; eassumption).
  match goal with |- rq s (set_out (set_tag s i ?x) _) => apply (rq_trans _ (set_tag s i x)); [|apply rq_same; reflexivity] end.
  eapply queue_rq; eassumption.
Qed.
Lemma tag_mask_write_rq E fd i off d m : pres rq (tag_mask_write E fd i off d m).
Proof. intros s s' r H. unfold tag_mask_write in H. inv_all; try apply rq_refl; try (eapply commit_rq; eassumption). Qed.
Lemma sys_write_rq E i d : pres rq (sys_write E i d).
Proof. intros s s' a H. unfold sys_write in H. inv_all; try apply rq_refl; eapply tag_write_rq; eassumption. Qed.
Lemma tag_read_rq E fd i off n c : pres rq (tag_read E fd i off n c).
Proof.
  intros s s' a H. unfold tag_read in H. inv_all; try apply rq_refl.
  match goal with |- rq s (set_tag s i (set_data t (DQueue ?q))) => rewrite <- (set_events_same (set_data t (DQueue q))) end. eapply queue_rq; eassumption.
Qed.
Ltac flag_solve := cbn; repeat match goal with |- context [match ?x with [] => _ | _ => _ end] => destruct x end;
    rewrite ?has_set_flag; try rewrite !has_clr_flag by reflexivity; try reflexivity; cbn; apply orb_false_r.
Ltac rq_set := eapply rq_set_tag; [cbn; eassumption | reflexivity | reflexivity | left; reflexivity | intros _ _; split; [reflexivity|]; split; [reflexivity | flag_solve]].
Ltac rq_set2 := match goal with
  | Ht : znth (s_db ?s) ?i = Some _ |- rq (set_tag ?s ?i ?x) (set_tag (set_tag ?s ?i ?x) ?i ?y) =>
      eapply (rq_set_tag _ i x y); [cbn; apply znth_zset_eq; eapply znth_range; exact Ht | reflexivity | reflexivity | left; reflexivity
        | intros _ _; split; [reflexivity|]; split; [reflexivity | flag_solve]] end.
Create HintDb rq.
#[export] Hint Resolve tag_write_rq tag_mask_write_rq sys_write_rq tag_read_rq : rq.
Ltac rq_step :=
  match goal with
  | |- rq ?s ?s => apply rq_refl
  | |- rq _ (set_tag ?Y ?j ?t') => eapply (rq_trans _ Y); [| first [rq_set | rq_set2]]
  | |- rq _ (set_out ?Y _) => apply (rq_trans _ Y); [| apply rq_same; reflexivity]
  | |- rq _ (set_mods ?Y _) => apply (rq_trans _ Y); [| apply rq_same; reflexivity]
  | |- rq _ (upd_mod _ _ ?Y) => apply (rq_trans _ Y); [| apply rq_same; reflexivity]
  | |- rq _ (set_now ?Y _) => apply (rq_trans _ Y); [| apply rq_same; reflexivity]
  | |- rq _ (set_types ?Y _) => apply (rq_trans _ Y); [| apply rq_same; reflexivity]
  | |- rq _ (set_index ?Y _) => apply (rq_trans _ Y); [| apply rq_same; reflexivity]
  | |- rq _ (set_tagcount ?Y _) => apply (rq_trans _ Y); [| apply rq_same; reflexivity]
  | |- rq _ (set_dbsize ?Y _) => apply (rq_trans _ Y); [| apply rq_same; reflexivity]
  | |- rq _ (set_ovi ?Y _) => apply (rq_trans _ Y); [| apply rq_same; reflexivity]
  | |- rq _ (set_ovs ?Y _) => apply (rq_trans _ Y); [| apply rq_same; reflexivity]
  | |- rq _ (set_moduuid ?Y _) => apply (rq_trans _ Y); [| apply rq_same; reflexivity]
  | |- rq _ (set_nextuid ?Y _) => apply (rq_trans _ Y); [| apply rq_same; reflexivity]
  | |- rq _ (set_step ?Y _) => apply (rq_trans _ Y); [| apply rq_same; reflexivity]
  | H : commit _ _ _ _ _ _ ?Y = Done (?X, _) |- rq _ ?X =>
      eapply (rq_trans _ Y); [| eapply commit_rq; [|exact H]; eassumption]
  | H : ?m ?Y = Done (?X, _) |- rq _ ?X =>
      eapply (rq_trans _ Y); [| let P := fresh in assert (P : pres rq m) by (auto with rq); exact (P _ _ _ H)]
  end.
Ltac rqs := repeat rq_step.
Ltac rq_tac := let s := fresh "s" in let s' := fresh "s'" in let a := fresh "a" in let H := fresh "H" in
  intros s s' a H; inv_all; rqs.
Lemma map_del_rq a b : pres rq (map_del a b).
Proof. unfold map_del. rq_tac. Qed.
#[export] Hint Resolve map_del_rq : rq.
Lemma map_fire_rq E m : pres rq (map_fire E m).
Proof. unfold map_fire. rq_tac. Qed.
#[export] Hint Resolve map_fire_rq : rq.
Lemma map_loop_rq E l o w : pres rq (map_loop E l o w).
Proof. induction l; cbn [map_loop]; rq_tac. Qed.
#[export] Hint Resolve map_loop_rq : rq.
Lemma map_check_rq E i o w : pres rq (map_check E i o w).
Proof. unfold map_check. rq_tac. Qed.
Lemma atomic_op_rq E h o d : pres rq (atomic_op E h o d).
Proof. unfold atomic_op. rq_tac. Qed.
Lemma group_read_loop_rq E hs o b : pres rq (group_read_loop E hs o b).
Proof. revert o b; induction hs; intros o b; cbn [group_read_loop]; rq_tac. Qed.
Lemma group_write_loop_rq E hs o b : pres rq (group_write_loop E hs o b).
Proof. revert o; induction hs; intros o; cbn [group_write_loop]; rq_tac. Qed.
#[export] Hint Resolve map_check_rq atomic_op_rq group_read_loop_rq group_write_loop_rq : rq.
Lemma group_read_rq E m g : pres rq (group_read E m g).
Proof. unfold group_read. rq_tac. Qed.
Lemma group_write_rq E m g p : pres rq (group_write E m g p).
Proof. unfold group_write. rq_tac. Qed.
Lemma override_get_rq a b c : pres rq (override_get a b c).
Proof. unfold override_get. rq_tac. Qed.
Lemma respond_rq a b c : pres rq (respond a b c).
Proof. unfold respond. rq_tac. Qed.
Lemma reply_err_rq a b c : pres rq (reply_err a b c).
Proof. unfold reply_err. rq_tac. Qed.
#[export] Hint Resolve group_read_rq group_write_rq override_get_rq respond_rq reply_err_rq : rq.
Lemma reply_int_rq a b c : pres rq (reply_int a b c).
Proof. unfold reply_int. rq_tac. Qed.
Lemma reply_status_rq a b c : pres rq (reply_status a b c).
Proof. unfold reply_status. rq_tac. Qed.
#[export] Hint Resolve reply_int_rq reply_status_rq : rq.
Lemma h_tag_get_rq E fd r : pres rq (h_tag_get E fd r).
Proof. unfold h_tag_get. rq_tac. Qed.
Lemma h_read_rq E a b c d : pres rq (h_read E a b c d).
Proof. unfold h_read. rq_tac. Qed.
Lemma h_write_rq E a b c d : pres rq (h_write E a b c d).
Proof. unfold h_write. rq_tac. Qed.
Lemma h_mask_rq E a b c d m : pres rq (h_mask E a b c d m).
Proof. unfold h_mask. rq_tac. Qed.
Lemma h_atomic_rq E a b c d : pres rq (h_atomic E a b c d).
Proof. unfold h_atomic. rq_tac. Qed.
Lemma h_cdt_get_rq a b : pres rq (h_cdt_get a b).
Proof. unfold h_cdt_get. rq_tac. Qed.
#[export] Hint Resolve h_tag_get_rq h_read_rq h_write_rq h_mask_rq h_atomic_rq h_cdt_get_rq : rq.
Lemma event_add_rq E h et ud m : pres rq (event_add E h et ud m).
Proof. unfold event_add. rq_tac. Qed.
Lemma event_del_rq E idx id mo : pres rq (event_del E idx id mo).
Proof. unfold event_del. rq_tac. Qed.
Lemma event_opt_rq idx id o mo : pres rq (event_opt idx id o mo).
Proof. unfold event_opt. rq_tac. Qed.
Lemma map_add_rq a b : pres rq (map_add a b).
Proof. unfold map_add. rq_tac. Qed.
Lemma group_add_rq a b c : pres rq (group_add a b c).
Proof. unfold group_add. rq_tac. Qed.
Lemma group_del_rq a b c : pres rq (group_del a b c).
Proof. unfold group_del. rq_tac. Qed.
Lemma h_cdt_create_rq E a b : pres rq (h_cdt_create E a b).
Proof. unfold h_cdt_create. rq_tac. Qed.
#[export] Hint Resolve event_add_rq event_del_rq event_opt_rq map_add_rq group_add_rq group_del_rq h_cdt_create_rq : rq.
Lemma cleanup_tag_rq E n uid l : pres rq (cleanup_tag E n uid l).
Proof. induction l; cbn [cleanup_tag]; rq_tac. Qed.
#[export] Hint Resolve cleanup_tag_rq : rq.
Lemma cleanup_loop_rq E k uid : pres rq (cleanup_loop E k uid).
Proof. induction k; cbn [cleanup_loop]; rq_tac. Qed.
Lemma override_add_rq E a b c d : pres rq (override_add E a b c d).
Proof. unfold override_add. rq_tac. Qed.
Lemma override_del_rq E a b c : pres rq (override_del E a b c).
Proof. unfold override_del. rq_tac. Qed.
Lemma override_set_rq E a b : pres rq (override_set E a b).
Proof. unfold override_set. rq_tac. Qed.
#[export] Hint Resolve cleanup_loop_rq override_add_rq override_del_rq override_set_rq : rq.
Lemma tag_del_rq E i : pres rq (tag_del E i).
Proof.
  intros s s' r H. apply tag_del_cases in H.
  destruct H as [r Hr | t nm o ix s1 s3 s' t1 v u Ht Hn Hd Ho Hix Hs1 Hw Ht1 Hw2]; [apply rq_refl|].
  assert (K1 : rq s s3) by (subst s1; clear Hw2; rqs).
  eapply rq_trans; [exact K1|]. clear Hw. rq_step. rq_step.
  eapply rq_set_tag; [exact Ht1 | reflexivity | reflexivity | right; reflexivity |]. intros _ N. contradiction (N eq_refl).
Qed.
#[export] Hint Resolve tag_del_rq : rq.
Lemma del_owned_loop_rq E fd c n : pres rq (del_owned_loop E fd c n).
Proof. revert n; induction c as [|c IH]; intros n; cbn [del_owned_loop]; unfold del_owned; rq_tac. Qed.
#[export] Hint Resolve del_owned_loop_rq : rq.
Lemma module_unregister_rq E fd : pres rq (module_unregister E fd).
Proof. unfold module_unregister. rq_tac. Qed.
#[export] Hint Resolve module_unregister_rq : rq.
Lemma rq_ret s s' : s_db s' = s_db s -> r_open (s_ret s') = r_open (s_ret s) -> r_rows (s_ret s') = r_rows (s_ret s) -> r_next (s_ret s') = r_next (s_ret s) -> rq s s'.
Proof.
  intros D T1 T2 T3 [A B C F G H I J K]. split.
  - constructor; rewrite ?D, ?T1, ?T2, ?T3; assumption.
  - constructor; rewrite ?D, ?T1, ?T2, ?T3; [reflexivity | eauto using row_le_refl |]. intros i t Ht. exists t. auto 7 using kept_refl.
Qed.
Lemma base_name ts ty : In ty base_types -> cdt_get_name ts ty = cdt_get_name [] ty /\ cdt_get_name [] ty <> None.
Proof. intros H. cbn in H. repeat (destruct H as [<-|H]; [split; [reflexivity | discriminate]|]). contradiction. Qed.
Lemma NoDup_app_one {A} (l : list A) x : NoDup l -> ~ In x l -> NoDup (l ++ [x]).
Proof. intros N H. apply NoDup_Add with (a := x) (l := l); [rewrite <- (app_nil_r l) at 1; apply Add_app | auto]. Qed.
Definition may_retain (s : server) (i attr : Z) : Prop := forall t nm, znth (s_db s) i = Some t -> t_name t = Some nm -> has attr A_RETAIN = true ->
  validate_name nm = 0 /\ nthb nm 0 <> 95 /\ 0 < t_count t.
Lemma set_attribute_rq E i attr s s' u : may_retain s i attr -> set_attribute E i attr s = Done (s', u) -> rq s s'.
Proof.
  intros M H R. unfold set_attribute in H. destruct (znth (s_db s) i) as [t|] eqn:Ht; [|discriminate].
  destruct (has attr A_RETAIN) eqn:At; [|assert (Q : rq s s') by (clear R; inv_all; rqs); exact (Q R)]. inv1 H. injection H as <- _. unfold ret_add_tag in Hr. inv1 Hr.
  assert (Old : forall r, t_retid t = r -> rq s (set_ret (set_tag s i (set_attr (set_retid t r) (set_flag (t_attr t) A_RETAIN))) (mk_rdb (r_open (s_ret s)) (r_rows (s_ret s)) (r_next (s_ret s)) v0))).
  { intros r Q R0. eapply (rq_trans _ (set_tag s i (set_attr (set_retid t r) (set_flag (t_attr t) A_RETAIN)))); [|apply rq_ret; reflexivity | exact R0].
    eapply rq_set_tag; [exact Ht | symmetry; exact Q | reflexivity | left; reflexivity |]. intros P Nn. split; [reflexivity|]. split; [reflexivity|].
    cbn in Nn. destruct (t_name t) as [nm|] eqn:Hn; [|congruence]. destruct (ri_live _ R0 _ _ _ Ht Hn P) as [Q1 _]. cbn. rewrite has_set_flag, Q1. reflexivity. }
  destruct (r_open (s_ret s)) eqn:Op; cbn [negb] in Hr; [|injection Hr as <-; apply Old; auto].
  destruct (t_name t) as [nm|] eqn:Hn; [|discriminate].
  destruct (existsb (fun row => name_eqb (rr_name row) nm) (r_rows (s_ret s))) eqn:Ex; injection Hr as <-; [apply Old; auto|]. clear Old.
  destruct (M _ _ Ht Hn At) as (V1 & V2 & V3). cbn [fst snd].
  assert (Fr : forall row, In row (r_rows (s_ret s)) -> rr_name row <> nm).
  { intros row Hin Q. enough (existsb (fun row => name_eqb (rr_name row) nm) (r_rows (s_ret s)) = true) by congruence.
    apply existsb_exists. exists row. split; [exact Hin|]. apply name_eqb_eq. exact Q. }
  assert (Z0 : t_retid t = 0).
  { destruct (Z.eq_dec (t_retid t) 0) as [|N]; [assumption|exfalso]. assert (B := ri_tag _ R _ _ Ht).
    destruct (ri_live _ R _ _ _ Ht Hn ltac:(lia)) as (_ & row & Hin & X1 & X2 & _). exact (Fr _ Hin X2). }
  set (row0 := mk_row (r_next (s_ret s)) nm _ (t_count t) None). set (t' := set_attr _ _).
  destruct R as [A B C F G H I J K]. assert (Rg := znth_range _ _ _ Ht).
  assert (Z : forall j w, znth (zset (s_db s) i t') j = Some w -> (j = i /\ w = t') \/ (j <> i /\ znth (s_db s) j = Some w)).
  { intros j w Hu. rewrite znth_zset in Hu. destruct ((i =? j) && (0 <=? i) && (i <? zlen (s_db s))) eqn:Q.
    - injection Hu as <-. left. split; [lia | reflexivity].
    - right. split; [lia | exact Hu]. }
  split.
  - constructor; cbn [s_ret s_db set_ret set_out set_tag set_db r_open r_rows r_next].
    + discriminate.
    + intros row Hr. apply in_app_iff in Hr as [Hr|[<-|[]]]; [specialize (B _ Hr); lia | cbn; lia].
    + rewrite map_app. cbn. apply NoDup_app_one; [exact C|]. intros Hin. apply in_map_iff in Hin as (row & Q & Hin). specialize (B _ Hin). lia.
    + rewrite map_app. cbn. apply NoDup_app_one; [exact F|]. intros Hin. apply in_map_iff in Hin as (row & Q & Hin). exact (Fr _ Hin Q).
    + intros row Hr. apply in_app_iff in Hr as [Hr|[<-|[]]]; [apply G; exact Hr | auto].
    + lia.
    + intros j w Hw. destruct (Z _ _ Hw) as [[-> ->]|[_ Hw']]; [cbn; lia | specialize (I _ _ Hw'); lia].
    + intros j k w v Hw Hv Q P0. destruct (Z _ _ Hw) as [[-> ->]|[N1 Hw']], (Z _ _ Hv) as [[-> ->]|[N2 Hv']]; [reflexivity | | |].
      * cbn in Q. specialize (I _ _ Hv'). lia.
      * cbn in Q. specialize (I _ _ Hw'). lia.
      * eapply J; eassumption.
    + intros j w nm' Hw Hn' P0. destruct (Z _ _ Hw) as [[-> ->]|[N1 Hw']].
      * split; [cbn; rewrite has_set_flag; apply orb_true_r|]. exists row0. split; [apply in_app_iff; right; left; reflexivity|].
        cbn in Hn'. assert (nm' = nm) by congruence. subst nm'. split; [reflexivity|]. split; [reflexivity|]. split; [cbn; lia|].
        split; [|discriminate]. intros Hb. cbn in *. destruct (base_name (s_types s) _ Hb) as [Q1 Q2]. rewrite Q1. destruct (cdt_get_name [] (t_type t)); congruence.
      * destruct (K _ _ _ Hw' Hn' P0) as (K1 & row & K2 & K3). split; [exact K1|]. exists row. split; [apply in_app_iff; left; exact K2 | exact K3].
  - constructor; cbn [s_ret s_db set_ret set_out set_tag set_db r_open r_rows r_next].
    + congruence.
    + intros row Hr. exists row. split; [apply in_app_iff; left; exact Hr | apply row_le_refl].
    + intros j w Hw. destruct (Z.eq_dec j i) as [->|N].
      * assert (w = t) by congruence. subst w. exists t'. rewrite znth_zset_eq by exact Rg. split; [reflexivity|]. split; [reflexivity|].
        split; [intros; lia | left; reflexivity].
      * exists w. rewrite znth_zset_ne by congruence. auto 7 using kept_refl.
Qed.
Lemma rq_app s t : t_retid t = 0 -> rq s (set_db s (s_db s ++ [t])).
Proof.
  intros Q [A B C F G H I J K].
  assert (Z : forall j w, znth (s_db s ++ [t]) j = Some w -> znth (s_db s) j = Some w \/ w = t).
  { intros j w Hw. destruct (Z.lt_ge_cases j (zlen (s_db s))) as [L|L].
    - left. rewrite znth_app1 in Hw by (apply znth_range in Hw; lia). exact Hw.
    - right. assert (Rg := znth_range _ _ _ Hw). rewrite zlen_app in Rg. replace j with (zlen (s_db s)) in Hw by (cbn in Rg; change (zlen [t]) with 1 in Rg; lia).
      rewrite znth_app2, Z.sub_diag in Hw by lia. cbn in Hw. congruence. }
  split; constructor; cbn [s_ret s_db set_db]; try assumption; try reflexivity.
  - intros j w Hw. destruct (Z _ _ Hw) as [Hw' | ->]; [eapply I; exact Hw' | lia].
  - intros j k w v Hw Hv Q1 P0. destruct (Z _ _ Hw) as [Hw' | ->], (Z _ _ Hv) as [Hv' | ->]; [eapply J; eassumption | exfalso; lia ..].
  - intros j w nm Hw Hn P0. destruct (Z _ _ Hw) as [Hw' | ->]; [eapply K; eassumption | lia].
  - eauto using row_le_refl.
  - intros j w Hw. exists w. rewrite znth_app1 by (apply znth_range in Hw; lia). auto 7 using kept_refl.
Qed.
(** memory handed out for new tag slots beyond the first 1024 happens to hold zero retention ids *)
Definition clean_ret (E : env) : Prop := forall i, u32 (en_retid E i) = 0.
Lemma grow_row E st s t d count size nm row : inv_tag (s_types s) t -> t_count t < count -> new_size (s_types s) (t_type t) count = Done size ->
  regrow E st (t_data t) size = (d, true) -> row_of t nm row -> row_of (set_count (set_data t d) count) nm row.
Proof.
  intros I Hc Hs Hg (X1 & X2 & X3 & X4 & X5). split; [exact X1|]. split; [exact X2|]. split; [cbn; lia|]. split; [exact X4|].
  intros x Hx Hb Nb Hl b' Hb'. cbn in Hb', Nb, Hb. change (elem (set_count (set_data t d) count)) with (elem t) in *. cbn in Hl.
  destruct (base_elem (s_types s) t Hb Nb) as [S1 S2].
  assert (E1 : forall c, 0 <= c -> c * elem t < 2147483648 -> new_size (s_types s) (t_type t) c = Done (c * elem t)).
  { intros c C0 C1. unfold new_size. rewrite (proj2 (Z.eqb_neq _ _) Nb), S1. cbn [rbind]. f_equal. unfold u32. rewrite Z.mod_small; nia. }
  assert (Cp := it_count _ _ I).
  rewrite E1 in Hs by lia. injection Hs as <-. unfold regrow in Hg. destruct (count * elem t =? 0); [discriminate|].
  destruct (t_data t) as [|b|q| | |] eqn:D; try (injection Hg as <-; discriminate).
  2:{ destruct (count * elem t <? 24); injection Hg as <-; discriminate. }
  injection Hg as <-. injection Hb' as <-. destruct (X5 _ Hx Hb Nb) with (b := b) as [Y1 Y2]; [nia | exact D|].
  assert (L := it_bytes _ _ I _ D). rewrite E1 in L by nia. injection L as L. split; [|exact Y2].
  assert (Lb : zlen b <= count * elem t) by nia. rewrite (firstn_all2 (n := Z.to_nat (count * elem t)) b) by (unfold zlen in Lb; clear - Lb; revert Lb; generalize (count * elem t); intros; lia). rewrite firstn_app. rewrite <- Y1.
  assert (Lx : (length x <= length b)%nat) by (rewrite Y1; rewrite firstn_length; lia).
  replace (length x - length b)%nat with 0%nat by lia. cbn. rewrite app_nil_r. reflexivity.
Qed.
Lemma tag_add_rq E fd nm type count attr s s' r : clean_ret E -> Inv s -> 0 <= count -> (has attr A_RETAIN = true -> nthb nm 0 <> 95) ->
  tag_add E fd nm type count attr s = Done (s', r) -> rq s s'.
Proof.
  intros CE I Hc Hu H. apply tag_add_cases in H; [|exact I | lia].
  assert (Db : forall s0, (s0 = s \/ exists z, s0 = set_dbsize s z) -> rq s s0) by (intros s0 [->|[z ->]]; [apply rq_refl | apply rq_same; reflexivity]).
  destruct H as [s' r Hr S1 | n t s0 s' u S1 Ht Hnm Hty Hct How Hsa
    | n t s0 d size s1 s' u v S1 Ht Hnm Hty Hct How Hns Hrg Hsa Htw
    | n t s0 d S1 Ht Hnm Hty Hct Hrg Hns
    | s0 s1 s3 s4 s' ix size u v w x S1 Hno Hck Hvn Hcp Hns Hix Hw1 Hw2 Hsa Hw3];
  destruct (set_dbsize_db _ _ S1) as (Edb & _ & _ & _ & Etc & _); apply Db in S1; clear Db.
  - exact S1.
  - eapply rq_trans; [exact S1|]. eapply set_attribute_rq; [|exact Hsa]. intros t0 nm0 Ht0 Hn0 Ha. rewrite Edb in Ht0. assert (t0 = t) by congruence. subst t0.
    assert (nm0 = nm) by congruence. subst nm0. assert (T := iv_tags _ I _ _ Ht). split; [eapply it_name; eassumption|]. split; [auto | apply (it_count _ _ T)].
  - eapply rq_trans; [exact S1|]. rewrite <- Edb in Ht. assert (T : inv_tag (s_types s) t) by (rewrite Edb in Ht; eapply iv_tags; eassumption). subst type.
    eapply rq_trans; [|eapply rq_trans; [|eapply tag_write_rq; exact Htw]; eapply set_attribute_rq; [|exact Hsa]].
    + eapply rq_set_tag_gen; [exact Ht | reflexivity | reflexivity | left; reflexivity |]. intros _ _. cbn. split; [lia|]. split; [lia|]. split; [reflexivity|].
      intros nm0 row. eapply grow_row; eassumption.
    + intros t0 nm0 Ht0 Hn0 Ha. cbn in Ht0. rewrite znth_zset_eq in Ht0 by (eapply znth_range; exact Ht). injection Ht0 as <-. cbn in Hn0.
      assert (nm0 = nm) by congruence. subst nm0. split; [eapply it_name; eassumption|]. split; [auto|]. cbn. assert (Q := it_count _ _ T). lia.
  - eapply rq_trans; [exact S1|]. rewrite <- Edb in Ht. eapply rq_set_tag_gen; [exact Ht | reflexivity | reflexivity | left; reflexivity |].
    intros _ _. unfold regrow in Hrg. cbn in Hrg. injection Hrg as <-. cbn. split; [lia|]. split; [auto|]. split; [reflexivity|].
    intros nm0 row (X1 & X2 & X3 & X4 & X5). split; [exact X1|]. split; [exact X2|]. split; [exact X3|]. split; [exact X4|].
    intros x Hx _ _ _ b' Hb'. discriminate.
  - eapply rq_trans; [exact S1|]. eapply rq_trans; [eapply sys_write_rq; exact Hw1|].
    set (x1 := set_tagcount _ _) in Hw2. set (nt := new_tag E fd (zlen (s_db s)) nm type count size) in *.
    assert (Q1 : rq s1 x1).
    { apply (rq_trans _ (set_db s1 (s_db s1 ++ [nt]))); [|apply rq_same; reflexivity]. apply rq_app. cbn. rewrite CE. destruct (_ <? _); reflexivity. }
    eapply rq_trans; [exact Q1|]. eapply rq_trans; [eapply sys_write_rq; exact Hw2|].
    eapply rq_trans; [|eapply tag_write_rq; exact Hw3]. eapply set_attribute_rq; [|exact Hsa].
    intros t0 nm0 Ht0 Hn0 Ha.
    assert (W1 : wrel s0 s1) by (eapply sys_write_wrel; exact Hw1). assert (W2 : wrel x1 s3) by (eapply sys_write_wrel; exact Hw2).
    assert (L1 : zlen (s_db s1) = zlen (s_db s)) by (rewrite (wr_len _ _ W1), Edb; reflexivity).
    assert (Zx : znth (s_db x1) (zlen (s_db s)) = Some nt).
    { unfold x1. cbn [s_db set_tagcount set_index set_db]. rewrite <- L1. rewrite znth_app2, Z.sub_diag by lia. reflexivity. }
    destruct (wr_tag _ _ W2 _ _ Zx) as (t1 & A & B). assert (t1 = t0) by congruence. subst t1.
    rewrite (wg_name _ _ B) in Hn0. cbn in Hn0. assert (nm0 = nm) by congruence. subst nm0. split; [exact Hvn|]. split; [auto|]. rewrite (wg_count _ _ B). exact Hcp.
Qed.
Lemma module_register_rq E nm fd s s' u : clean_ret E -> Inv s -> module_register E nm fd s = Done (s', u) -> rq s s'.
Proof.
  intros CE I H. unfold module_register in H. inv1 H. inv1 H. inv1 H. inv1 H.
  assert (G : Inv s0 /\ rq s s0).
  { clear H. destruct (find_mod s fd) as [m|] eqn:F; [|inv1 Hm; auto using rq_refl].
    split; [eapply module_unregister_good; eassumption | eapply module_unregister_rq; exact Hm]. }
  destruct G as [I0 T0]. eapply rq_trans; [exact T0|]. clear Hm I T0.
  match type of H with (if _ then _ else _) ?z = _ => set (s1 := z) in * end.
  assert (T1 : rq s0 s1) by (apply rq_same; reflexivity). eapply rq_trans; [exact T1|].
  assert (I1 : Inv s1) by (destruct I0; constructor; assumption).
  clearbody s1. destruct (existsb (fun x => name_eqb x nm) (en_excl E)); [inv1 H; apply rq_refl|].
  inv1 H. inv1 H. destruct v0 as [tn uuid]. inv1 H. inv1 H. inv1 H.
  destruct (v0 <? 0); [discriminate|].
  assert (T2 : rq s1 s2).
  { eapply (rq_trans _ (set_moduuid s1 uuid)); [apply rq_same; reflexivity|].
    eapply tag_add_rq; [exact CE | | | | exact Hm]; [destruct I1; constructor; assumption | lia | discriminate]. }
  eapply rq_trans; [exact T2|]. clear Hm T2 T1. inv_all. rqs.
Qed.
Lemma handle_op_rq E o s s' u : clean_ret E -> Inv s -> handle_op E o s = Done (s', u) -> rq s s'.
Proof.
  intros CE I H. destruct o; cbn [handle_op] in H; unfold with_mod, h_tag_del in H;
    try (clear I CE; inv_all; rqs; fail).
  - inv1 H. eapply rq_trans; [eapply module_register_rq; eassumption|]. clear Hm. inv_all; rqs.
  - inv1 H. eapply rq_trans with (b := s0); [|clear Hm; rqs]. clear H. destruct (nthb nm 0 =? 95) eqn:N5; [inv1 Hm; apply rq_refl|].
    eapply tag_add_rq; [exact CE | exact I | | | exact Hm]; [unfold u32; apply Z.mod_pos_bound; lia | lia].
Qed.
Lemma step_rq E s o s' : clean_ret E -> Inv s -> step E s o = Done s' -> rq s s'.
Proof.
  intros CE I H. unfold step in H. destruct (handle_op E o s) as [[s1 u]|] eqn:Q; [|discriminate]. injection H as <-.
  apply (rq_trans _ s1); [eapply handle_op_rq; eassumption | apply rq_same; reflexivity].
Qed.
Lemma exec_rq E os s s' : clean_ret E -> Inv s -> exec E s os = Done s' -> rq s s'.
Proof.
  intros CE. revert s; induction os as [|o os IH]; intros s I H; cbn in H; [injection H as <-; apply rq_refl|].
  apply rbind_done in H as [s1 [H1 H2]]. eapply rq_trans; [eapply step_rq; eassumption|]. apply IH; [eapply step_good; eassumption | exact H2].
Qed.
(** *** start-up *)
Definition bq (s s' : server) : Prop := Inv s -> RetInv s -> r_open (s_ret s) = false -> Inv s' /\ RetInv s' /\ r_open (s_ret s') = false.
Lemma bq_refl s : bq s s. Proof. intros A B C. auto. Qed.
Lemma bq_trans a b c : bq a b -> bq b c -> bq a c.
Proof. intros F G A B C. destruct (F A B C) as (A1 & B1 & C1). apply G; assumption. Qed.
Lemma bq_rq s s' : good s s' -> rq s s' -> bq s s'.
Proof. intros G K A B C. destruct (K B) as [B1 M]. split; [apply G; exact A|]. split; [exact B1|]. rewrite (rm_open _ _ M). exact C. Qed.
Lemma closed_zero s i t : RetInv s -> r_open (s_ret s) = false -> znth (s_db s) i = Some t -> t_retid t = 0.
Proof. intros R C H. destruct (ri_closed _ R C) as [_ N]. assert (B := ri_tag _ R _ _ H). lia. Qed.
Lemma bq_put s i t t' : znth (s_db s) i = Some t -> t_retid t' = t_retid t -> t_type t' = t_type t -> (t_name t' = t_name t \/ t_name t' = None) ->
  RetInv s -> r_open (s_ret s) = false -> RetInv (set_tag s i t') /\ r_open (s_ret (set_tag s i t')) = false.
Proof.
  intros Ht A B C R Op. split; [|exact Op]. eapply (rq_set_tag s i t t'); try eassumption. intros P. assert (Q := closed_zero _ _ _ R Op Ht). lia.
Qed.
Lemma make_type_bq def : pres bq (make_type def).
Proof.
  intros s s' a H. apply bq_rq; [eapply make_type_good; exact H|]. unfold make_type in H. inv1 H. inv1 H.
  destruct v as [[ts ty] err]. inv_all. apply rq_same; reflexivity.
Qed.
Lemma tag_add_bq E fd nm type count s s' r : clean_ret E -> 0 <= count < 4294967296 -> tag_add E fd nm type count 0 s = Done (s', r) -> bq s s'.
Proof.
  intros CE Hc H A B C. apply (bq_rq s s'); [eapply tag_add_good; [|exact H]; lia | | assumption..].
  eapply tag_add_rq; [exact CE | exact A | | | exact H]; [lia | discriminate].
Qed.
Lemma add_sys_bq E nm ty c : clean_ret E -> 0 < c < 4294967296 -> pres bq (add_sys E nm ty c).
Proof.
  intros CE Hc s s' a H I R Op. assert (Hc' : 0 <= c < 4294967296) by lia. split; [eapply (add_sys_good E nm ty c); eassumption|]. unfold add_sys in H. inv1 H. inv1 H. inv_all.
  destruct (tag_add_bq _ _ _ _ _ _ _ _ CE Hc' Hm I R Op) as (I1 & R1 & O1).
  eapply bq_put; [exact Ht | reflexivity | reflexivity | left; reflexivity | exact R1 | exact O1].
Qed.
Lemma add_virtual_bq E nm ty c d : clean_ret E -> 0 < c < 4294967296 -> d = DTime \/ d = DMyName -> pres bq (add_virtual E nm ty c d).
Proof.
  intros CE Hc Hd s s' a H I R Op. assert (Hc' : 0 <= c < 4294967296) by lia. split; [eapply (add_virtual_good E nm ty c d); eassumption|]. unfold add_virtual in H. inv1 H. inv1 H. inv_all.
  destruct (tag_add_bq _ _ _ _ _ _ _ _ CE Hc' Hm I R Op) as (I1 & R1 & O1).
  eapply bq_put; [exact Ht | reflexivity | reflexivity | left; reflexivity | exact R1 | exact O1].
Qed.
Lemma init_tagbase_bq E : clean_ret E -> pres bq (init_tagbase E).
Proof.
  intros CE s s' a H. unfold init_tagbase in H. repeat inv1 H.
  repeat match goal with
  | Hm : make_type _ ?x = Done (?y, _) |- bq ?x _ => eapply bq_trans; [eapply make_type_bq; exact Hm|]
  | Hm : add_sys _ _ _ _ ?x = Done (?y, _) |- bq ?x _ => eapply bq_trans; [eapply add_sys_bq; [exact CE | |exact Hm]; lia|]
  | Hm : add_virtual _ _ _ _ _ ?x = Done (?y, _) |- bq ?x _ => eapply bq_trans; [eapply add_virtual_bq; [exact CE | | |exact Hm]; [lia | tauto]|]
  | Hm : tag_write _ _ _ _ _ ?x = Done (?y, _) |- bq ?x _ => eapply bq_trans; [apply bq_rq; [apply shape_good; eapply tag_write_shape; exact Hm | eapply tag_write_rq; exact Hm]|]
  end. apply bq_refl.
Qed.
Lemma restore_types_bq l : pres bq (restore_types l).
Proof.
  induction l as [|d l IH]; intros s s' a H; cbn [restore_types] in H; [inv_all; apply bq_refl|].
  inv1 H. eapply bq_trans; [eapply make_type_bq; exact Hm | eapply IH; exact H].
Qed.
Lemma restore_tag_bq E row : clean_ret E -> pres bq (restore_tag E row).
Proof.
  intros CE s s' a H I R Op. split; [eapply (restore_tag_good E row); eassumption|]. unfold restore_tag in H. inv1 H. inv1 H.
  assert (Hc : 0 <= u32 (rr_count row) < 4294967296) by (unfold u32; apply Z.mod_pos_bound; lia).
  destruct (tag_add_bq _ _ _ _ _ _ _ _ CE Hc Hm I R Op) as (I1 & R1 & O1). clear Hm.
  inv_all; try (split; assumption). eapply bq_put; [eassumption | reflexivity | reflexivity | left; reflexivity | exact R1 | exact O1].
Qed.
Lemma restore_tags_bq E l : clean_ret E -> pres bq (restore_tags E l).
Proof.
  intros CE. induction l as [|d l IH]; intros s s' a H; cbn [restore_tags] in H; [inv_all; apply bq_refl|].
  inv1 H. eapply bq_trans; [eapply restore_tag_bq; eassumption | eapply IH; exact H].
Qed.
Lemma RetInv_empty now : RetInv (empty_server now (mk_rdb false [] 1 [])).
Proof.
  assert (N : forall i (t : tag), znth [] i = Some t -> False) by (intros i t H; apply znth_range in H; cbn in H; lia).
  constructor; cbn [empty_server s_db s_ret r_open r_rows r_next map].
  - auto.
  - intros row [].
  - constructor.
  - constructor.
  - intros row [].
  - lia.
  - intros i t H. contradiction (N _ _ H).
  - intros i j t u H. contradiction (N _ _ H).
  - intros i t nm H. contradiction (N _ _ H).
Qed.
Transparent boot.
Lemma boot_ret E now r s : clean_ret E -> boot E now r = Done s -> Inv s /\ RetInv s.
Proof.
  intros CE. unfold boot. match goal with |- match ?m ?x with _ => _ end = _ -> _ => destruct (m x) as [[s1 u]|] eqn:H end; [|discriminate].
  intros K; injection K as <-. inv1 H.
  destruct (init_tagbase_bq _ CE _ _ _ Hm (Inv_empty _ _) (RetInv_empty _) eq_refl) as (I0 & R0 & O0). clear Hm.
  destruct (r_open r); [|inv_all; auto].
  inv1 H. inv1 H. unfold modify in H; injection H as <-.
  destruct (restore_types_bq _ _ _ _ Hm I0 R0 O0) as (I1 & R1 & O1). destruct (restore_tags_bq _ _ CE _ _ _ Hm0 I1 R1 O1) as (I2 & R2 & O2).
  split; [destruct I2; constructor; assumption|].
  assert (Zr := fun i t => closed_zero _ i t R2 O2). destruct (ri_closed _ R2 O2) as [_ Nx].
  constructor; cbn [set_ret s_db s_ret r_open r_rows r_next map].
  - discriminate.
  - intros row [].
  - constructor.
  - constructor.
  - intros row [].
  - lia.
  - intros i t G. rewrite (Zr _ _ G). lia.
  - intros i j t u0 G _ _ P. rewrite (Zr _ _ G) in P. lia.
  - intros i t nm G _ P. rewrite (Zr _ _ G) in P. lia.
Qed.
Opaque boot.
Lemma reachable_ret E s : clean_ret E -> reachable E s -> Inv s /\ RetInv s.
Proof.
  intros CE (now & r & s0 & os & B & H). destruct (boot_ret _ _ _ _ CE B) as [I R]. split; [eapply exec_good; eassumption|].
  eapply exec_rq; eassumption.
Qed.
(** ** restoring *)
Definition zero_slots (E : env) : Prop := forall i, fresh_attr E i = 0 /\ u32 (en_retid E i) = 0.
Lemma zero_clean E : zero_slots E -> clean_ret E.
Proof. intros H i. apply H. Qed.
Lemma tag_add_fresh E fd nm type count s s' r : Inv s -> 11 <= zlen (s_db s) -> ~ exists_tag s nm -> validate_name nm = 0 -> checktype (s_types s) type = true ->
  0 < count < 4294967296 -> tag_add E fd nm type count 0 s = Done (s', r) ->
  exists size, new_size (s_types s) type count = Done size /\ r = zlen (s_db s) /\ znth (s_db s') r = Some (new_tag E fd r nm type count size).
Proof.
  intros I L Nx Vn Ct Hc H.
  assert (P : 0 <= r).
  { unfold tag_add in H. replace (count =? 0) with false in H by lia. inv1 H. inv1 H.
    assert (Q : s0 = s \/ exists z, s0 = set_dbsize s z) by (clear H; destruct (s_dbsize s <=? zlen (s_db s)) in Hm; [unfold put in Hm; injection Hm as <-; right; eexists; reflexivity | apply ret_done in Hm as [-> _]; left; reflexivity]). destruct (set_dbsize_db _ _ Q) as (Edb & Eix & Ety & _).
    inv1 H. rewrite Ety, Ct, Vn in H. cbn [negb Z.eqb] in H. inv1 H. inv1 H. rewrite Eix in Hr0.
    rewrite get_by_name_notin in Hr0; [|apply (iv_sorted _ I)|].
    2:{ intros j Hj. apply (iv_index _ I) in Hj as (t & A & B). apply Nx. exists j, t. split; assumption. }
    injection Hr0 as <-. change (0 <=? E_NOTFOUND) with false in H. cbv iota in H.
    inv1 H. inv1 H. inv1 H. inv1 H. inv1 H. inv1 H. inv1 H. apply ret_done in H as [_ ->]. apply zlen_nonneg. }
  apply tag_add_cases in H; [|exact I | lia].
  destruct H as [s' r Hr S1 | n t s0 s' u S1 Ht Hnm Hty Hct How Hsa
    | n t s0 d size s1 s' u v S1 Ht Hnm Hty Hct How Hns Hrg Hsa Htw
    | n t s0 d S1 Ht Hnm Hty Hct Hrg Hns
    | s0 s1 s3 s4 s' ix size u v w x S1 Hno Hck Hvn Hcp Hns Hix Hw1 Hw2 Hsa Hw3].
  1: lia.
  1-3: exfalso; apply Nx; exists n, t; split; assumption.
  exists size. split; [exact Hns|]. split; [reflexivity|]. destruct (set_dbsize_db _ _ S1) as (Edb & _).
  assert (L1 : zlen (s_db s1) = zlen (s_db s)) by (rewrite (sh_len _ _ (sys_write_shape _ _ _ _ _ _ Hw1)), Edb; reflexivity).
  rewrite (tag_write_others _ _ _ _ _ _ _ _ Hw3) by (unfold IX_ADDED; lia).
  assert (s4 = s3) as ->. { unfold set_attribute in Hsa. cbn in Hsa. destruct (znth (s_db s3) (zlen (s_db s))); [congruence | discriminate]. }
  rewrite (sys_write_others _ _ _ _ _ _ Hw2) by (unfold IX_TAGCOUNT; lia). cbn [s_db set_tagcount set_index set_db].
  rewrite <- L1. rewrite znth_app2, Z.sub_diag by lia. reflexivity.
Qed.
Lemma tag_add_other E fd nm type count attr s s' r j t nj : Inv s -> 0 <= count < 4294967296 -> tag_add E fd nm type count attr s = Done (s', r) ->
  11 <= j -> znth (s_db s) j = Some t -> t_name t = Some nj -> nj <> nm -> znth (s_db s') j = Some t.
Proof.
  intros I Hc H Hj Ht Hn Ne. assert (Ns : ~ status_ix j) by (unfold status_ix, IX_TAGCOUNT, IX_LASTINDEX, IX_ADDED, IX_DELETED; lia).
  assert (H0 := H). apply tag_add_effect in H; [|exact I | exact Hc].
  destruct H as [[Neg _]|[(_ & (u & [U1 U2] & _) & _ & _ & K)|(-> & _ & _ & _ & _ & K)]].
  - apply tag_add_cases in H0; [|exact I | lia].
    destruct H0 as [s' r Hr S1 | n u s0 s' v S1 Hu Hnm | n u s0 d size s1 s' v w S1 Hu Hnm | n u s0 d S1 Hu Hnm | s0 s1 s3 s4 s' ix size u v w x S1].
    + destruct (set_dbsize_db _ _ S1) as (-> & _). exact Ht.
    + apply znth_range in Hu. lia.
    + apply znth_range in Hu. lia.
    + destruct (set_dbsize_db _ _ S1) as (Edb & _). cbn. rewrite Edb, znth_zset_ne; [exact Ht|]. intros ->. congruence.
    + assert (Q := zlen_nonneg (s_db s)). lia.
  - rewrite K; [exact Ht | | exact Ns]. intros ->. congruence.
  - rewrite K; [exact Ht | | exact Ns]. apply znth_range in Ht. lia.
Qed.
Lemma tag_add_names E fd nm type count attr s s' r j t nj : Inv s -> 0 <= count < 4294967296 -> tag_add E fd nm type count attr s = Done (s', r) ->
  named s' j nj t -> nj = nm \/ exists_tag s nj.
Proof.
  intros I Hc H [Ht Hn]. apply tag_add_effect in H; [|exact I | exact Hc].
  assert (Q : name_at s' j = Some nj) by (unfold name_at; rewrite Ht; exact Hn).
  assert (K : name_at s j = Some nj -> exists_tag s nj).
  { intros X. unfold name_at in X. destruct (znth (s_db s) j) as [u|] eqn:Hu; [|discriminate]. exists j, u. split; assumption. }
  destruct H as [(_ & C & _)|[(_ & _ & C & _)|(-> & _ & N & C & _)]].
  - right. apply K. specialize (C j). unfold core_at in C. unfold name_at in *. rewrite Ht in C. destruct (znth (s_db s) j) as [u|]; [|discriminate].
    cbn in C. unfold tcore in C. congruence.
  - right. apply K. rewrite <- C. exact Q.
  - destruct (Z.eq_dec j (zlen (s_db s))) as [->|Nj]; [left; congruence | right; apply K; rewrite <- C; assumption].
Qed.
Lemma restore_tag_other E row s s' u j t nj : Inv s -> restore_tag E row s = Done (s', u) ->
  11 <= j -> znth (s_db s) j = Some t -> t_name t = Some nj -> nj <> rr_name row -> znth (s_db s') j = Some t.
Proof.
  intros I H Hj Ht Hn Ne. unfold restore_tag in H. inv1 H. inv1 H.
  assert (Hc : 0 <= u32 (rr_count row) < 4294967296) by (unfold u32; apply Z.mod_pos_bound; lia).
  assert (K := tag_add_other _ _ _ _ _ _ _ _ _ _ _ _ I Hc Hm Hj Ht Hn Ne).
  assert (Post := tag_add_post _ _ _ _ _ _ _ _ _ I Hc Hm). clear Hm.
  destruct (v <? 0) eqn:Vn; [inv_all; exact K|]. destruct Post as (tp & P1 & P2 & _); [lia|].
  inv_all; try exact K. cbn. rewrite znth_zset_ne; [exact K|]. intros ->. congruence.
Qed.
Lemma restore_tag_names E row s s' u j t nj : Inv s -> restore_tag E row s = Done (s', u) -> named s' j nj t -> nj = rr_name row \/ exists_tag s nj.
Proof.
  intros I H [Ht Hn]. unfold restore_tag in H. inv1 H. inv1 H.
  assert (Hc : 0 <= u32 (rr_count row) < 4294967296) by (unfold u32; apply Z.mod_pos_bound; lia).
  enough (N : name_at s0 j = Some nj).
  { unfold name_at in N. destruct (znth (s_db s0) j) as [w|] eqn:Hw; [|discriminate]. eapply tag_add_names; [exact I | exact Hc | exact Hm | split; eassumption]. }
  clear Hm. assert (N : name_at s' j = Some nj) by (unfold name_at; rewrite Ht; exact Hn).
  inv_all; try exact N. unfold name_at in *. cbn in N. rewrite znth_zset in N. destruct ((v =? j) && (0 <=? v) && (v <? zlen (s_db s0))) eqn:Q; [|exact N].
  assert (v = j) by lia. subst v. match goal with X : znth (s_db s0) j = Some _ |- _ => rewrite X end. exact N.
Qed.
Lemma restore_tag_len E row s s' u : Inv s -> restore_tag E row s = Done (s', u) -> zlen (s_db s) <= zlen (s_db s').
Proof.
  intros I H. unfold restore_tag in H. inv1 H. inv1 H.
  assert (Hc : 0 <= u32 (rr_count row) < 4294967296) by (unfold u32; apply Z.mod_pos_bound; lia).
  assert (K : zlen (s_db s) <= zlen (s_db s0)) by (apply tag_add_effect in Hm; [|exact I | exact Hc]; destruct Hm as [(_ & _ & Q)|[(_ & _ & _ & Q & _)|(_ & _ & _ & _ & Q & _)]]; lia).
  clear Hm. inv_all; try exact K. cbn. rewrite zset_zlen. exact K.
Qed.
Lemma restore_tags_other E l s s' u j t nj : Inv s -> restore_tags E l s = Done (s', u) ->
  11 <= j -> znth (s_db s) j = Some t -> t_name t = Some nj -> ~ In nj (map rr_name l) -> znth (s_db s') j = Some t.
Proof.
  revert s; induction l as [|row l IH]; intros s I H Hj Ht Hn Ni; cbn [restore_tags] in H; [inv_all; exact Ht|].
  inv1 H. cbn in Ni. eapply IH; [eapply restore_tag_good; eassumption | exact H | exact Hj | | exact Hn | tauto].
  eapply restore_tag_other; [exact I | exact Hm | exact Hj | exact Ht | exact Hn |]. intros ->. tauto.
Qed.
(** the row of an ordinary tag recreates it with the stored bytes *)
Lemma base_find ty nm : In ty base_types -> cdt_get_name [] ty = Some nm -> forall ts, cdt_get_type ts nm = ty.
Proof. intros H G ts. cbn in H. repeat (destruct H as [<-|H]; [cbn in G; injection G as <-; reflexivity|]). contradiction. Qed.
Lemma base_check ts ty : In ty base_types -> checktype ts ty = true /\ is_queue ty = false.
Proof. intros H. cbn in H. repeat (destruct H as [<-|H]; [split; reflexivity|]). contradiction. Qed.
(** the bytes a row gives back: the first [n] of its data, or zeros when nothing was ever stored *)
Definition row_value (row : rrow) (n : Z) : list Z := match rr_data row with Some x => firstn (Z.to_nat n) x | None => zeros n end.
Lemma restore_tag_value E row ty s s' u : zero_slots E -> Inv s -> 11 <= zlen (s_db s) -> ~ exists_tag s (rr_name row) -> validate_name (rr_name row) = 0 ->
  In ty base_types -> ty <> T_BOOL -> cdt_get_name [] ty = Some (rr_type row) -> 0 < rr_count row -> rr_count row * (typesize_bits ty / 8) < 2147483648 ->
  (forall x, rr_data row = Some x -> rr_count row * (typesize_bits ty / 8) <= zlen x) -> restore_tag E row s = Done (s', u) ->
  exists t, named s' (zlen (s_db s)) (rr_name row) t /\ t_type t = ty /\ t_count t = rr_count row /\
    stored s' (zlen (s_db s)) (row_value row (rr_count row * (typesize_bits ty / 8))).
Proof.
  intros ZE I L Nx Vn Hb Nb Hg Hc Hl Hz H. unfold restore_tag in H. inv1 H. inv1 H. rewrite (base_find _ _ Hb Hg) in Hm.
  destruct (base_check (s_types s) ty Hb) as [Ck Nq].
  assert (S : forall ts, type_size ts ty = Done (typesize_bits ty / 8) /\ 0 < typesize_bits ty / 8).
  { intros ts. assert (Q := base_elem ts (mk_tag ty 0 0 None 0 0 0 [] None DNull None None 0) Hb Nb). exact Q. }
  set (e := typesize_bits ty / 8) in *. destruct (S (s_types s)) as [S1 S2].
  assert (Hc2 : rr_count row < 4294967296) by nia.
  assert (U : u32 (rr_count row) = rr_count row) by (unfold u32; apply Z.mod_small; lia). rewrite U in Hm.
  assert (Hc3 : 0 < rr_count row < 4294967296) by lia.
  destruct (tag_add_fresh _ _ _ _ _ _ _ _ I L Nx Vn Ck Hc3 Hm) as (size & Hs & -> & Ht). clear Hm.
  unfold new_size in Hs. rewrite (proj2 (Z.eqb_neq _ _) Nb), S1 in Hs. cbn [rbind] in Hs.
  assert (Q : u32 (e * rr_count row) = rr_count row * e) by (unfold u32; rewrite Z.mod_small; nia). rewrite Q in Hs. injection Hs as <-.
  replace (zlen (s_db s) <? 0) with false in H by lia. inv1 H. inv1 H. assert (t = new_tag E (-1) (zlen (s_db s)) (rr_name row) ty (rr_count row) (rr_count row * e)) by congruence. subst t.
  inv1 H. unfold tag_size in Hr. cbn [t_type t_count new_tag] in Hr. rewrite (proj2 (Z.eqb_neq _ _) Nb) in Hr. destruct (S (s_types s0)) as [S3 _]. rewrite S3 in Hr. cbn [rbind] in Hr.
  rewrite s32_small in Hr by nia. injection Hr as <-. 
  unfold row_value. destruct (rr_data row) as [x|] eqn:Hx.
  2:{ apply ret_done in H as [-> _]. eexists. split; [split; [exact Ht | reflexivity]|]. split; [reflexivity|]. split; [reflexivity|].
      eexists. split; [exact Ht|]. split; [cbn [t_attr new_tag]; rewrite Nq, (proj1 (ZE _)); reflexivity|]. cbn [t_data new_tag]. rewrite Nq. reflexivity. }
  specialize (Hz _ eq_refl). cbv zeta in H.
  rewrite Z.min_r in H by nia. assert (P : 0 < e * rr_count row) by nia. replace (e * rr_count row <? 0) with false in H by lia. replace (e * rr_count row =? 0) with false in H by lia.
  cbn [t_data new_tag] in H. rewrite Nq in H. rewrite zlen_zeros in H by nia. replace (e * rr_count row <=? rr_count row * e) with true in H by nia.
  unfold put_tag, modify in H. injection H as <- _.
  set (t' := set_data _ _). assert (Zt : znth (s_db (set_tag s0 (zlen (s_db s)) t')) (zlen (s_db s)) = Some t') by (cbn; apply znth_zset_eq; eapply znth_range; exact Ht).
  exists t'. split; [split; [exact Zt | reflexivity]|]. split; [reflexivity|]. split; [reflexivity|].
  exists t'. split; [exact Zt|]. split; [cbn [t' t_attr set_data new_tag]; rewrite Nq, (proj1 (ZE _)); reflexivity|]. cbn [t' t_data set_data]. f_equal.
  rewrite (Z.mul_comm e). assert (Pn : 0 <= rr_count row * e) by nia. revert Hz Pn. generalize (rr_count row * e). intros n Hz Pn.
  unfold splice. cbn [Z.to_nat Nat.add firstn app]. rewrite skipn_all2; [apply app_nil_r|].
  assert (L1 := zlen_firstn n x). assert (L2 := zlen_zeros n Pn). unfold zlen in *. lia.
Qed.

Lemma restore_tags_value E row ty : zero_slots E -> validate_name (rr_name row) = 0 ->
  In ty base_types -> ty <> T_BOOL -> cdt_get_name [] ty = Some (rr_type row) -> 0 < rr_count row -> rr_count row * (typesize_bits ty / 8) < 2147483648 ->
  (forall x, rr_data row = Some x -> rr_count row * (typesize_bits ty / 8) <= zlen x) ->
  forall l s s' u, Inv s -> 11 <= zlen (s_db s) -> ~ exists_tag s (rr_name row) -> NoDup (map rr_name l) -> In row l -> restore_tags E l s = Done (s', u) ->
  exists i t, named s' i (rr_name row) t /\ t_type t = ty /\ t_count t = rr_count row /\
    stored s' i (row_value row (rr_count row * (typesize_bits ty / 8))).
Proof.
  intros ZE Vn Hb Nb Hg Hc Hl Hz. induction l as [|r0 l IH]; intros s s' u I L Nx Nd Hin H; [destruct Hin|].
  cbn [restore_tags] in H. inv1 H. inversion Nd as [|z zs N1 N2]; subst.
  assert (I0 : Inv s0) by (eapply restore_tag_good; eassumption).
  destruct Hin as [->|Hin].
  - destruct (restore_tag_value _ _ _ _ _ _ ZE I L Nx Vn Hb Nb Hg Hc Hl Hz Hm) as (t & [T1 T2] & T3 & T4 & (t1 & T5 & T6 & T7)).
    assert (t1 = t) by congruence. subst t1.
    assert (Z := restore_tags_other _ _ _ _ _ _ _ _ I0 H L T1 T2 N1).
    exists (zlen (s_db s)), t. split; [split; assumption|]. split; [exact T3|]. split; [exact T4|]. exists t. auto.
  - eapply IH; [exact I0 | | | exact N2 | exact Hin | exact H].
    + assert (Q := restore_tag_len _ _ _ _ _ I Hm). lia.
    + intros (j & t & Q). destruct (restore_tag_names _ _ _ _ _ _ _ _ I Hm Q) as [Q1|Q1]; [|exact (Nx Q1)].
      apply N1. rewrite <- Q1. apply in_map. exact Hin.
Qed.
Lemma restore_types_db l s s' u : restore_types l s = Done (s', u) -> s_db s' = s_db s.
Proof.
  revert s; induction l as [|d l IH]; intros s H; cbn [restore_types] in H; [inv_all; reflexivity|].
  inv1 H. rewrite (IH _ H). unfold make_type in Hm. inv1 Hm. inv1 Hm. destruct v0 as [[ts ty] err]. clear H. inv_all; reflexivity.
Qed.
Lemma init_names E now r s u : init_tagbase E (empty_server now r) = Done (s, u) -> zlen (s_db s) = 11 /\ forall nm, exists_tag s nm -> nthb nm 0 = 95.
Proof.
  assert (H : (match init_tagbase E (empty_server now r) with
     | Done (s, _) => Some (map (fun t => match t_name t with Some n => nthb n 0 | None => 95 end) (s_db s)) | Undef _ => None end) = Some (repeat 95 11)) by (vm_compute; reflexivity).
  intros G. rewrite G in H. clear G.
  apply (f_equal (fun x => match x with Some y => y | None => [] end)) in H. cbv beta iota in H. split.
  - apply (f_equal (@length _)) in H. rewrite map_length, repeat_length in H. unfold zlen. lia.
  - intros nm (i & t & Ht & Hn).
    assert (Q : In (match t_name t with Some n => nthb n 0 | None => 95 end) (repeat 95 11)).
    { rewrite <- H. apply (in_map (fun t => match t_name t with Some n => nthb n 0 | None => 95 end)). eapply znth_In. exact Ht. }
    rewrite Hn in Q. apply repeat_spec in Q. exact Q.
Qed.
Transparent boot.
Lemma boot_value E now r s1 row ty : zero_slots E -> boot E now r = Done s1 -> r_open r = true -> NoDup (map rr_name (r_rows r)) -> In row (r_rows r) ->
  validate_name (rr_name row) = 0 -> nthb (rr_name row) 0 <> 95 ->
  In ty base_types -> ty <> T_BOOL -> cdt_get_name [] ty = Some (rr_type row) -> 0 < rr_count row -> rr_count row * (typesize_bits ty / 8) < 2147483648 ->
  (forall x, rr_data row = Some x -> rr_count row * (typesize_bits ty / 8) <= zlen x) ->
  exists i t, named s1 i (rr_name row) t /\ t_type t = ty /\ t_count t = rr_count row /\
    stored s1 i (row_value row (rr_count row * (typesize_bits ty / 8))).
Proof.
  intros ZE B Op Nd Hin Vn N5 Hb Nb Hg Hc Hl Hz. revert B. unfold boot. rewrite Op.
  match goal with |- match ?m ?x with _ => _ end = _ -> _ => destruct (m x) as [[s2 u]|] eqn:H end; [|discriminate].
  intros B; injection B as <-. inv1 H. rename s into si. destruct (init_names _ _ _ _ _ Hm) as (Q2 & Q3).
  assert (I0 : Inv si) by (eapply (init_tagbase_good E); [exact Hm | apply Inv_empty]). clear Hm. inv1 H. inv1 H. unfold modify in H; injection H as <-.
  assert (I1 : Inv s) by (eapply restore_types_good; eassumption).
  assert (D := restore_types_db _ _ _ _ Hm).
  assert (A1 : 11 <= zlen (s_db s)) by (rewrite D; lia).
  assert (A2 : ~ exists_tag s (rr_name row)) by (intros (j & t & A & A2); rewrite D in A; apply N5, Q3; exists j, t; split; assumption).
  destruct (restore_tags_value E row ty ZE Vn Hb Nb Hg Hc Hl Hz (r_rows r) s s0 v1 I1 A1 A2 Nd Hin Hm0) as (i & t & T1 & T2 & T3 & T4).
  exists i, t. auto.
Qed.
Opaque boot.
(** ** registration *)
(** tag [i] called [nm] has its row in the retention file, and the row has the tag's element count *)
Definition retained (s : server) (i : Z) (nm : name) : Prop :=
  exists t row, named s i nm t /\ In row (r_rows (s_ret s)) /\ rr_id row = t_retid t /\ 0 < t_retid t /\ rr_count row = t_count t.
(** no row for that name yet: the name was not retained since the server started *)
Definition no_row (s : server) (nm : name) : Prop := forall row, In row (r_rows (s_ret s)) -> rr_name row <> nm.
Definition rkeep (s s' : server) : Prop := r_open (s_ret s') = r_open (s_ret s) /\ map rr_name (r_rows (s_ret s')) = map rr_name (r_rows (s_ret s)).
Lemma rkeep_trans a b c : rkeep a b -> rkeep b c -> rkeep a c.
Proof. intros [A B] [C D]. split; congruence. Qed.
Lemma tag_write_rkeep E fd i off d : pres rkeep (tag_write E fd i off d).
Proof.
  intros s s' r H. unfold tag_write in H. inv_all; try (split; reflexivity).
  match goal with C : commit _ _ _ _ _ _ _ = _ |- _ => unfold commit in C; clear - C; inv1 C; destruct (has (t_attr t) A_RETAIN); [|injection C as <- _; split; reflexivity]; inv1 C; injection C as <- _ end.
  unfold ret_tag_write in Hr0. destruct (negb (r_open (s_ret s))); [injection Hr0 as <-; split; reflexivity|]. inv1 Hr0. destruct (t_data _); try discriminate.
  inv1 Hr0. injection Hr0 as <-. split; [reflexivity|]. cbn. rewrite map_map. apply map_ext. intros row. destruct (_ =? _); reflexivity.
Qed.
Lemma sys_write_rkeep E i d : pres rkeep (sys_write E i d).
Proof. intros s s' a H. unfold sys_write in H. inv_all; try (split; reflexivity); eapply tag_write_rkeep; eassumption. Qed.
Lemma no_row_keep s s' nm : rkeep s s' -> no_row s nm -> no_row s' nm.
Proof.
  intros [_ K] N row Hin Q. assert (X : In nm (map rr_name (r_rows (s_ret s')))) by (rewrite <- Q; apply in_map; exact Hin).
  rewrite K in X. apply in_map_iff in X as (r0 & X1 & X2). exact (N _ X2 X1).
Qed.
Lemma set_attribute_row E i attr s s' u t nm : RetInv s -> r_open (s_ret s) = true -> named s i nm t -> no_row s nm -> has attr A_RETAIN = true ->
  set_attribute E i attr s = Done (s', u) ->
  exists t' row, named s' i nm t' /\ t_data t' = t_data t /\ t_type t' = t_type t /\ t_count t' = t_count t /\ has (t_attr t') A_VIRTUAL = has (t_attr t) A_VIRTUAL /\
    In row (r_rows (s_ret s')) /\ rr_id row = t_retid t' /\ 0 < t_retid t' /\ rr_count row = t_count t'.
Proof.
  intros R Op [Ht Hn] N At H. unfold set_attribute in H. rewrite Ht, At in H. inv1 H. injection H as <- _. unfold ret_add_tag in Hr. inv1 Hr.
  rewrite Op, Hn in Hr. cbn [negb] in Hr.
  destruct (existsb (fun row => name_eqb (rr_name row) nm) (r_rows (s_ret s))) eqn:Ex.
  { exfalso. apply existsb_exists in Ex as (row & A & B). apply name_eqb_eq in B. exact (N _ A B). }
  injection Hr as <-. cbn [fst snd]. eexists _, _. split; [split; [cbn; apply znth_zset_eq; eapply znth_range; exact Ht | exact Hn]|].
  cbn. split; [reflexivity|]. split; [reflexivity|]. split; [reflexivity|]. split; [rewrite has_set_flag; apply orb_false_r|].
  split; [apply in_app_iff; right; left; reflexivity|]. cbn. split; [reflexivity|]. split; [|reflexivity]. assert (Q := ri_next _ R). lia.
Qed.
Lemma retained_write s s' i nm : rq s s' -> wrel s s' -> RetInv s -> retained s i nm -> retained s' i nm.
Proof.
  intros Q W R (t & row & [Ht Hn] & H1 & H2 & H3 & H4). destruct (Q R) as [R' M]. destruct (wr_tag _ _ W _ _ Ht) as (t' & A & B).
  destruct (rm_row _ _ M _ H1) as (row' & X1 & L1 & L2 & L3 & L4 & L5). exists t', row'.
  split; [split; [exact A | rewrite (wg_name _ _ B); exact Hn]|]. rewrite (wg_retid _ _ B), (wg_count _ _ B). repeat split; try congruence; assumption.
Qed.
Lemma tag_add_retained E fd nm type count attr s s' r : clean_ret E -> Inv s -> RetInv s -> r_open (s_ret s) = true -> 0 <= count < 4294967296 -> 11 <= zlen (s_db s) ->
  no_row s nm -> has attr A_RETAIN = true -> nthb nm 0 <> 95 -> tag_add E fd nm type count attr s = Done (s', r) -> 0 <= r ->
  retained s' r nm /\ (~ exists_tag s nm -> is_queue type = false -> exists t, znth (s_db s') r = Some t /\ exists n, t_data t = DBytes (zeros n)).
Proof.
  intros CE I R Op Hc L N At N5 H Hr. assert (H0 := H). apply tag_add_cases in H; [|exact I | lia].
  destruct H as [s' r Hr1 S1 | n t s0 s' u S1 Ht Hnm Hty Hct How Hsa
    | n t s0 d size s1 s' u v S1 Ht Hnm Hty Hct How Hns Hrg Hsa Htw
    | n t s0 d S1 Ht Hnm Hty Hct Hrg Hns
    | s0 s1 s3 s4 s' ix size u v w x S1 Hno Hck Hvn Hcp Hns Hix Hw1 Hw2 Hsa Hw3];
  destruct (set_dbsize_db _ _ S1) as (Edb & _ & Ety & Est & Etc & _ & _ & _ & Ert).
  - lia.
  - split; [|intros Nx; exfalso; apply Nx; exists n, t; split; assumption].
    destruct (set_attribute_row E n attr s0 s' u t nm) as (t' & row & A1 & A2 & A3 & A4 & A5 & A6 & A7 & A8 & A9).
    + apply (rq_same s s0); assumption.
    + rewrite Ert. exact Op.
    + split; [rewrite Edb; exact Ht | exact Hnm].
    + intros row. rewrite Ert. apply N.
    + exact At.
    + exact Hsa.
    + exists t', row. auto.
  - split; [|intros Nx; exfalso; apply Nx; exists n, t; split; assumption].
    assert (T : inv_tag (s_types s) t) by (eapply iv_tags; eassumption). subst type.
    set (x0 := set_tag s0 n (set_count (set_data t d) count)) in *.
    assert (Q0 : rq s x0).
    { apply (rq_trans _ s0); [apply rq_same; assumption|]. rewrite <- Edb in Ht. eapply rq_set_tag_gen; [exact Ht | reflexivity | reflexivity | left; reflexivity |].
      intros _ _. cbn. split; [lia|]. split; [lia|]. split; [reflexivity|]. intros nm0 row. eapply grow_row; eassumption. }
    assert (Tn : named x0 n nm (set_count (set_data t d) count)) by (split; [cbn; apply znth_zset_eq; rewrite Edb; eapply znth_range; exact Ht | exact Hnm]).
    destruct (set_attribute_row E n attr x0 s1 u (set_count (set_data t d) count) nm (proj1 (Q0 R))) as (t' & row & A1 & A2 & A3 & A4 & A5 & A6 & A7 & A8 & A9).
    + cbn. rewrite Ert. exact Op.
    + exact Tn.
    + intros row. cbn. rewrite Ert. apply N.
    + exact At.
    + exact Hsa.
    + eapply retained_write; [eapply tag_write_rq; exact Htw | eapply tag_write_wrel; exact Htw | | exists t', row; auto].
      eapply (set_attribute_rq E n attr x0 s1 u); [|exact Hsa | exact (proj1 (Q0 R))].
      intros t1 nm1 B1 B2 _. destruct Tn as [C1 C2]. assert (t1 = set_count (set_data t d) count) by congruence. subst t1. assert (nm1 = nm) by congruence. subst nm1.
      split; [eapply it_name; [exact T | exact Hnm]|]. split; [exact N5|]. assert (Q := it_count _ _ T). cbn. lia.
  - change E_ALLOC with (-1) in Hr || unfold E_ALLOC in Hr; lia.
  - set (x1 := set_tagcount _ _) in Hw2. set (nt := new_tag E fd (zlen (s_db s)) nm type count size) in *.
    assert (Q1 : rq s s1) by (apply (rq_trans _ s0); [apply rq_same; assumption | eapply sys_write_rq; exact Hw1]).
    assert (Q2 : rq s x1).
    { apply (rq_trans _ s1); [exact Q1|]. apply (rq_trans _ (set_db s1 (s_db s1 ++ [nt]))); [|apply rq_same; reflexivity]. apply rq_app. cbn. rewrite CE. destruct (_ <? _); reflexivity. }
    assert (Q3 : rq s s3) by (apply (rq_trans _ x1); [exact Q2 | eapply sys_write_rq; exact Hw2]).
    assert (W1 : wrel s0 s1) by (eapply sys_write_wrel; exact Hw1).
    assert (L1 : zlen (s_db s1) = zlen (s_db s)) by (rewrite (wr_len _ _ W1), Edb; reflexivity).
    assert (Zx : znth (s_db x1) (zlen (s_db s)) = Some nt).
    { unfold x1. cbn [s_db set_tagcount set_index set_db]. rewrite <- L1. rewrite znth_app2, Z.sub_diag by lia. reflexivity. }
    assert (Z3 : znth (s_db s3) (zlen (s_db s)) = Some nt) by (rewrite (sys_write_others _ _ _ _ _ _ Hw2) by (unfold IX_TAGCOUNT; lia); exact Zx).
    assert (K3 : rkeep s s3).
    { apply (rkeep_trans _ s1); [apply (rkeep_trans _ s0); [split; rewrite Ert; reflexivity | eapply sys_write_rkeep; exact Hw1]|].
      apply (rkeep_trans _ x1); [split; reflexivity | eapply sys_write_rkeep; exact Hw2]. }
    assert (Nn : named s3 (zlen (s_db s)) nm nt) by (split; [exact Z3 | reflexivity]).
    destruct (set_attribute_row E (zlen (s_db s)) attr s3 s4 w nt nm (proj1 (Q3 R))) as (t' & row & A1 & A2 & A3 & A4 & A5 & A6 & A7 & A8 & A9).
    + rewrite (proj1 K3). exact Op.
    + exact Nn.
    + eapply no_row_keep; [exact K3 | exact N].
    + exact At.
    + exact Hsa.
    + assert (M : may_retain s3 (zlen (s_db s)) attr).
      { intros t1 nm1 B1 B2 _. destruct Nn as [C1 C2]. assert (t1 = nt) by congruence. subst t1. assert (nm1 = nm) by congruence. subst nm1.
        split; [exact Hvn|]. split; [exact N5 | exact Hcp]. }
      split.
      * eapply retained_write; [eapply tag_write_rq; exact Hw3 | eapply tag_write_wrel; exact Hw3 | | exists t', row; auto].
        eapply (set_attribute_rq E (zlen (s_db s)) attr s3 s4 w M Hsa). exact (proj1 (Q3 R)).
      * intros _ Nq. exists t'. split; [rewrite (tag_write_others _ _ _ _ _ _ _ _ Hw3) by (unfold IX_ADDED; lia); apply A1|].
        exists size. rewrite A2. unfold nt, new_tag. cbn [t_data]. rewrite Nq. reflexivity.
Qed.

(** * C60: retained tags survive a restart *)
(** The retention file is [s_ret]; a restart is [boot E' now' (s_ret s)].  It may happen after any request, so
    the theorems speak about every prefix of a run. *)

(** Adding a tag with the RETAIN attribute, under a name that has no row yet, puts it into the file. *)
Theorem C60_registered : forall E s fd nm ty c a s' p,
  clean_ret E -> reachable E s -> r_open (s_ret s) = true -> no_row s nm -> has (u32 a) A_RETAIN = true ->
  step E s (OpTagAdd fd nm ty c a) = Done s' -> answered s s' (OResp fd MSG_TAG_ADD p) ->
  exists i, p = le_bytes 4 i /\ retained s' i nm /\
    (~ exists_tag s nm -> is_queue (u32 ty) = false -> exists t n, named s' i nm t /\ t_type t = u32 ty /\ t_data t = DBytes (zeros n)).
Proof.
  intros E s fd nm ty c a s' p CE R Op N At H A. destruct (reachable_ret _ _ CE R) as [I RI].
  assert (L := SysInv_len _ _ (reachable_sys _ _ R)).
  apply step_inv in H as (s1 & u & H & ->). apply h_tag_add_effect in H as [[_ ->]|(U & s2 & r & Ha & ->)].
  { assert (Q := answered_fun _ _ _ _ A (answered_step _ _ _ _ (answered_err _ _ _ _ _ (evout_refl s)))). discriminate. }
  assert (EO := tag_add_evout _ _ _ _ _ _ _ _ _ Ha). destruct (r <? 0) eqn:Neg.
  { assert (Q := answered_fun _ _ _ _ A (answered_step _ _ _ _ (answered_err _ _ _ _ _ EO))). discriminate. }
  assert (W : answered s (set_step (set_out s2 (s_out s2 ++ [OResp fd MSG_TAG_ADD (le_bytes 4 r)])) (s_step s2 + 1)) (OResp fd MSG_TAG_ADD (le_bytes 4 r))) by apply answered_step, answered_resp, EO.
  pose proof (answered_fun _ _ _ _ A W) as Q. injection Q as ->. exists r. split; [reflexivity|].
  assert (Hr : 0 <= r) by lia.
  destruct (tag_add_retained E fd nm (u32 ty) (u32 c) (u32 a) s s2 r CE I RI Op (u32_range c) L N At U Ha Hr) as [X1 X2].
  split; [exact X1|]. intros Nx Nq. destruct (X2 Nx Nq) as (t & T1 & n & T2). exists t, n.
  destruct X1 as (t' & row & [T3 T4] & _). assert (t' = t) by congruence. subst t'. split; [split; assumption|]. split; [|exact T2].
  destruct (tag_add_post _ _ _ _ _ _ _ _ _ I (u32_range c) Ha Hr) as (t' & P1 & _ & P2 & _). assert (t' = t) by congruence. subst t'. exact P2.
Qed.

(** Whatever happens afterwards, if the tag still exists with its size and has been changed since (or was
    all zeros), a restart brings it back with the bytes it had. *)
Theorem C60_restart_partial : forall E E' s1 os s2 now s3 i nm t1 t2 b1 b,
  clean_ret E -> zero_slots E' -> reachable E s1 -> r_open (s_ret s1) = true ->
  retained s1 i nm -> named s1 i nm t1 -> t_data t1 = DBytes b1 ->
  exec E s1 os = Done s2 -> named s2 i nm t2 -> t_data t2 = DBytes b ->
  t_count t2 = t_count t1 -> In (t_type t1) base_types -> t_type t1 <> T_BOOL ->
  t_count t1 * (typesize_bits (t_type t1) / 8) < 2147483648 ->
  (b <> b1 \/ b1 = zeros (zlen b1)) ->
  boot E' now (s_ret s2) = Done s3 ->
  exists j t3, named s3 j nm t3 /\ t_type t3 = t_type t2 /\ t_count t3 = t_count t2 /\ stored s3 j b.
Proof.
  intros E E' s1 os s2 now s3 i nm t1 t2 b1 b CE ZE R Op (t1' & row & [N1 N2] & Hin & Hid & Hp & Hrc) [N3 N4] D1 X [N5 N6] D2 Hc Hb Nb Hl Hch B.
  assert (t1' = t1) by congruence. subst t1'.
  destruct (reachable_ret _ _ CE R) as [I RI]. destruct (exec_rq _ _ _ _ CE I X RI) as [RI2 M].
  assert (R2 : reachable E s2) by (eapply reachable_exec; eassumption). assert (I2 := reachable_Inv _ _ R2).
  destruct (rm_tag _ _ M _ _ N1) as (t2' & T1 & T2 & T3 & T4). assert (t2' = t2) by congruence. subst t2'. destruct (T3 Hp) as [T5 T6].
  destruct (rm_row _ _ M _ Hin) as (row2 & Hin2 & L1 & L2 & L3 & L4 & L5).
  destruct (ri_live _ RI2 _ _ _ N5 N6) as (_ & row' & Hin' & O1 & O2 & O3 & O4 & O5); [lia|].
  assert (row' = row2) by (eapply (NoDup_map_inj rr_id); [apply (ri_uniq _ RI2) | assumption | assumption | congruence]). subst row'.
  assert (Nz : rr_count row2 = t_count t2) by congruence. rewrite <- T2 in Hb, Nb, Hl.
  destruct (base_elem (s_types s2) t2 Hb Nb) as [S1 S2]. unfold elem in S1, S2.
  set (e := typesize_bits (t_type t2) / 8) in *.
  assert (Zb : zlen b = t_count t2 * e).
  { assert (Q := it_bytes _ _ (iv_tags _ I2 _ _ N5) _ D2). unfold new_size in Q. rewrite (proj2 (Z.eqb_neq _ _) Nb), S1 in Q. cbn [rbind] in Q.
    apply (f_equal (fun r => match r with Done x => x | Undef _ => 0 end)) in Q; cbv beta iota in Q. rewrite <- Q, Z.mul_comm. unfold u32. apply Z.mod_small.
    assert (C := it_count _ _ (iv_tags _ I2 _ _ N5)). nia. }
  destruct (ri_valid _ RI2 _ Hin2) as [V1 V2].
  destruct (boot_value E' now (s_ret s2) s3 row2 (t_type t2)) as (j & t3 & J1 & J2 & J3 & J4); try assumption.
  - rewrite (rm_open _ _ M). exact Op.
  - apply (ri_names _ RI2).
  - apply O4. exact Hb.
  - lia.
  - fold e. rewrite Nz. rewrite Hc. exact Hl.
  - fold e. intros x Hx. apply (O5 _ Hx Hb Nb) in D2 as [_ Q]; [exact Q|]. rewrite Hc. exact Hl.
  - exists j, t3. rewrite O2 in J1. split; [exact J1|]. split; [exact J2|]. split; [congruence|].
    fold e in J4. rewrite Nz in J4. replace b with (row_value row2 (t_count t2 * e)); [exact J4|]. unfold row_value. destruct (rr_data row2) as [x|] eqn:Dx.
    + destruct (O5 _ eq_refl Hb Nb) with (b := b) as [Q1 Q2]; [fold (elem t2) in e; rewrite Hc; exact Hl | exact D2|].
      unfold elem in Q2. fold e in Q2. rewrite Nz, <- Zb in Q2. rewrite <- Zb.
      assert (Lx : (length x <= length b)%nat) by (rewrite Q1, firstn_length; lia).
      rewrite Q1. rewrite firstn_all2 with (l := b) by (unfold zlen in Q2; lia). apply firstn_all2. unfold zlen; lia.
    + assert (Eb : b = b1).
      { destruct T6 as [_ T7]; [congruence|]. destruct (T7 Hc) as [Q|[Q|(r0 & Q1 & Q2 & Q3)]].
        - unfold bytes_of in Q. rewrite D1, D2 in Q. congruence.
        - unfold bytes_of in Q. rewrite D2 in Q. discriminate.
        - exfalso. apply Q3. replace r0 with row2; [exact Dx|]. eapply (NoDup_map_inj rr_id); [apply (ri_uniq _ RI2) | assumption | assumption | congruence]. }
      destruct Hch as [Hch|Hch]; [contradiction|]. rewrite <- Zb, Eb. symmetry. exact Hch.
Qed.

(** A tag created with the RETAIN attribute under a name that has no row: as long as it exists with its size
    every restart brings back the bytes it holds, written or not. *)
Theorem C60_created_partial : forall E E' s fd nm ty c a s1 p os s2 now s3 i t1 t2 b,
  clean_ret E -> zero_slots E' -> reachable E s -> r_open (s_ret s) = true -> no_row s nm -> ~ exists_tag s nm ->
  has (u32 a) A_RETAIN = true -> In (u32 ty) base_types -> u32 ty <> T_BOOL ->
  step E s (OpTagAdd fd nm ty c a) = Done s1 -> answered s s1 (OResp fd MSG_TAG_ADD p) -> named s1 i nm t1 ->
  t_count t1 * (typesize_bits (t_type t1) / 8) < 2147483648 ->
  exec E s1 os = Done s2 -> named s2 i nm t2 -> t_data t2 = DBytes b -> t_count t2 = t_count t1 ->
  boot E' now (s_ret s2) = Done s3 ->
  exists j t3, named s3 j nm t3 /\ t_type t3 = u32 ty /\ t_count t3 = t_count t2 /\ stored s3 j b.
Proof.
  intros E E' s fd nm ty c a s1 p os s2 now s3 i t1 t2 b CE ZE R Op N Nx At Hb Nb H A N1 Hl X N2 D2 Hc B.
  assert (Nq : is_queue (u32 ty) = false) by (unfold base_types in Hb; cbn [In] in Hb; repeat (destruct Hb as [<-|Hb]; [reflexivity|]); contradiction).
  destruct (C60_registered E s fd nm ty c a s1 p CE R Op N At H A) as (i' & _ & Rt & Z0). destruct (Z0 Nx Nq) as (t' & n & N3 & Ty & D1).
  assert (R1 := reachable_step _ _ _ _ R H).
  assert (i' = i) by (eapply (C01_unique_names E s1 i' i nm); [exact R1 | exact N3 | exact N1]). subst i'.
  assert (t' = t1) by (destruct N1, N3; congruence). subst t'.
  destruct (reachable_ret _ _ CE R) as [I RI].
  assert (Op1 : r_open (s_ret s1) = true) by (destruct (step_rq _ _ _ _ CE I H RI) as [_ M]; rewrite (rm_open _ _ M); exact Op).
  assert (T2 : t_type t2 = t_type t1).
  { destruct (reachable_ret _ _ CE R1) as [I1 RI1]. destruct (exec_rq _ _ _ _ CE I1 X RI1) as [_ M]. destruct N1 as [N1 _], N2 as [N2 _].
    destruct (rm_tag _ _ M _ _ N1) as (t' & T1 & T2 & _). congruence. }
  rewrite <- Ty in Hb, Nb |- *. rewrite <- T2 in |- *.
  apply (C60_restart_partial E E' s1 os s2 now s3 i nm t1 t2 (zeros n) b); try assumption. right.
  assert (0 <= n \/ n < 0) as [Q|Q] by lia; [rewrite zlen_zeros by exact Q; reflexivity|].
  replace (zeros n) with (@nil Z); [reflexivity|]. unfold zeros. replace (Z.to_nat n) with 0%nat by lia. reflexivity.
Qed.

(** ** examples and the ways a retained value is lost *)
Definition lookup (s : server) (nm : name) : option (Z * Z * tdata) :=
  match find (fun t => match t_name t with Some n => name_eqb n nm | None => false end) (s_db s) with
  | Some t => Some (t_type t, t_count t, t_data t)
  | None => None
  end.
(** type, number of elements and bytes of the tag [nm], before and after a restart (and a second one) *)
Definition reboot (s : server) : server := match boot env0 2000 (s_ret s) with Done s' => s' | Undef _ => empty_server 0 empty_ret end.
Definition ret_ops : list op := [OpRegister 5 (str "alpha"); OpTagAdd 5 (str "kept") T_INT 3 A_RETAIN; OpWrite 5 12 2 [7; 8]].
Definition ret_state : server := after_ops env0 ret_ops.
Lemma ret_reachable : reachable env0 ret_state.
Proof. apply after_reachable. vm_compute. reflexivity. Qed.
Lemma env0_zero : zero_slots env0.
Proof. intros i. split; [unfold fresh_attr; destruct (_ <? _); reflexivity | reflexivity]. Qed.

(** the theorem at work: a tag created, partly written, and restored by a restart *)
Example C60_created_ex :
  let s := after_ops env0 [OpRegister 5 (str "alpha")] in
  let s1 := after_ops env0 [OpRegister 5 (str "alpha"); OpTagAdd 5 (str "kept") T_INT 3 A_RETAIN] in
  reachable env0 s /\ r_open (s_ret s) = true /\ r_rows (s_ret s) = [] /\ lookup s (str "kept") = None /\
  lookup s1 (str "kept") = Some (T_INT, 3, DBytes [0; 0; 0; 0; 0; 0]) /\ map rr_name (r_rows (s_ret s1)) = [str "kept"] /\
  lookup ret_state (str "kept") = Some (T_INT, 3, DBytes [0; 0; 7; 8; 0; 0]) /\
  lookup (reboot ret_state) (str "kept") = Some (T_INT, 3, DBytes [0; 0; 7; 8; 0; 0]).
Proof.
  cbv zeta. split; [apply after_reachable; vm_compute; reflexivity|]. repeat (split; [vm_compute; reflexivity|]). vm_compute. reflexivity.
Qed.
(** C60 fails: the restored tag is not retained any more, so the second restart loses it *)
Theorem C60_second_refuted :
  lookup (reboot ret_state) (str "kept") = Some (T_INT, 3, DBytes [0; 0; 7; 8; 0; 0]) /\ lookup (reboot (reboot ret_state)) (str "kept") = None.
Proof. split; vm_compute; reflexivity. Qed.
(** C60 fails: values written after the first restart are lost as well, even if the tag is added again without the attribute *)
Theorem C60_rewritten_refuted : exists s,
  exec env0 (reboot ret_state) [OpRegister 5 (str "alpha"); OpTagAdd 5 (str "kept") T_INT 3 0; OpWrite 5 11 2 [9; 9]] = Done s /\
  lookup s (str "kept") = Some (T_INT, 3, DBytes [0; 0; 9; 9; 0; 0]) /\ lookup (reboot s) (str "kept") = None.
Proof.
  destruct (exec env0 (reboot ret_state) [OpRegister 5 (str "alpha"); OpTagAdd 5 (str "kept") T_INT 3 0; OpWrite 5 11 2 [9; 9]]) as [s|] eqn:H; [|exfalso; revert H; vm_compute; discriminate].
  exists s. split; [reflexivity|].
  assert (Q : match exec env0 (reboot ret_state) [OpRegister 5 (str "alpha"); OpTagAdd 5 (str "kept") T_INT 3 0; OpWrite 5 11 2 [9; 9]] with
    Done s => lookup s (str "kept") = Some (T_INT, 3, DBytes [0; 0; 9; 9; 0; 0]) /\ lookup (reboot s) (str "kept") = None | _ => False end) by (vm_compute; split; reflexivity).
  rewrite H in Q. exact Q.
Qed.
(** C60 fails: a BOOL tag comes back with all bits zero *)
Theorem C60_bool_refuted :
  let s := after_ops env0 [OpRegister 5 (str "alpha"); OpTagAdd 5 (str "flag") T_BOOL 8 A_RETAIN; OpWrite 5 12 0 [255]] in
  reachable env0 s /\ lookup s (str "flag") = Some (T_BOOL, 8, DBytes [255; 0]) /\ lookup (reboot s) (str "flag") = Some (T_BOOL, 8, DBytes [0; 0]).
Proof. cbv zeta. split; [apply after_reachable; vm_compute; reflexivity|]. split; vm_compute; reflexivity. Qed.
(** C60 fails: a deleted tag comes back *)
Theorem C60_deleted_refuted :
  let s := after_ops env0 (ret_ops ++ [OpTagDel 5 12]) in
  reachable env0 s /\ lookup s (str "kept") = None /\ lookup (reboot s) (str "kept") = Some (T_INT, 3, DBytes [0; 0; 7; 8; 0; 0]).
Proof. cbv zeta. split; [apply after_reachable; vm_compute; reflexivity|]. split; vm_compute; reflexivity. Qed.
(** C60 fails: a tag deleted and created again keeps its old row; nothing written to the new tag is stored *)
Theorem C60_recreated_refuted :
  let s := after_ops env0 (ret_ops ++ [OpTagDel 5 12; OpTagAdd 5 (str "kept") T_INT 3 A_RETAIN; OpWrite 5 13 0 [1; 2; 3; 4; 5; 6]]) in
  reachable env0 s /\ lookup s (str "kept") = Some (T_INT, 3, DBytes [1; 2; 3; 4; 5; 6]) /\ lookup (reboot s) (str "kept") = Some (T_INT, 3, DBytes [0; 0; 7; 8; 0; 0]).
Proof. cbv zeta. split; [apply after_reachable; vm_compute; reflexivity|]. split; vm_compute; reflexivity. Qed.
(** C60 fails: a tag that was made longer comes back with its old length *)
Theorem C60_resized_refuted :
  let s := after_ops env0 (ret_ops ++ [OpTagAdd 5 (str "kept") T_INT 4 A_RETAIN; OpWrite 5 12 0 [1; 2; 3; 4; 5; 6; 7; 8]]) in
  reachable env0 s /\ lookup s (str "kept") = Some (T_INT, 4, DBytes [1; 2; 3; 4; 5; 6; 7; 8]) /\ lookup (reboot s) (str "kept") = Some (T_INT, 3, DBytes [1; 2; 3; 4; 5; 6]).
Proof. cbv zeta. split; [apply after_reachable; vm_compute; reflexivity|]. split; vm_compute; reflexivity. Qed.
(** C60 fails: a tag that gets the attribute after it was written comes back as zeros unless it is written again *)
Theorem C60_late_refuted :
  let s := after_ops env0 [OpRegister 5 (str "alpha"); OpTagAdd 5 (str "kept") T_INT 1 0; OpWrite 5 12 0 [7; 8]; OpTagAdd 5 (str "kept") T_INT 1 A_RETAIN] in
  reachable env0 s /\ lookup s (str "kept") = Some (T_INT, 1, DBytes [7; 8]) /\ map rr_name (r_rows (s_ret s)) = [str "kept"] /\
  lookup (reboot s) (str "kept") = Some (T_INT, 1, DBytes [0; 0]).
Proof. cbv zeta. split; [apply after_reachable; vm_compute; reflexivity|]. split; [vm_compute; reflexivity|]. split; vm_compute; reflexivity. Qed.
(** the hypotheses of [C60_restart_partial] hold of that run *)
Example C60_restart_ex : reachable env0 ret_state /\ r_open (s_ret ret_state) = true /\ retained ret_state 12 (str "kept") /\
  exists t, named ret_state 12 (str "kept") t /\ t_data t = DBytes [0; 0; 7; 8; 0; 0] /\ In (t_type t) base_types /\ t_type t <> T_BOOL.
Proof.
  split; [exact ret_reachable|]. split; [vm_compute; reflexivity|].
  assert (Q : match znth (s_db ret_state) 12, r_rows (s_ret ret_state) with
    | Some t, row :: _ => t_name t = Some (str "kept") /\ rr_id row = t_retid t /\ (0 <? t_retid t) = true /\ rr_count row = t_count t /\
        t_data t = DBytes [0; 0; 7; 8; 0; 0] /\ t_type t = T_INT | _, _ => False end).
  { vm_compute. repeat split. }
  destruct (znth (s_db ret_state) 12) as [t|] eqn:Ht; [|contradiction]. destruct (r_rows (s_ret ret_state)) as [|row l] eqn:Hr; [contradiction|].
  destruct Q as (Q1 & Q2 & Q3 & Q4 & Q5 & Q6). split.
  - exists t, row. split; [split; assumption|]. split; [rewrite Hr; left; reflexivity|]. split; [exact Q2|]. split; [lia | exact Q4].
  - exists t. split; [split; assumption|]. split; [exact Q5|]. rewrite Q6. split; [cbn; tauto | discriminate].
Qed.
