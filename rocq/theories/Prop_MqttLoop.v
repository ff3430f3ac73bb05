(** * Prop_MqttLoop: C90 (connecting again), C91 (subscriptions are in force),
    C92 (publishers become active) *)
From Verif Require Import Base Const Lib Mqtt.

Lemma cycles_app : forall a b z, cycles (a ++ b) z = match cycles a z with Done z' => cycles b z' | Undef u => Undef u end.
Proof. induction a as [|c a IH]; intros b z; [reflexivity|]. cbn [cycles app]. destruct (cycle c z); cbn [rbind]; auto. Qed.

(** ** The parts of a cycle that matter for the connection *)
Lemma try_subs_keep c z z' : try_subs c z = Done z' ->
  z_pubs z' = z_pubs z /\ z_conn z' = z_conn z /\ z_cycle z' = z_cycle z /\ z_every z' = z_every z /\ z_badp z' = z_badp z /\ z_tries z' = z_tries z.
Proof.
  unfold try_subs. destruct (_ && _); [|intros [= <-]; auto 10]. destruct (setup_subs _ _ _) as [[[us b] ses]|]; [|discriminate].
  cbn. intros [= <-]. cbn. auto 10.
Qed.
Lemma try_pubs_keep c z : z_subs (try_pubs c z) = z_subs z /\ z_conn (try_pubs c z) = z_conn z /\ z_cycle (try_pubs c z) = z_cycle z /\
  z_every (try_pubs c z) = z_every z /\ z_bads (try_pubs c z) = z_bads z /\ z_ses (try_pubs c z) = z_ses z /\ z_tries (try_pubs c z) = z_tries z.
Proof. unfold try_pubs. destruct (_ && _); [|auto 10]. destruct (setup_pubs _ _). cbn. auto 10. Qed.
Lemma cycle_conn c z z' : cycle c z = Done z' -> let z1 := try_connect c z in
  z_conn z' = z_conn z1 && negb (c_lost c) /\ z_cycle z' = u32 (z_cycle z1 + 1) /\ z_every z' = z_every z1 /\ z_tries z' = z_tries z1.
Proof.
  unfold cycle. intros H. destruct (try_subs c (try_connect c z)) as [z2|] eqn:Q; [|discriminate]. cbn in H. injection H as <-.
  apply try_subs_keep in Q as (A1 & A2 & A3 & A4 & A5 & A6). destruct (try_pubs_keep c z2) as (B1 & B2 & B3 & B4 & B5 & B6 & B7).
  unfold wait. cbn. rewrite B2, B3, B4, B7, A2, A3, A4, A6. auto.
Qed.

Definition sound (z : mst) : Prop := 0 <= z_cycle z < 4294967296 /\ 1 <= z_every z <= 60.
Lemma sound_cycle c z z' : sound z -> cycle c z = Done z' -> sound z'.
Proof.
  intros [S1 S2] H. apply cycle_conn in H as (_ & H2 & H3 & _). unfold sound. rewrite H2, H3. split; [unfold u32; lia|].
  unfold try_connect. destruct (_ && _); [|exact S2]. destruct (c_connect c); cbn; [lia|]. unfold u32.
  destruct (60 <? _) eqn:Q; lia.
Qed.
Lemma sound_cycles : forall cs z z', sound z -> cycles cs z = Done z' -> sound z'.
Proof.
  induction cs as [|c cs IH]; intros z z' S H; cbn in H; [injection H as <-; exact S|].
  destruct (cycle c z) as [z1|] eqn:Q; [|discriminate]. cbn in H. eapply IH; [|exact H]. eapply sound_cycle; eauto.
Qed.
Lemma sound0 us vs : sound (mst0 us vs).
Proof. unfold sound. cbn. lia. Qed.
Lemma tries_up c z z' : cycle c z = Done z' -> z_tries z <= z_tries z'.
Proof. intros H. apply cycle_conn in H as (_ & _ & _ & ->). unfold try_connect. destruct (_ && _); [|lia]. destruct (c_connect c); cbn; lia. Qed.
Lemma tries_ups : forall cs z z', cycles cs z = Done z' -> z_tries z <= z_tries z'.
Proof.
  induction cs as [|c cs IH]; intros z z' H; cbn in H; [injection H as <-; lia|].
  destruct (cycle c z) as [z1|] eqn:Q; [|discriminate]. cbn in H. apply tries_up in Q. apply IH in H. lia.
Qed.

(** ** C90 *)
Lemma waits : forall n cs z z', Z.of_nat n = z_every z - z_cycle z -> sound z -> z_conn z = false -> (n < length cs)%nat -> cycles cs z = Done z' -> z_tries z < z_tries z'.
Proof.
  induction n as [|n IH]; intros cs z z' N S C L H; (destruct cs as [|c cs]; [cbn in L; lia|]); cbn in H; (destruct (cycle c z) as [z1|] eqn:Q; [|discriminate]); cbn in H.
  - apply tries_ups in H. apply cycle_conn in Q as (_ & _ & _ & Q). unfold try_connect in Q. rewrite C in Q. cbn [negb andb] in Q.
    replace (z_every z <=? z_cycle z) with true in Q by lia. destruct (c_connect c); cbn in Q; lia.
  - assert (S1 := sound_cycle _ _ _ S Q). apply cycle_conn in Q as (Q1 & Q2 & Q3 & Q4). destruct S as [SA SB]. unfold try_connect in *. rewrite C in *. cbn [negb andb] in *.
    replace (z_every z <=? z_cycle z) with false in * by lia. cbv iota in *. rewrite <- Q4. cbn in L. apply (IH cs z1 z'); [|exact S1| |lia|exact H]; [unfold u32 in Q2; lia | rewrite Q1, C; reflexivity].
Qed.
(** The module never gives up: whatever has happened, an unconnected module tries
    to connect at least once in 61 cycles *)
Theorem C90_retries : forall us vs cs0 z cs z', cycles cs0 (mst0 us vs) = Done z -> z_conn z = false ->
  (60 < length cs)%nat -> cycles cs z = Done z' -> z_tries z < z_tries z'.
Proof.
  intros us vs cs0 z cs z' H C L H'. assert (S := sound_cycles _ _ _ (sound0 us vs) H). destruct (Z.le_gt_cases (z_every z) (z_cycle z)) as [Q|Q].
  - destruct cs as [|c cs]; [cbn in L; lia|]. cbn in H'. destruct (cycle c z) as [z1|] eqn:Q1; [|discriminate]. cbn in H'.
    apply tries_ups in H'. apply cycle_conn in Q1 as (_ & _ & _ & Q1). unfold try_connect in Q1. rewrite C in Q1. cbn [negb andb] in Q1.
    replace (z_every z <=? z_cycle z) with true in Q1 by lia. destruct (c_connect c); cbn in Q1; lia.
  - eapply (waits (Z.to_nat (z_every z - z_cycle z))); [lia|exact S|exact C| |exact H']. destruct S as [S1 S2]. lia.
Qed.
(** It waits longer after each refusal: an attempt after [e] cycles is followed by
    one after 2 [e], at most 60 *)
Theorem C90_pause : forall us vs cs0 z c z1, cycles cs0 (mst0 us vs) = Done z -> z_conn z = false -> c_connect c = false ->
  cycle c z = Done z1 -> z_tries z < z_tries z1 ->
  z_every z1 = Z.min 60 (2 * z_every z) /\
  forall cs z2, Z.of_nat (length cs) < z_every z1 -> cycles cs z1 = Done z2 -> z_tries z2 = z_tries z1 /\ z_conn z2 = false.
Proof.
  intros us vs cs0 z c z1 H C CC H1 T. destruct (sound_cycles _ _ _ (sound0 us vs) H) as [S1 S2].
  assert (S' : sound z1) by (eapply sound_cycle; [split; eassumption|exact H1]).
  apply cycle_conn in H1 as (A1 & A2 & A3 & A4). unfold try_connect in *. rewrite C, CC in *. cbn [negb andb] in *.
  destruct (z_every z <=? z_cycle z) eqn:Q; [|lia]. cbv zeta in *. cbn [z_conn z_cycle z_every z_tries andb] in A1, A2, A3, A4. split.
  - rewrite A3. unfold u32. rewrite Z.mod_small by lia. clear. destruct (60 <? _) eqn:R; lia.
  - assert (X : z_cycle z1 = 1) by exact A2. clear - S' X A1.
    assert (G : forall cs z z2, sound z -> z_conn z = false -> z_cycle z + Z.of_nat (length cs) <= z_every z -> cycles cs z = Done z2 ->
              z_tries z2 = z_tries z /\ z_conn z2 = false).
    { induction cs as [|c cs IH]; intros z z2 S C L H; cbn in H; [injection H as <-; auto|].
      destruct (cycle c z) as [z3|] eqn:Q; [|discriminate]. cbn in H. assert (S3 := sound_cycle _ _ _ S Q). destruct S as [SA SB].
      apply cycle_conn in Q as (B1 & B2 & B3 & B4). cbn [length] in L.
      unfold try_connect in *. rewrite C in *. cbn [negb andb] in *. replace (z_every z <=? z_cycle z) with false in * by lia. cbv iota in *.
      destruct (IH z3 z2 S3) as [I1 I2]; [rewrite B1, C; reflexivity | unfold u32 in B2; lia | exact H|]. split; [congruence|exact I2]. }
    intros cs z2 L H. apply (G cs z1 z2 S' A1); [lia|exact H].
Qed.
(** A connection ends the waiting: when it is lost (within 2^32 cycles) the next
    cycle tries again at once, however long the pause had been before *)
Theorem C90_reset : forall us vs cs0 z c z1 cs z2 c2 z3, cycles cs0 (mst0 us vs) = Done z -> z_conn z = false -> c_connect c = true ->
  cycle c z = Done z1 -> z_tries z < z_tries z1 ->
  zlen cs < 4294967295 -> cycles cs z1 = Done z2 -> z_conn z2 = false -> z_tries z2 = z_tries z1 -> cycle c2 z2 = Done z3 -> z_tries z2 < z_tries z3.
Proof.
  intros us vs cs0 z c z1 cs z2 c2 z3 _ C CC H1 T L H2 C2 T2 H3.
  assert (A : z_every z1 = 1 /\ z_cycle z1 = 1).
  { apply cycle_conn in H1 as (_ & A2 & A3 & A4). unfold try_connect in *. rewrite C, CC in *. cbn [negb andb] in *. destruct (_ <=? _); [|lia]. cbn in A2, A3. auto. }
  assert (G : forall cs y y2 k, z_every y = 1 -> z_cycle y = k -> 1 <= k -> k + zlen cs < 4294967296 -> cycles cs y = Done y2 -> z_tries y2 = z_tries y ->
            z_every y2 = 1 /\ 1 <= z_cycle y2).
  { clear. induction cs as [|c cs IH]; intros y y2 k E K P L H T; cbn in H; [injection H as <-; lia|]. destruct (cycle c y) as [y1|] eqn:Q; [|discriminate]. cbn in H.
    assert (T1 := tries_up _ _ _ Q). assert (T2 := tries_ups _ _ _ H). apply cycle_conn in Q as (_ & Q2 & Q3 & Q4). rewrite zlen_cons in L.
    assert (N : try_connect c y = y).
    { unfold try_connect in *. destruct (negb (z_conn y) && _); [|reflexivity]. destruct (c_connect c); cbn in Q4; lia. }
    rewrite N in *. assert (G0 := zlen_nonneg cs). apply (IH y1 y2 (k + 1)); [lia | unfold u32 in Q2; rewrite Z.mod_small in Q2; lia | lia | lia | exact H | lia]. }
  destruct (G cs z1 z2 1) as [B1 B2]; [apply A | apply A | lia | lia | exact H2 | exact T2|].
  apply cycle_conn in H3 as (_ & _ & _ & H3). rewrite H3. unfold try_connect. rewrite C2. cbn [negb andb]. replace (z_every z2 <=? z_cycle z2) with true by lia. destruct (c_connect c2); cbn; lia.
Qed.
Definition quiet (up : bool) (lost : bool) : cyc :=
  {| c_connect := up; c_tag := fun _ => true; c_group := fun _ => true; c_sub := fun _ => true; c_event := fun _ => true; c_lost := lost |}.
Example C90_ex : exists z, cycles (repeat (quiet false false) 130) (mst0 [] []) = Done z /\ z_tries z = 7 /\ z_every z = 60 /\ z_conn z = false.
Proof. eexists. split; [vm_compute; reflexivity|]. repeat split; reflexivity. Qed.

Example C90_reset_ex : exists z, cycles (repeat (quiet false false) 100 ++ repeat (quiet true false) 50 ++ [quiet true true]) (mst0 [] []) = Done z /\
  z_conn z = false /\ exists z1, cycle (quiet false false) z = Done z1 /\ z_tries z1 = z_tries z + 1.
Proof. eexists. split; [vm_compute; reflexivity|]. split; [reflexivity|]. eexists. split; [vm_compute; reflexivity|]. reflexivity. Qed.

(** ** C91 *)
Definition pending (us : list msub) : Z := zlen (filter (fun u => u_en u =? UNINIT) us).
Lemma subscribe_cases c u u' b has : subscribe c u = Done (u', b, has) -> u_en u = UNINIT -> u_topic u' = u_topic u /\
  ((u' = u /\ b = 1 /\ has = false) \/ (u_en u' = GOOD /\ b = 0 /\ has = true) \/ (u_en u' = FAIL /\ b = 0 /\ has = false)).
Proof.
  unfold subscribe. intros H U. destruct (_ && _); [injection H as <- <- <-; cbn; auto 10|]. destruct (negb _); [injection H as <- <- <-; auto 10|].
  destruct (_ && _); [discriminate|]. destruct (c_sub c _); injection H as <- <- <-; cbn; auto 10.
Qed.
Lemma setup_pending c : forall us ses us' b ses', setup_subs c us ses = Done (us', b, ses') -> b = pending us' /\ incl ses ses'.
Proof.
  induction us as [|u us IH]; intros ses us' b ses' H; cbn [setup_subs] in H; [injection H as <- <- <-; split; [reflexivity|intros x X; exact X]|].
  destruct (u_en u =? UNINIT) eqn:Q.
  - destruct (subscribe c u) as [[[u1 b1] has]|] eqn:W; [|discriminate]. cbn [rbind] in H.
    destruct (setup_subs c us _) as [[[us1 b2] ses1]|] eqn:R; [|discriminate]. cbn in H. injection H as <- <- <-.
    apply IH in R as [R1 R2]. split.
    + unfold pending. cbn [filter]. destruct (subscribe_cases _ _ _ _ _ W ltac:(lia)) as (_ & [(-> & -> & ->)|[(G & -> & ->)|(G & -> & ->)]]).
      * rewrite Q. unfold zlen, pending, zlen in *. cbn [length]. lia.
      * rewrite G. cbn. exact R1.
      * rewrite G. cbn. exact R1.
    + intros x X. apply R2. destruct has; [apply in_or_app; left; exact X|exact X].
  - cbn [rbind] in H. destruct (setup_subs c us ses) as [[[us1 b2] ses1]|] eqn:R; [|discriminate]. cbn in H. injection H as <- <- <-.
    apply IH in R as [R1 R2]. split; [|exact R2]. unfold pending. cbn [filter]. rewrite Q. exact R1.
Qed.
(** a set-up, entry by entry *)
Lemma setup_entry c : forall us ses us' b ses' i u, setup_subs c us ses = Done (us', b, ses') -> nth_error us i = Some u ->
  exists u', nth_error us' i = Some u' /\ u_topic u' = u_topic u /\
    (u_en u <> UNINIT -> u' = u) /\
    (u_en u = UNINIT -> exists bad has, subscribe c u = Done (u', bad, has) /\ (has = true -> In (u_topic u) ses')).
Proof.
  induction us as [|x us IH]; intros ses us' b ses' i u H N; [destruct i; discriminate|]. cbn [setup_subs] in H.
  destruct (if u_en x =? UNINIT then subscribe c x else Done (x, 0, false)) as [[[x1 b1] has]|] eqn:W; [|discriminate]. cbn [rbind] in H.
  destruct (setup_subs c us _) as [[[us1 b2] ses1]|] eqn:R; [|discriminate]. cbn in H. injection H as <- <- <-.
  destruct i as [|i].
  - cbn in N. injection N as ->. exists x1. split; [reflexivity|]. destruct (u_en u =? UNINIT) eqn:Q.
    + split; [exact (proj1 (subscribe_cases _ _ _ _ _ W ltac:(lia)))|]. split; [lia|]. intros _. exists b1, has. split; [exact W|]. intros ->.
      apply setup_pending in R as [_ R]. apply R. apply in_or_app. right. left. reflexivity.
    + injection W as <- <- <-. split; [reflexivity|]. split; [reflexivity|lia].
  - cbn in N. cbn [nth_error]. eapply IH; eauto.
Qed.
(** What a cycle does to the subscriptions *)
Lemma cycle_subs c z z' : cycle c z = Done z' -> let z1 := try_connect c z in
  exists z2, try_subs c z1 = Done z2 /\ z_subs z' = z_subs z2 /\ z_bads z' = z_bads z2 /\ z_ses z' = (if c_lost c then [] else z_ses z2) /\
    z_subs z1 = z_subs z /\ z_bads z1 = z_bads z /\ (z_ses z1 = z_ses z \/ (z_ses z1 = [] /\ z_conn z = false)).
Proof.
  unfold cycle. intros H. cbv zeta. destruct (try_subs c (try_connect c z)) as [z2|] eqn:Q; [|discriminate]. cbn in H. injection H as <-. exists z2.
  split; [reflexivity|]. destruct (try_pubs_keep c z2) as (B1 & B2 & B3 & B4 & B5 & B6 & B7). cbn. rewrite B1, B5, B6. do 3 (split; [reflexivity|]).
  unfold try_connect. destruct (z_conn z); cbn [negb andb]; [auto|]. destruct (_ <=? _); [|auto]. destruct (c_connect c); cbn; auto.
Qed.
(** The counter of the loop knows whether a subscription is waiting *)
Definition counted (z : mst) : Prop := (exists u, In u (z_subs z) /\ u_en u = UNINIT) -> z_bads z <> 0.
Lemma counted_cycle c z z' : counted z -> cycle c z = Done z' -> counted z'.
Proof.
  intros K H. apply cycle_subs in H as (z2 & Q & H1 & H2 & _ & H4 & H5 & _). unfold counted. rewrite H1, H2. unfold try_subs in Q.
  destruct (_ && _) eqn:B; [|injection Q as <-; rewrite H4, H5; exact K].
  destruct (setup_subs _ _ _) as [[[us b] ses]|] eqn:R; [|discriminate]. cbn in Q. injection Q as <-. cbn. apply setup_pending in R as [-> _].
  intros (u & I & U) P. unfold pending in P. assert (X : In u (filter (fun u => u_en u =? UNINIT) us)) by (apply filter_In; split; [exact I|lia]).
  destruct (filter _ us); [destruct X|]. unfold zlen in P. cbn [length] in P. lia.
Qed.
Lemma counted_cycles : forall cs z z', counted z -> cycles cs z = Done z' -> counted z'.
Proof.
  induction cs as [|c cs IH]; intros z z' S H; cbn in H; [injection H as <-; exact S|].
  destruct (cycle c z) as [z1|] eqn:Q; [|discriminate]. cbn in H. eapply IH; [|exact H]. eapply counted_cycle; eauto.
Qed.

(** As long as the connection is not lost, each subscription the module regards
    as good is held by the broker *)
Definition kept (z : mst) : Prop := Forall (fun u => u_en u = GOOD -> In (u_topic u) (z_ses z)) (z_subs z).
Lemma kept_setup c : forall us ses us' b ses', setup_subs c us ses = Done (us', b, ses') ->
  Forall (fun u => u_en u = GOOD -> In (u_topic u) ses) us -> Forall (fun u => u_en u = GOOD -> In (u_topic u) ses') us'.
Proof.
  induction us as [|u us IH]; intros ses us' b ses' H F; cbn [setup_subs] in H; [injection H as <- <- <-; constructor|].
  inversion F as [|? ? F1 F2]; subst.
  destruct (if u_en u =? UNINIT then subscribe c u else Done (u, 0, false)) as [[[x1 b1] has]|] eqn:W; [|discriminate]. cbn [rbind] in H.
  destruct (setup_subs c us _) as [[[us1 b2] ses1]|] eqn:R; [|discriminate]. cbn in H. injection H as <- <- <-.
  destruct (setup_pending _ _ _ _ _ _ R) as [_ S]. constructor.
  - intros G. apply S. destruct (u_en u =? UNINIT) eqn:Q.
    + destruct (subscribe_cases _ _ _ _ _ W ltac:(lia)) as (T & [(-> & -> & ->)|[(_ & -> & ->)|(G2 & _)]]).
      * unfold UNINIT, GOOD in *. lia.
      * rewrite T. apply in_or_app. right. left. reflexivity.
      * rewrite G2 in G. discriminate.
    + injection W as <- <- <-. auto.
  - eapply IH; [exact R|]. eapply Forall_impl; [|exact F2]. intros v V G. destruct has; [apply in_or_app; left|]; auto.
Qed.
Theorem C91_held_partial : forall us vs cs z, Forall (fun u => u_en u = UNINIT) us -> cycles cs (mst0 us vs) = Done z -> Forall (fun c => c_lost c = false) cs ->
  forall u, In u (z_subs z) -> u_en u = GOOD -> In (u_topic u) (z_ses z).
Proof.
  intros us vs cs z U H L.
  assert (G : forall cs z0 z, cycles cs z0 = Done z -> Forall (fun c => c_lost c = false) cs -> kept z0 -> (z_conn z0 = false -> Forall (fun u => u_en u <> GOOD) (z_subs z0)) -> kept z).
  { clear. induction cs as [|c cs IH]; intros z0 z H L K N; cbn in H; [injection H as <-; exact K|].
    destruct (cycle c z0) as [z1|] eqn:Q; [|discriminate]. cbn in H. inversion L as [|? ? L1 L2]; subst.
    assert (Q' := Q). apply cycle_conn in Q' as (Q1 & _ & _ & _). rewrite L1, andb_true_r in Q1.
    apply cycle_subs in Q as (z2 & T & A1 & A2 & A3 & A4 & A5 & A6). rewrite L1 in A3.
    assert (K1 : kept (try_connect c z0)).
    { unfold kept. rewrite A4. destruct A6 as [->|[_ A6]]; [exact K|]. eapply Forall_impl; [|exact (N A6)]. intros u X Y. contradiction. }
    apply (IH z1 z H L2).
    - unfold kept. rewrite A1, A3. unfold try_subs in T. destruct (_ && _); [|injection T as <-; exact K1].
      destruct (setup_subs _ _ _) as [[[us b] ses]|] eqn:R; [|discriminate]. cbn in T. injection T as <-. cbn. eapply kept_setup; [exact R|]. exact K1.
    - intros C. rewrite A1. rewrite Q1 in C. unfold try_subs in T. rewrite C in T. cbn [andb] in T. injection T as <-. rewrite A4.
      apply N. unfold try_connect in C. destruct (z_conn z0) eqn:Y; [cbn [negb andb] in C; congruence|reflexivity]. }
  assert (K : kept z).
  { apply (G cs (mst0 us vs) z H L).
    - unfold kept. cbn. eapply Forall_impl; [|exact U]. intros u -> X. discriminate.
    - intros _. cbn. eapply Forall_impl; [|exact U]. intros u -> X. discriminate. }
  intros u I. exact (proj1 (Forall_forall _ _) K u I).
Qed.

(** A subscription that waits for its tags is made at most ten cycles after the
    tags are there, if the connection holds *)
Definition ready_for (c : cyc) (u : msub) : Prop :=
  Forall (fun n => c_tag c n = true) (u_tags u) /\ (1 < zlen (u_tags u) -> c_group c (u_topic u) = true) /\ c_sub c (u_topic u) = true /\ c_lost c = false.
Lemma ready_subscribe c u : ready_for c u -> u_tags u <> [] \/ u_filter u = true -> subscribe c u = Done (sub_en GOOD u, 0, true).
Proof.
  intros (R1 & R2 & R3 & _) T. unfold subscribe. replace ((zlen (u_tags u) =? 0) && negb (u_filter u)) with false.
  - replace (forallb (c_tag c) (u_tags u)) with true by (symmetry; apply forallb_forall; intros x X; exact (proj1 (Forall_forall _ _) R1 x X)). cbn [negb].
    destruct (1 <? zlen (u_tags u)) eqn:Q; cbn [andb]; [rewrite R2 by lia; cbn [negb]|]; rewrite R3; reflexivity.
  - destruct T as [T|T]; [|rewrite T; lia]. destruct (u_tags u); [congruence|]. unfold zlen. cbn [length]. lia.
Qed.
Lemma conn_cycle c z z' : z_conn z = true -> c_lost c = false -> cycle c z = Done z' -> z_conn z' = true /\ z_cycle z' = u32 (z_cycle z + 1) /\ try_connect c z = z.
Proof.
  intros C L H. assert (T : try_connect c z = z) by (unfold try_connect; rewrite C; reflexivity).
  apply cycle_conn in H as (A & B & _). rewrite T in *. rewrite A, C, L. auto.
Qed.
Lemma entry_cycle c z z' i u : z_conn z = true -> ready_for c u -> u_tags u <> [] \/ u_filter u = true -> counted z -> cycle c z = Done z' ->
  nth_error (z_subs z) i = Some u -> u_en u = UNINIT ->
  (z_cycle z mod 10 = 0 -> nth_error (z_subs z') i = Some (sub_en GOOD u) /\ In (u_topic u) (z_ses z')) /\
  (z_cycle z mod 10 <> 0 -> nth_error (z_subs z') i = Some u).
Proof.
  intros C R T K H N U. assert (L : c_lost c = false) by apply R. destruct (conn_cycle _ _ _ C L H) as (_ & _ & TC).
  apply cycle_subs in H as (z2 & Q & A1 & A2 & A3 & _). rewrite TC, L in *. unfold try_subs in Q. rewrite C in Q.
  assert (B : z_bads z <> 0) by (apply K; exists u; split; [eapply nth_error_In; exact N|exact U]).
  replace (z_bads z =? 0) with false in Q by lia. cbn [negb andb] in Q. split; intros M.
  - replace (z_cycle z mod 10 =? 0) with true in Q by lia. destruct (setup_subs _ _ _) as [[[us b] ses]|] eqn:S; [|discriminate].
    cbn in Q. injection Q as <-. rewrite A1, A3. cbn. destruct (setup_entry _ _ _ _ _ _ _ _ S N) as (u' & N' & _ & _ & E).
    destruct (E U) as (bad & has & E1 & E2). rewrite ready_subscribe in E1 by assumption. injection E1 as <- <- <-. split; [exact N'|]. apply E2. reflexivity.
  - replace (z_cycle z mod 10 =? 0) with false in Q by lia. injection Q as <-. rewrite A1. exact N.
Qed.
Lemma good_stays : forall cs z z' i u, z_conn z = true -> Forall (fun c => c_lost c = false) cs -> cycles cs z = Done z' -> nth_error (z_subs z) i = Some u -> u_en u = GOOD ->
  In (u_topic u) (z_ses z) -> nth_error (z_subs z') i = Some u /\ In (u_topic u) (z_ses z').
Proof.
  induction cs as [|c cs IH]; intros z z' i u C L H N G I; cbn in H; [injection H as <-; auto|].
  destruct (cycle c z) as [z1|] eqn:Q; [|discriminate]. cbn in H. inversion L as [|? ? L1 L2]; subst.
  destruct (conn_cycle _ _ _ C L1 Q) as (C1 & _ & TC). apply cycle_subs in Q as (z2 & T & A1 & A2 & A3 & _). rewrite TC, L1 in *.
  assert (X : nth_error (z_subs z2) i = Some u /\ In (u_topic u) (z_ses z2)).
  { unfold try_subs in T. destruct (_ && _); [|injection T as <-; auto]. destruct (setup_subs _ _ _) as [[[us b] ses]|] eqn:S; [|discriminate].
    cbn in T. injection T as <-. cbn. destruct (setup_entry _ _ _ _ _ _ _ _ S N) as (u' & N' & _ & E & _). apply setup_pending in S as [_ S].
    rewrite E in N' by (rewrite G; discriminate). split; [exact N'|]. apply S. exact I. }
  apply (IH z1 z' i u C1 L2 H); rewrite ?A1, ?A3; tauto.
Qed.
Theorem C91_retried_partial : forall us vs cs0 z cs z' i u,
  cycles cs0 (mst0 us vs) = Done z -> z_conn z = true ->
  nth_error (z_subs z) i = Some u -> u_en u = UNINIT -> u_tags u <> [] \/ u_filter u = true ->
  Forall (fun c => ready_for c u) cs -> (10 <= length cs)%nat -> cycles cs z = Done z' ->
  nth_error (z_subs z') i = Some (sub_en GOOD u) /\ In (u_topic u) (z_ses z').
Proof.
  intros us vs cs0 z cs z' i u H C N U T R L H'.
  assert (S : sound z) by (eapply sound_cycles; [apply sound0|exact H]).
  assert (K : counted z) by (eapply counted_cycles; [|exact H]; intros _; cbn; lia).
  clear H. assert (exists k, (k <= 9)%nat /\ (z_cycle z + Z.of_nat k) mod 4294967296 mod 10 = 0) as (k & K9 & KM).
  { destruct S as [[S1 S2] _]. exists (Z.to_nat (Z.min ((- z_cycle z) mod 10) (4294967296 - z_cycle z))). lia. }
  assert (NE : (k < length cs)%nat) by lia. clear L K9. revert cs z z' k S K C N R NE KM H'.
  induction cs as [|c cs IH]; intros z z' k S K C N R NE KM H'; [cbn in NE; lia|]. cbn [cycles] in H'.
  destruct (cycle c z) as [z1|] eqn:Q; [|discriminate]. cbn [rbind] in H'. inversion R as [|? ? R1 R2]; subst.
  assert (L1 : c_lost c = false) by apply R1. destruct (conn_cycle _ _ _ C L1 Q) as (C1 & CY & _).
  destruct (entry_cycle _ _ _ _ _ C R1 T K Q N U) as [E1 E2].
  destruct (Z.eq_dec (z_cycle z mod 10) 0) as [M|M].
  - destruct (E1 M) as [E3 E4]. apply (good_stays cs z1 z' i (sub_en GOOD u)); auto.
    eapply Forall_impl; [|exact R2]. intros x X. apply X.
  - destruct k as [|k]; [exfalso; apply M; destruct S as [[S1 S2] _]; rewrite Z.add_0_r, (Z.mod_small (z_cycle z)) in KM by lia; exact KM|].
    apply (IH z1 z' k); auto.
    + eapply sound_cycle; eauto.
    + eapply counted_cycle; eauto.
    + cbn in NE. lia.
    + rewrite CY. destruct S as [[S1 S2] _]. unfold u32. rewrite Zplus_mod_idemp_l. replace (z_cycle z + 1 + Z.of_nat k) with (z_cycle z + Z.of_nat (Datatypes.S k)) by lia. exact KM.
Qed.

(** After a lost connection no subscription is made again, whatever happens: the
    broker never sends another message *)
Theorem C91_lost_refuted : forall us vs cs0 z cs z', cycles cs0 (mst0 us vs) = Done z -> z_conn z = false -> z_bads z = 0 -> z_ses z = [] ->
  cycles cs z = Done z' -> z_ses z' = [] /\ z_subs z' = z_subs z.
Proof.
  intros us vs cs0 z cs z' _ _ B E H. revert z z' B E H.
  induction cs as [|c cs IH]; intros z z' B E H; cbn in H; [injection H as <-; auto|].
  destruct (cycle c z) as [z1|] eqn:Q; [|discriminate]. cbn in H. apply cycle_subs in Q as (z2 & T & A1 & A2 & A3 & A4 & A5 & A6).
  unfold try_subs in T. rewrite A5, B in T. cbn [Z.eqb negb] in T. rewrite andb_false_r in T. cbn [andb] in T. injection T as <-.
  destruct (IH z1 z') as [I1 I2]; [congruence | rewrite A3; destruct (c_lost c); [reflexivity|]; destruct A6 as [-> |[-> _]]; auto | exact H |].
  split; [exact I1|]. congruence.
Qed.
Definition ex_sub : msub := {| u_topic := str "a/b"; u_tags := [str "x"; str "y"]; u_filter := false; u_en := UNINIT |}.
Theorem C91_reconnect_refuted : exists us cs z u, cycles cs (mst0 us []) = Done z /\ z_conn z = true /\ Forall (fun c => ready_for c u \/ c_lost c = true) cs /\
  In u us /\ In (sub_en GOOD u) (z_subs z) /\ z_ses z = [].
Proof.
  exists [ex_sub], [quiet true false; quiet true true; quiet true false; quiet true false]. eexists. exists ex_sub. split; [vm_compute; reflexivity|]. split; [reflexivity|].
  assert (R : ready_for (quiet true false) ex_sub) by (split; [repeat constructor|split; [reflexivity|split; reflexivity]]).
  split; [constructor; [left; exact R|constructor; [right; reflexivity|constructor; [left; exact R|constructor; [left; exact R|constructor]]]]|].
  split; [left; reflexivity|]. split; [left; reflexivity|reflexivity].
Qed.
(** A group the server refuses makes the module use a null pointer *)
Theorem C91_group_refuted : forall c u, forallb (c_tag c) (u_tags u) = true -> 1 < zlen (u_tags u) -> c_group c (u_topic u) = false -> subscribe c u = Undef UNull.
Proof.
  intros c u T Z G. unfold subscribe. replace (zlen (u_tags u) =? 0) with false by lia. rewrite T, G. replace (1 <? zlen (u_tags u)) with true by lia. reflexivity.
Qed.
Definition absent (up : bool) : cyc :=
  {| c_connect := up; c_tag := fun n => negb (name_eqb n (str "y")); c_group := fun _ => true; c_sub := fun _ => true; c_event := fun _ => true; c_lost := false |}.
Example C91_ex : exists z z', cycles (repeat (absent true) 15) (mst0 [ex_sub] []) = Done z /\ z_conn z = true /\ nth_error (z_subs z) 0 = Some ex_sub /\ z_bads z = 1 /\
  Forall (fun c => ready_for c ex_sub) (repeat (quiet true false) 10) /\ cycles (repeat (quiet true false) 10) z = Done z' /\
  z_subs z' = [sub_en GOOD ex_sub] /\ z_ses z' = [str "a/b"] /\ z_bads z' = 0.
Proof.
  eexists. eexists. split; [vm_compute; reflexivity|]. do 3 (split; [reflexivity|]). split; [|split; [vm_compute; reflexivity|repeat split; reflexivity]].
  apply Forall_forall. intros c Hc. apply repeat_spec in Hc. subst c. split; [repeat constructor|split; [reflexivity|split; reflexivity]].
Qed.

(** ** C92 *)
Lemma setup_pub_entry c : forall vs i v, nth_error vs i = Some v ->
  nth_error (fst (setup_pubs c vs)) i = Some (if v_en v =? UNINIT then fst (publish c v) else v).
Proof.
  induction vs as [|x vs IH]; intros i v N; [destruct i; discriminate|]. cbn [setup_pubs].
  destruct (if v_en x =? UNINIT then publish c x else (x, 0)) as [x1 b1] eqn:P. destruct (setup_pubs c vs) as [vs1 b2] eqn:R.
  destruct i as [|i]; cbn in N |- *.
  - injection N as ->. destruct (v_en v =? UNINIT); [rewrite P|injection P as <- _]; reflexivity.
  - apply IH in N. exact N.
Qed.
Lemma cycle_pubs c z z' : cycle c z = Done z' -> z_pubs z' = z_pubs z \/ z_pubs z' = fst (setup_pubs c (z_pubs z)).
Proof.
  unfold cycle. intros H. destruct (try_subs c (try_connect c z)) as [z2|] eqn:Q; [|discriminate]. cbn in H. injection H as <-.
  apply try_subs_keep in Q as (A1 & _). assert (P : z_pubs (try_connect c z) = z_pubs z) by (unfold try_connect; destruct (_ && _); [destruct (c_connect c)|]; reflexivity).
  cbn. unfold try_pubs. destruct (_ && _); [|left; congruence]. rewrite A1, P. right. destruct (setup_pubs c (z_pubs z)). reflexivity.
Qed.
(** With everything in place at the first connection, the publisher is active *)
Definition pub_ready (c : cyc) (v : mpub) : Prop :=
  Forall (fun n => c_tag c n = true) (v_trigger v :: v_tags v) /\ (1 < zlen (v_tags v) -> c_group c (v_topic v) = true) /\ c_event c (v_topic v) = true.
Theorem C92_active_partial : forall us vs c z i v, nth_error vs i = Some v -> v_en v = UNINIT -> v_tags v <> [] \/ v_filter v = true -> pub_ready c v -> c_connect c = true ->
  cycle c (mst0 us vs) = Done z -> nth_error (z_pubs z) i = Some (pub_en GOOD v).
Proof.
  intros us vs c z i v N U T (R1 & R2 & R3) C H. unfold cycle in H. destruct (try_subs c _) as [z2|] eqn:Q; [|discriminate]. cbn [rbind] in H. injection H as <-.
  apply try_subs_keep in Q as (A1 & A2 & A3 & A4 & A5 & A6). unfold try_connect in *. cbn in A1, A2, A3, A5. rewrite C in *. cbn in A1, A2, A3, A5.
  unfold wait, try_pubs. rewrite A2, A5, A3. change (true && negb (1 =? 0) && (0 mod 10 =? 0)) with true. cbv iota. rewrite A1.
  pose proof (setup_pub_entry c vs i v N) as E. destruct (setup_pubs c vs) as [vs1 b]. cbn in E |- *. rewrite E, U. cbn [Z.eqb UNINIT]. replace (UNINIT =? UNINIT) with true by reflexivity.
  inversion R1 as [|? ? R4 R5]; subst. unfold publish. replace ((zlen (v_tags v) =? 0) && negb (v_filter v)) with false.
  - replace (forallb (c_tag c) (v_tags v)) with true by (symmetry; apply forallb_forall; intros x X; exact (proj1 (Forall_forall _ _) R5 x X)). cbn [negb].
    destruct (1 <? zlen (v_tags v)) eqn:Q; cbn [andb]; [rewrite R2 by lia; cbn [negb]|]; rewrite R4, R3; reflexivity.
  - destruct T as [T|T]; [|rewrite T; lia]. destruct (v_tags v); [congruence|]. unfold zlen. cbn [length]. lia.
Qed.
(** A publisher that finds a tag missing is never tried again *)
Theorem C92_never_refuted : forall cs z z' i v, nth_error (z_pubs z) i = Some v -> v_en v = FAIL -> cycles cs z = Done z' -> nth_error (z_pubs z') i = Some v.
Proof.
  induction cs as [|c cs IH]; intros z z' i v N F H; cbn in H; [injection H as <-; exact N|]. destruct (cycle c z) as [z1|] eqn:Q; [|discriminate]. cbn in H.
  apply (IH z1 z' i v); auto. apply cycle_pubs in Q as [-> | ->]; [exact N|]. rewrite (setup_pub_entry c _ i v N), F. reflexivity.
Qed.
Theorem C92_missing_refuted : forall us vs c z i v, nth_error vs i = Some v -> v_en v = UNINIT -> c_connect c = true -> Exists (fun n => c_tag c n = false) (v_trigger v :: v_tags v) ->
  cycle c (mst0 us vs) = Done z -> exists v', nth_error (z_pubs z) i = Some v' /\ v_en v' = FAIL.
Proof.
  intros us vs c z i v N U C M H. unfold cycle in H. destruct (try_subs c _) as [z2|] eqn:Q; [|discriminate]. cbn [rbind] in H. injection H as <-.
  apply try_subs_keep in Q as (A1 & A2 & A3 & A4 & A5 & A6). unfold try_connect in *. cbn in A1, A2, A3, A5. rewrite C in *. cbn in A1, A2, A3, A5.
  unfold wait, try_pubs. rewrite A2, A5, A3. change (true && negb (1 =? 0) && (0 mod 10 =? 0)) with true. cbv iota. rewrite A1.
  pose proof (setup_pub_entry c vs i v N) as E. destruct (setup_pubs c vs) as [vs1 b]. cbn in E |- *. eexists. split; [exact E|]. rewrite U. replace (UNINIT =? UNINIT) with true by reflexivity.
  unfold publish. destruct ((zlen (v_tags v) =? 0) && negb (v_filter v)); [reflexivity|]. inversion M as [? ? M1|? ? M1]; subst.
  - rewrite M1. destruct (forallb _ _); [|reflexivity]. destruct ((1 <? _) && _); reflexivity.
  - replace (forallb (c_tag c) (v_tags v)) with false; [reflexivity|]. symmetry. apply Exists_exists in M1 as (n & I & M1).
    destruct (forallb (c_tag c) (v_tags v)) eqn:F; [|reflexivity]. rewrite forallb_forall in F. rewrite F in M1 by exact I. discriminate.
Qed.
Definition ex_pub : mpub := {| v_topic := str "p"; v_tags := [str "x"; str "y"]; v_filter := false; v_trigger := str "x"; v_en := UNINIT |}.
Example C92_ex : pub_ready (quiet true false) ex_pub /\ (exists z, cycle (quiet true false) (mst0 [] [ex_pub]) = Done z /\ z_pubs z = [pub_en GOOD ex_pub]) /\
  exists z, cycles (absent true :: repeat (quiet true false) 100) (mst0 [] [ex_pub]) = Done z /\ z_conn z = true /\ z_pubs z = [pub_en FAIL ex_pub] /\ z_badp z = 0.
Proof.
  split; [split; [repeat constructor|split; reflexivity]|]. split; eexists; (split; [vm_compute; reflexivity|]); repeat split; reflexivity.
Qed.
