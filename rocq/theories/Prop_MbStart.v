(** * C115 to C118: threads, events and enable bits of the Modbus module *)
From Verif Require Import Base Const Lib Spec Modbus Master MbPort MbStart Prop_Modbus.

(** ** C115: each port uses the functions of its protocol *)
Definition own (who : Z -> proto) (c : call_of) : Prop := ca_proto c = Some (who (ca_thread c)).
Definition set_ok (q : proto) (g : sender) : Prop :=
  (g_send g = None \/ g_send g = Some q) /\ (g_get g = None \/ g_get g = Some q) /\
  (forall t, g_pcs g t <> SIdle -> g_send g = Some q) /\
  (forall t, g_pcs g t <> SIdle -> g_pcs g t <> SOne -> g_get g = Some q) /\
  Forall (fun c => ca_proto c = Some q) (g_calls g).
Lemma snd_step_ok q g t more : set_ok q g -> set_ok q (snd_step q g t more).
Proof.
  intros (A & B & C & D & F). unfold snd_step. assert (Ct := C t). assert (Dt := D t). destruct (g_pcs g t) eqn:E.
  - split; [right; reflexivity|]. split; [exact B|]. split; [reflexivity|]. split; [|exact F]. cbn. intros u. destruct (u =? t) eqn:Eu; [congruence|apply D].
  - split; [exact A|]. split; [right; reflexivity|]. split; [|split; [reflexivity|exact F]]. cbn. intros u. destruct (u =? t) eqn:Eu; [intros _; apply Ct; discriminate|apply C].
  - split; [exact A|]. split; [exact B|]. cbn. split; [|split; [|exact F]]; intros u; destruct (u =? t) eqn:Eu; [intros _; apply Ct; discriminate|apply C|intros _ _; apply Dt; discriminate|apply D].
  - split; [exact A|]. split; [exact B|]. cbn. split; [|split; [|apply Forall_app; split; [exact F|constructor; [apply Ct; discriminate|constructor]]]]; intros u; destruct (u =? t) eqn:Eu;
      [intros _; apply Ct; discriminate|apply C|intros _ _; apply Dt; discriminate|apply D].
  - split; [exact A|]. split; [exact B|]. cbn. split; [|split; [|apply Forall_app; split; [exact F|constructor; [apply Dt; discriminate|constructor]]]]; intros u; destruct (u =? t) eqn:Eu;
      [intros _; apply Ct; discriminate|apply C|intros _ _; apply Dt; discriminate|apply D].
Qed.
(** If all ports that are used have the same protocol, or there is only one, every call is to a function of the right protocol. *)
Theorem C115_same_partial : forall q who os, (forall t more, In (t, more) os -> who t = q) ->
  Forall (fun c => ca_proto c = Some q /\ exists more, In (ca_thread c, more) os) (g_calls (snd_run who os)).
Proof.
  intros q who os H. assert (G : forall os' g, (forall o, In o os' -> In o os) -> set_ok q g -> Forall (fun c => exists more, In (ca_thread c, more) os) (g_calls g) ->
    let g' := fold_left (fun g o => snd_step (who (fst o)) g (fst o) (snd o)) os' g in set_ok q g' /\ Forall (fun c => exists more, In (ca_thread c, more) os) (g_calls g')).
  { induction os' as [|[t more] os' IH]; intros g S K T; cbn [fold_left]; [split; assumption|]. apply IH.
    - intros o Ho. apply S. right. exact Ho.
    - cbn [fst snd]. rewrite (H t more (S _ (or_introl eq_refl))). apply snd_step_ok. exact K.
    - cbn [fst snd]. unfold snd_step. destruct (g_pcs g t); cbn [set_spc g_calls]; try exact T; apply Forall_app; (split; [exact T|]); constructor; try constructor; exists more; apply S; left; reflexivity. }
  destruct (G os (mkSnd None None (fun _ => SIdle) []) (fun o h => h)) as ((_ & _ & _ & _ & F) & T).
  - split; [left; reflexivity|]. split; [left; reflexivity|]. cbn. split; [congruence|]. split; [congruence|constructor].
  - constructor.
  - unfold snd_run. rewrite Forall_forall in *. intros c Hc. split; [exact (F c Hc)|exact (T c Hc)].
Qed.
(** No call is through a null pointer. *)
Theorem C115_set : forall who os, Forall (fun c => ca_proto c <> None) (g_calls (snd_run who os)).
Proof.
  intros who os. assert (G : forall os g,
    (forall t, g_pcs g t <> SIdle -> g_send g <> None) /\ (forall t, g_pcs g t <> SIdle -> g_pcs g t <> SOne -> g_get g <> None) /\ Forall (fun c => ca_proto c <> None) (g_calls g) ->
    Forall (fun c => ca_proto c <> None) (g_calls (fold_left (fun g o => snd_step (who (fst o)) g (fst o) (snd o)) os g))).
  { clear. induction os as [|[t more] os IH]; intros g (C & D & F); cbn [fold_left]; [exact F|]. apply IH. clear IH. cbn [fst snd].
    unfold snd_step. assert (Ct := C t). assert (Dt := D t). destruct (g_pcs g t) eqn:E; cbn.
    - split; [discriminate|]. split; [|exact F]. intros u. destruct (u =? t); [congruence|apply D].
    - split; [|split; [discriminate|exact F]]. intros u. destruct (u =? t); [intros _; apply Ct; discriminate|apply C].
    - split; [|split; [|exact F]]; intros u; destruct (u =? t); [intros _; apply Ct; discriminate|apply C|intros _ _; apply Dt; discriminate|apply D].
    - split; [|split; [|apply Forall_app; split; [exact F|constructor; [apply Ct; discriminate|constructor]]]]; intros u; destruct (u =? t);
        [intros _; apply Ct; discriminate|apply C|intros _ _; apply Dt; discriminate|apply D].
    - split; [|split; [|apply Forall_app; split; [exact F|constructor; [apply Dt; discriminate|constructor]]]]; intros u; destruct (u =? t);
        [intros _; apply Ct; discriminate|apply C|intros _ _; apply Dt; discriminate|apply D]. }
  apply G. cbn. split; [congruence|]. split; [congruence|constructor].
Qed.
(** A serial and a TCP master: the serial one sends a TCP frame on its line, the TCP one reads its answer as from a serial line. *)
Definition mixed (t : Z) : proto := if t =? 0 then PRtu else PTcp.
Theorem C115_mixed_refuted :
  In (mkCall 0 true (Some PTcp)) (g_calls (snd_run mixed [(0, true); (0, true); (1, true); (1, true); (0, true); (0, true)])) /\
  In (mkCall 1 false (Some PRtu)) (g_calls (snd_run mixed [(1, true); (1, true); (1, true); (1, true); (0, true); (0, true); (1, true)])).
Proof. vm_compute. split; [left; reflexivity|right; left; reflexivity]. Qed.
Example C115_ex : map ca_proto (g_calls (snd_run (fun _ => PTcp) [(0, true); (1, true); (0, true); (0, true); (0, true); (1, true); (1, true); (1, true); (0, false)])) = [Some PTcp; Some PTcp; Some PTcp].
Proof. reflexivity. Qed.

(** ** C116: the events of commands *)
(** the events a port's commands ask for *)
Definition wants_of (m : mode) : list (Z * evkind) :=
  (if md_write m then [(md_id m, EvWrite)] else []) ++ (if md_change m then [(md_id m, EvChange)] else []) ++ (if md_trigger m then [(md_id m, EvTrigger)] else []).
Definition wants (ms : list mode) : list (Z * evkind) := flat_map wants_of ms.
Lemma wants_id m x : In x (wants_of m) -> fst x = md_id m.
Proof.
  unfold wants_of. rewrite !in_app_iff. destruct (md_write m), (md_change m), (md_trigger m); cbn; intros H;
    repeat match goal with H : _ \/ _ |- _ => destruct H | H : False |- _ => destruct H end; subst; reflexivity.
Qed.
(** what a round of setting up does: [l] was added, [b] is wanted after it, [a] was before *)
Definition settles (e : Z -> evkind -> Z) (a b l : list (Z * evkind)) : Prop :=
  incl l a /\ incl b a /\ (forall x, In x l -> ~ In x b) /\ NoDup l /\
  (forall x, In x a -> In x l \/ In x b \/ (snd x = EvChange /\ In (fst x, EvWrite) l)) /\
  (forall id k, In (id, k) b -> e id k <> 0).
Lemma settles_app e a b l a' b' l' : settles e a b l -> settles e a' b' l' -> (forall x y, In x a -> In y a' -> fst x <> fst y) ->
  settles e (a ++ a') (b ++ b') (l ++ l').
Proof.
  intros (A1 & A2 & A3 & A4 & A5 & A6) (B1 & B2 & B3 & B4 & B5 & B6) D. split; [apply incl_app; [apply incl_appl|apply incl_appr]; assumption|].
  split; [apply incl_app; [apply incl_appl|apply incl_appr]; assumption|]. split; [|split; [|split]].
  - intros x Hx Hb. apply in_app_or in Hx. apply in_app_or in Hb. destruct Hx as [Hx|Hx], Hb as [Hb|Hb]; [exact (A3 x Hx Hb)| | |exact (B3 x Hx Hb)].
    + exact (D x x (A1 x Hx) (B2 x Hb) eq_refl).
    + exact (D x x (A2 x Hb) (B1 x Hx) eq_refl).
  - clear -A1 A4 B1 B4 D. induction l as [|x l IH]; [exact B4|]. inversion A4 as [|? ? N A4']; subst. cbn. constructor.
    + intros H. apply in_app_or in H. destruct H as [H|H]; [exact (N H)|]. exact (D x x (A1 x (or_introl eq_refl)) (B1 x H) eq_refl).
    + apply IH; [|exact A4']. intros y Hy. apply A1. right. exact Hy.
  - intros x Hx. apply in_app_or in Hx. destruct Hx as [Hx|Hx]; [destruct (A5 x Hx) as [H|[H|[H1 H2]]]|destruct (B5 x Hx) as [H|[H|[H1 H2]]]].
    1,4: left; apply in_or_app; auto. 1,3: right; left; apply in_or_app; auto. all: right; right; split; [assumption|]; apply in_or_app; auto.
  - intros id k H. apply in_app_or in H. destruct H; auto.
Qed.
Lemma setup_events_spec e ms : forall result r ms' l, NoDup (map md_id ms) -> setup_events e result ms = (r, ms', l) ->
  settles e (wants ms) (wants ms') l /\ map md_id ms' = map md_id ms.
Proof.
  induction ms as [|m ms IH]; intros result r ms' l N H; cbn [setup_events] in H.
  { injection H as <- <- <-. split; [|reflexivity]. split; [intros ? []|]. split; [intros ? []|]. split; [intros ? []|]. split; [apply NoDup_nil|]. split; [intros ? []|intros ? ? []]. }
  destruct (set_event (md_write m) (e (md_id m) EvWrite) result) as [r1 dw] eqn:E1.
  set (m1 := if dw then _ else m) in H. destruct (set_event (md_change m1) (e (md_id m1) EvChange) r1) as [r2 dc] eqn:E2.
  set (m2 := if dc then _ else m1) in H. destruct (set_event (md_trigger m2) (e (md_id m2) EvTrigger) r2) as [r3 dt] eqn:E3.
  set (m3 := if dt then _ else m2) in H. destruct (setup_events e r3 ms) as [[r4 ms4] l4] eqn:E4. injection H as <- <- <-.
  cbn [map] in N. inversion N as [|? ? N1 N2]; subst. apply IH in E4; [|exact N2]. destruct E4 as (S & I). clear IH.
  assert (Id : md_id m3 = md_id m) by (subst m3 m2 m1; destruct dw, dc, dt; reflexivity).
  split; [|cbn [map]; rewrite Id, I; reflexivity]. rewrite !app_assoc. unfold wants in *. cbn [flat_map]. apply settles_app; [|exact S|].
  - rewrite <- app_assoc, Id. clear -E1 E2 E3. unfold set_event in *. subst m3 m2 m1. destruct m as [id wr ch tr]. cbn [md_id md_write md_change md_trigger] in *.
    destruct wr, (e id EvWrite =? 0) eqn:Q1; injection E1 as <- <-; cbn [md_id md_write md_change md_trigger] in *;
    destruct ch; try (destruct (e id EvChange =? 0) eqn:Q2); injection E2 as <- <-; cbn [md_id md_write md_change md_trigger] in *;
    destruct tr; try (destruct (e id EvTrigger =? 0) eqn:Q3); injection E3 as <- <-; unfold wants_of, settles; cbn;
    repeat split; try (intros x Hx; cbn in *; intuition congruence); try (repeat constructor; cbn; intuition congruence);
    try (intros i k Hx He; repeat match goal with H : _ \/ _ |- _ => destruct H | H : False |- _ => destruct H | H : (_, _) = (_, _) |- _ => injection H as <- <- end; lia);
    try (intros x Hx; repeat match goal with H : _ \/ _ |- _ => destruct H | H : False |- _ => destruct H end; subst; cbn; tauto).
  - intros x y Hx Hy E. apply wants_id in Hx. apply in_flat_map in Hy. destruct Hy as (m' & Hm & Hy). apply wants_id in Hy. apply N1. rewrite <- Hx, E, Hy. apply in_map. exact Hm.
Qed.
Lemma wants_app a b : wants (a ++ b) = wants a ++ wants b.
Proof. apply flat_map_app. Qed.
Lemma in_wants_id ms x : In x (wants ms) -> In (fst x) (map md_id ms).
Proof. intros H. apply in_flat_map in H. destruct H as (m & Hm & Hx). apply wants_id in Hx. rewrite Hx. apply in_map. exact Hm. Qed.
Lemma nodup_app A (a b : list A) : NoDup (a ++ b) -> NoDup a /\ NoDup b /\ forall x, In x a -> ~ In x b.
Proof.
  induction a as [|x a IH]; cbn; intros H; [split; [constructor|]; split; [exact H|intros ? []]|]. inversion H as [|? ? N H']; subst. destruct (IH H') as (A1 & A2 & A3).
  split; [constructor; [intros Hx; apply N, in_or_app; left; exact Hx|exact A1]|]. split; [exact A2|]. intros y [<-|Hy] Hb; [apply N, in_or_app; right; exact Hb|exact (A3 y Hy Hb)].
Qed.
Lemma setup_ports_spec e ps : forall errors r ps' l, NoDup (map md_id (concat ps)) -> setup_ports e errors ps = (r, ps', l) ->
  settles e (wants (concat ps)) (wants (concat ps')) l /\ map md_id (concat ps') = map md_id (concat ps).
Proof.
  induction ps as [|p ps IH]; intros errors r ps' l N H; cbn [setup_ports] in H.
  { injection H as <- <- <-. split; [|reflexivity]. split; [intros ? []|]. split; [intros ? []|]. split; [intros ? []|]. split; [apply NoDup_nil|]. split; [intros ? []|intros ? ? []]. }
  destruct (setup_events e 0 p) as [[r1 p1] l1] eqn:E1. destruct (setup_ports e (0 + r1) ps) as [[r2 ps2] l2] eqn:E2. injection H as <- <- <-.
  cbn [concat] in *. rewrite map_app in N. destruct (nodup_app _ _ _ N) as (N1 & N2 & N3).
  apply setup_events_spec in E1; [|exact N1]. destruct E1 as (S1 & I1). apply IH in E2; [|exact N2]. destruct E2 as (S2 & I2).
  split; [|rewrite !map_app, I1, I2; reflexivity]. rewrite !wants_app. apply settles_app; [exact S1|exact S2|].
  intros x y Hx Hy E. apply in_wants_id in Hx. apply in_wants_id in Hy. rewrite E in Hx. exact (N3 _ Hx Hy).
Qed.
Definition any : Z -> evkind -> Z := fun _ _ => 1.
Lemma settles_any e a b l : settles e a b l -> settles any a b l.
Proof. intros (A1 & A2 & A3 & A4 & A5 & _). repeat (split; [assumption|]). intros; discriminate. Qed.
Lemma settles_trans a b c l l' : settles any a b l -> settles any b c l' -> settles any a c (l ++ l').
Proof.
  intros (A1 & A2 & A3 & A4 & A5 & _) (B1 & B2 & B3 & B4 & B5 & _). split; [apply incl_app; [exact A1|intros x Hx; apply A2, B1, Hx]|].
  split; [intros x Hx; apply A2, B2, Hx|]. split; [|split; [|split; [|intros; discriminate]]].
  - intros x Hx Hc. apply in_app_or in Hx. destruct Hx as [Hx|Hx]; [exact (A3 x Hx (B2 x Hc))|exact (B3 x Hx Hc)].
  - clear -A3 A4 B1 B4. induction l as [|x l IH]; [exact B4|]. inversion A4 as [|? ? N A4']; subst. cbn. constructor.
    + intros H. apply in_app_or in H. destruct H as [H|H]; [exact (N H)|]. exact (A3 x (or_introl eq_refl) (B1 x H)).
    + apply IH; [|exact A4']. intros y Hy. apply A3. right. exact Hy.
  - intros x Hx. destruct (A5 x Hx) as [H|[H|[H1 H2]]]; [left; apply in_or_app; auto| |right; right; split; [exact H1|]; apply in_or_app; auto].
    destruct (B5 x H) as [G|[G|[G1 G2]]]; [left; apply in_or_app; auto|right; left; exact G|right; right; split; [exact G1|]; apply in_or_app; auto].
Qed.
Lemma settles_refl a : settles any a a [].
Proof. split; [intros ? []|]. split; [apply incl_refl|]. split; [intros ? []|]. split; [apply NoDup_nil|]. split; [auto|discriminate]. Qed.
Lemma main_loop_spec e n : forall c errors ps r ps' l, NoDup (map md_id (concat ps)) -> main_loop n e c errors ps = (r, ps', l) ->
  settles any (wants (concat ps)) (wants (concat ps')) l.
Proof.
  induction n as [|n IH]; intros c errors ps r ps' l N H; cbn [main_loop] in H; [injection H as <- <- <-; apply settles_refl|].
  destruct (if _ && _ then _ else _) as [[r1 ps1] l1] eqn:E. destruct (main_loop n e (u32 (c + 1)) r1 ps1) as [[r2 ps2] l2] eqn:M. injection H as <- <- <-.
  assert (G : settles any (wants (concat ps)) (wants (concat ps1)) l1 /\ map md_id (concat ps1) = map md_id (concat ps)).
  { destruct (negb (errors =? 0) && (c <? 60)).
    - apply setup_ports_spec in E; [|exact N]. destruct E as (S & I). split; [eapply settles_any; exact S|exact I].
    - injection E as <- <- <-. split; [apply settles_refl|reflexivity]. }
  destruct G as (G & I). eapply settles_trans; [exact G|]. eapply IH; [rewrite I; exact N|exact M].
Qed.

(** However often the main loop goes round and whatever the server answers, an event is added at most once, and only if it was asked for. *)
Theorem C116_once : forall n e ps r ps' l, NoDup (map md_id (concat ps)) -> main_loop n e 0 (-1) ps = (r, ps', l) ->
  NoDup l /\ forall x, In x l -> In x (wants (concat ps)).
Proof. intros n e ps r ps' l N H. apply main_loop_spec in H; [|exact N]. destruct H as (A & _ & _ & D & _). split; [exact D|exact A]. Qed.

Lemma setup_events_app e a : forall b r0, setup_events e r0 (a ++ b) =
  let '(r1, a', la) := setup_events e r0 a in let '(r2, b', lb) := setup_events e r1 b in (r2, a' ++ b', la ++ lb).
Proof.
  induction a as [|m a IH]; intros b r0; cbn [app setup_events]; [destruct (setup_events e r0 b) as [[? ?] ?]; reflexivity|].
  destruct (set_event (md_write m) _ r0) as [r1 dw]. set (m1 := if dw then _ else m). destruct (set_event (md_change m1) _ r1) as [r2 dc].
  set (m2 := if dc then _ else m1). destruct (set_event (md_trigger m2) _ r2) as [r3 dt]. set (m3 := if dt then _ else m2). rewrite IH.
  destruct (setup_events e r3 a) as [[r4 a4] l4]. destruct (setup_events e r4 b) as [[r5 b5] l5]. rewrite <- !app_assoc. reflexivity.
Qed.
Lemma setup_ports_last e ps : forall errors p r ps' l, setup_ports e errors (ps ++ [p]) = (r, ps', l) ->
  exists ps1 p1 lp, ps' = ps1 ++ [p1] /\ setup_events e 0 p = (r, p1, lp).
Proof.
  induction ps as [|q ps IH]; intros errors p r ps' l H; cbn [app setup_ports] in H.
  - destruct (setup_events e 0 p) as [[r1 p1] l1]. injection H as <- <- <-. exists [], p1, l1. split; reflexivity.
  - destruct (setup_events e 0 q) as [[r1 q1] l1]. destruct (setup_ports e (0 + r1) (ps ++ [p])) as [[r2 ps2] l2] eqn:E. injection H as <- <- <-.
    apply IH in E. destruct E as (ps1 & p1 & lp & -> & E). exists (q1 :: ps1), p1, lp. split; [reflexivity|exact E].
Qed.
Lemma setup_last e p m r p1 l : md_trigger m = true -> e (md_id m) EvTrigger <> 0 -> setup_events e 0 (p ++ [m]) = (r, p1, l) ->
  r = e (md_id m) EvTrigger + 1 /\ exists p0 m0, p1 = p0 ++ [m0] /\ md_trigger m0 = true /\ md_id m0 = md_id m.
Proof.
  intros T NE H. rewrite setup_events_app in H. destruct (setup_events e 0 p) as [[r1 a1] l1]. cbn [setup_events] in H.
  destruct (set_event (md_write m) _ r1) as [r2 dw]. set (m1 := if dw then _ else m) in H. destruct (set_event (md_change m1) _ r2) as [r3 dc].
  set (m2 := if dc then _ else m1) in H. assert (T2 : md_trigger m2 = true /\ md_id m2 = md_id m) by (subst m2 m1; destruct dw, dc; cbn; auto).
  destruct T2 as (T2 & I2). unfold set_event in H. rewrite T2, I2 in H. replace (e (md_id m) EvTrigger =? 0) with false in H by lia. injection H as <- <- _.
  split; [reflexivity|]. exists a1, m2. split; [reflexivity|]. split; assumption.
Qed.
(** Events are tried again for as long as the last command of the last port lacks the tag of its trigger, for up to 60 rounds: every event
    whose tag exists in round [k] is added by then (a write event stands for a change event). *)
Theorem C116_retried_partial : forall ps p m e n k r ps' l, NoDup (map md_id (concat (ps ++ [p ++ [m]]))) -> md_trigger m = true ->
  0 <= k < 60 -> k < Z.of_nat n -> (forall j, 0 <= j < k -> e j (md_id m) EvTrigger < -1) ->
  main_loop n e 0 (-1) (ps ++ [p ++ [m]]) = (r, ps', l) ->
  forall id kd, In (id, kd) (wants (concat (ps ++ [p ++ [m]]))) -> e k id kd = 0 -> In (id, kd) l \/ (kd = EvChange /\ In (id, EvWrite) l).
Proof.
  intros ps p m e n k r ps' l N T Hk Hn Hj H id kd Hw He.
  assert (G : forall i n c errors ps p m r ps' l, errors <> 0 -> md_trigger m = true -> NoDup (map md_id (concat (ps ++ [p ++ [m]]))) -> 0 <= c -> c + Z.of_nat i = k ->
    (forall j, c <= j < k -> e j (md_id m) EvTrigger < -1) -> main_loop (i + Datatypes.S n) e c errors (ps ++ [p ++ [m]]) = (r, ps', l) ->
    In (id, kd) (wants (concat (ps ++ [p ++ [m]]))) -> In (id, kd) l \/ (kd = EvChange /\ In (id, EvWrite) l)).
  { clear ps p m n r ps' l N T Hn Hj H Hw. induction i as [|i IH]; intros n c errors ps p m r ps' l He0 T N Hc Hi Hj H Hw; cbn [Nat.add main_loop] in H.
    - assert (c = k) as -> by lia. replace (negb (errors =? 0) && (k <? 60)) with true in H by lia.
      destruct (setup_ports (e k) errors (ps ++ [p ++ [m]])) as [[r1 ps1] l1] eqn:E. destruct (main_loop n e _ r1 ps1) as [[r2 ps2] l2]. injection H as <- <- <-.
      apply setup_ports_spec in E; [|exact N]. destruct E as ((_ & _ & _ & _ & S5 & S6) & _).
      destruct (S5 _ Hw) as [G|[G|[G1 G2]]]; [left; apply in_or_app; auto|destruct (S6 _ _ G He)|right; split; [exact G1|apply in_or_app; auto]].
    - replace (negb (errors =? 0) && (c <? 60)) with true in H by lia.
      destruct (setup_ports (e c) errors (ps ++ [p ++ [m]])) as [[r1 ps1] l1] eqn:E. destruct (main_loop (i + Datatypes.S n) e _ r1 ps1) as [[r2 ps2] l2] eqn:M. injection H as <- <- <-.
      assert (Hm := Hj c ltac:(lia)). assert (E' := E). apply setup_ports_last in E'. destruct E' as (ps0 & p1 & lp & -> & El). apply setup_last in El; [|exact T|lia].
      destruct El as (-> & p0 & m0 & -> & T0 & I0). apply setup_ports_spec in E; [|exact N]. destruct E as ((_ & _ & _ & _ & S5 & _) & I).
      destruct (S5 _ Hw) as [G|[G|[G1 G2]]]; [left; apply in_or_app; auto| |right; split; [exact G1|apply in_or_app; auto]].
      replace (u32 (c + 1)) with (c + 1) in M by (unfold u32; rewrite Z.mod_small; lia).
      destruct (IH n (c + 1) (e c (md_id m) EvTrigger + 1) ps0 p0 m0 r2 ps2 l2) as [Q|[Q1 Q2]]; try assumption; try lia.
      + rewrite I. exact N.
      + intros j Hj'. rewrite I0. apply Hj. lia.
      + left. apply in_or_app. auto.
      + right. split; [exact Q1|]. apply in_or_app. auto. }
  apply (G (Z.to_nat k) (n - Datatypes.S (Z.to_nat k))%nat 0 (-1) ps p m r ps' l); try assumption; try lia.
  replace (Z.to_nat k + Datatypes.S (n - Datatypes.S (Z.to_nat k)))%nat with n by lia. exact H.
Qed.
Lemma main_loop_stop n : forall e c ps, main_loop n e c 0 ps = (0, ps, []).
Proof. induction n as [|n IH]; intros e c ps; cbn [main_loop]; [reflexivity|]. cbn [Z.eqb negb andb]. rewrite IH. reflexivity. Qed.
(** The result of a port is that of its last event, and the result of a round that of the last port: a trigger whose tag comes one round
    late is never set up if a later command or a later port has no error. *)
Definition late (n : Z) (id : Z) (k : evkind) : Z := if (n =? 0) && (id =? 1) then E_NOTFOUND else 0.
Theorem C116_port_refuted : forall n, snd (main_loop n late 0 (-1) [[mkMode 1 false false true]; []]) = [].
Proof. intros [|n]; [reflexivity|]. cbn -[main_loop]. cbn [main_loop]. cbn. rewrite main_loop_stop. reflexivity. Qed.
Theorem C116_command_refuted : forall n, ~ In (1, EvTrigger) (snd (main_loop n late 0 (-1) [[mkMode 1 false false true; mkMode 2 false false true]])).
Proof. intros [|n]; [intros []|]. cbn -[main_loop]. cbn [main_loop]. cbn. rewrite main_loop_stop. cbn. intros [H|[]]. discriminate. Qed.
(** An event whose tag is missing in the first 60 rounds is not set up in the 2^32 that follow. *)
Theorem C116_late_refuted : forall e ps n, NoDup (map md_id (concat ps)) -> Z.of_nat n <= 4294967296 -> forall id k,
  (forall j, 0 <= j < 60 -> e j id k <> 0) -> ~ In (id, k) (snd (main_loop n e 0 (-1) ps)).
Proof.
  intros e ps n N Hn id k He. assert (G : forall n c errors ps, 0 <= c -> c + Z.of_nat n <= 4294967296 -> NoDup (map md_id (concat ps)) -> ~ In (id, k) (snd (main_loop n e c errors ps))).
  { clear ps n N Hn. induction n as [|n IH]; intros c errors ps Hc Hn N; cbn [main_loop]; [intros []|].
    destruct (if _ && _ then _ else _) as [[r1 ps1] l1] eqn:E. destruct (main_loop n e (u32 (c + 1)) r1 ps1) as [[r2 ps2] l2] eqn:M. cbn [snd]. intros H. apply in_app_or in H.
    assert (G : map md_id (concat ps1) = map md_id (concat ps) /\ ~ In (id, k) l1).
    { destruct (negb (errors =? 0) && (c <? 60)) eqn:Q.
      - clear M H IH. assert (Hx := He c ltac:(lia)). clear -E N Hx. assert (I : map md_id (concat ps1) = map md_id (concat ps)) by (eapply setup_ports_spec; [exact N|exact E]). split; [exact I|].
        clear N I. revert errors r1 ps1 l1 E. induction ps as [|p ps IH]; intros errors r1 ps1 l1 E; cbn [setup_ports] in E; [injection E as <- <- <-; intros []|].
        destruct (setup_events (e c) 0 p) as [[r2 p2] l2] eqn:E1. destruct (setup_ports (e c) (0 + r2) ps) as [[r3 ps3] l3] eqn:E2. injection E as <- <- <-.
        intros H. apply in_app_or in H. destruct H as [H|H]; [|exact (IH _ _ _ _ E2 H)]. clear -E1 H Hx. revert E1 H. generalize 0. revert r2 p2 l2.
        induction p as [|m p IH]; intros r2 p2 l2 r0 E H; cbn [setup_events] in E; [injection E as <- <- <-; destruct H|].
        destruct (set_event (md_write m) (e c (md_id m) EvWrite) r0) as [r1 dw] eqn:D1. set (m1 := if dw then _ else m) in E. destruct (set_event (md_change m1) (e c (md_id m1) EvChange) r1) as [r4 dc] eqn:D2.
        set (m2 := if dc then _ else m1) in E. destruct (set_event (md_trigger m2) (e c (md_id m2) EvTrigger) r4) as [r3 dt] eqn:D3. set (m3 := if dt then _ else m2) in E.
        destruct (setup_events (e c) r3 p) as [[r5 p5] l5] eqn:D5. injection E as <- <- <-.
        assert (J1 : md_id m1 = md_id m) by (subst m1; destruct dw; reflexivity). assert (J2 : md_id m2 = md_id m) by (subst m2; destruct dc; cbn; exact J1).
        assert (J3 : md_id m3 = md_id m) by (subst m3; destruct dt; cbn; exact J2). rewrite J3 in H. rewrite J1 in D2. rewrite J2 in D3. clear J1 J2 J3.
        unfold set_event in D1, D2, D3. rewrite !in_app_iff in H. destruct H as [H|[H|[H|H]]]; [| | |exact (IH _ _ _ _ D5 H)].
        + destruct dw; [destruct H as [H|[]]|destruct H]. injection H as <- <-. destruct (md_write m); [|discriminate]. destruct (e c (md_id m) EvWrite =? 0) eqn:Z; [lia|discriminate].
        + destruct dc; [destruct H as [H|[]]|destruct H]. injection H as <- <-. destruct (md_change m1); [|discriminate]. destruct (e c (md_id m) EvChange =? 0) eqn:Z; [lia|discriminate].
        + destruct dt; [destruct H as [H|[]]|destruct H]. injection H as <- <-. destruct (md_trigger m2); [|discriminate]. destruct (e c (md_id m) EvTrigger =? 0) eqn:Z; [lia|discriminate].
      - injection E as <- <- <-. split; [reflexivity|intros []]. }
    destruct G as (I & G). destruct H as [H|H]; [exact (G H)|]. destruct n as [|n]; [cbn in M; injection M as <- <- <-; destruct H|].
    apply (IH (u32 (c + 1)) r1 ps1).
    - unfold u32. apply Z.mod_pos_bound. lia.
    - unfold u32. destruct (Z.eq_dec (c + 1) 4294967296) as [Q|Q]; [rewrite Q; lia|rewrite Z.mod_small by lia; lia].
    - rewrite I. exact N.
    - rewrite M. exact H. }
  apply G; [lia|lia|exact N].
Qed.
Example C116_ex : let e := fun n id k => if n <? id then E_NOTFOUND else 0 in
  main_loop 5 e 0 (-1) [[mkMode 1 true true false]; [mkMode 2 false true false; mkMode 3 false false true]] =
    (0, [[mkMode 1 false false false]; [mkMode 2 false false false; mkMode 3 false false false]], [(1, EvWrite); (2, EvChange); (3, EvTrigger)]).
Proof. reflexivity. Qed.

(** ** C117: the enable bits of a master port *)
Lemma enable_bits_spec en : forall n bits, bytes_ok bits -> 0 <= n -> n + zlen en <= 8 * zlen bits ->
  exists b, enable_bits n bits en = Done b /\ bytes_ok b /\ zlen b = zlen bits /\
    forall j, 0 <= j < 8 * zlen bits -> bit b j = if (n <=? j) && (j <? n + zlen en) then nth (Z.to_nat (j - n)) en false else bit bits j.
Proof.
  induction en as [|v en IH]; intros n bits B Hn HL; cbn [enable_bits].
  - exists bits. split; [reflexivity|]. split; [exact B|]. split; [reflexivity|]. intros j Hj. change (zlen (@nil bool)) with 0. replace ((n <=? j) && (j <? n + 0)) with false by lia. reflexivity.
  - rewrite zlen_cons in HL. pose proof (zlen_nonneg en). destruct (assign_bit_spec bits n v B ltac:(lia)) as (b1 & E & B1 & L1 & S1 & _). rewrite E. cbn [rbind].
    destruct (IH (n + 1) b1 B1 ltac:(lia) ltac:(lia)) as (b & Eb & Bb & Lb & Sb). exists b. split; [exact Eb|]. split; [exact Bb|]. split; [lia|].
    intros j Hj. rewrite Sb by lia. rewrite zlen_cons. rewrite S1 by lia. destruct (Z.eq_dec j n) as [->|Q].
    + replace (n + 1 <=? n) with false by lia. cbn [andb]. rewrite Z.eqb_refl. replace ((n <=? n) && (n <? n + (1 + zlen en))) with true by lia. rewrite Z.sub_diag. reflexivity.
    + replace (j =? n) with false by lia. replace ((n <=? j) && (j <? n + (1 + zlen en))) with ((n + 1 <=? j) && (j <? n + 1 + zlen en)) by lia.
      destruct ((n + 1 <=? j) && (j <? n + 1 + zlen en)) eqn:K; [|reflexivity]. replace (Z.to_nat (j - n)) with (Datatypes.S (Z.to_nat (j - (n + 1)))) by lia. reflexivity.
Qed.
Lemma enable_callback_spec bits old : forall n, 0 <= n -> n + zlen old <= 8 * zlen bits -> exists r, enable_callback n bits old = Done r /\ zlen r = zlen old /\
  forall i, 0 <= i < zlen old -> nth (Z.to_nat i) r false = bit bits (n + i).
Proof.
  induction old as [|o old IH]; intros n Hn HL; cbn [enable_callback].
  - exists []. split; [reflexivity|]. split; [reflexivity|]. intros i Hi. change (zlen (@nil bool)) with 0 in Hi. lia.
  - rewrite zlen_cons in *. pose proof (zlen_nonneg old). destruct (znth_some bits (n / 8)) as (b & Eb); [lia|]. rewrite Eb.
    destruct (IH (n + 1) ltac:(lia) ltac:(lia)) as (r & Er & Lr & Sr). rewrite Er. cbn [rbind]. eexists. split; [reflexivity|]. rewrite !zlen_cons. split; [lia|].
    intros i Hi. destruct (Z.eq_dec i 0) as [->|Q].
    + rewrite Z.add_0_r. unfold bit. rewrite (nthb_znth _ _ _ Eb). reflexivity.
    + replace (Z.to_nat i) with (Datatypes.S (Z.to_nat (i - 1))) by lia. cbn [nth]. rewrite Sr by lia. f_equal. lia.
Qed.
(** What the module writes to the enable tag at first stands for the settings of all commands, whatever malloc gave; reading it back
    changes nothing. *)
Theorem C117_initial : forall junk en old, bytes_ok junk -> zlen junk = (zlen en + 7) / 8 -> zlen old = zlen en ->
  exists bits, initial_bits junk en = Done bits /\ zlen bits = zlen junk /\ enable_callback 0 bits old = Done en.
Proof.
  intros junk en old B L O. pose proof (zlen_nonneg en). destruct (enable_bits_spec en 0 junk B ltac:(lia) ltac:(lia)) as (b & E & Bb & Lb & Sb).
  exists b. split; [exact E|]. split; [exact Lb|]. destruct (enable_callback_spec b old 0 ltac:(lia) ltac:(lia)) as (r & Er & Lr & Sr). rewrite Er. f_equal.
  apply (nth_ext r en false false); [unfold zlen in *; lia|]. intros n Hn. assert (Hn' : 0 <= Z.of_nat n < zlen old) by (unfold zlen in *; lia).
  specialize (Sr (Z.of_nat n) Hn'). rewrite Nat2Z.id in Sr. rewrite Sr, Z.add_0_l. rewrite Sb by lia. replace ((0 <=? Z.of_nat n) && (Z.of_nat n <? 0 + zlen en)) with true by lia.
  rewrite Z.sub_0_r, Nat2Z.id. reflexivity.
Qed.
(** After a change of the tag, command [i] is enabled if and only if bit [i] is set; the others do not matter. *)
Theorem C117_change : forall bits old, zlen bits = (zlen old + 7) / 8 -> exists r, enable_callback 0 bits old = Done r /\ zlen r = zlen old /\
  forall i, 0 <= i < zlen old -> nth (Z.to_nat i) r false = bit bits i.
Proof. intros bits old L. pose proof (zlen_nonneg old). destruct (enable_callback_spec bits old 0 ltac:(lia) ltac:(lia)) as (r & E & A & B). exists r. split; [exact E|]. split; [exact A|]. intros i Hi. rewrite (B i Hi). reflexivity. Qed.
(** With two master ports that have a command tag, the type of the second is a variable that was never set. *)
Theorem C117_type_refuted : forall ty p1 p2 ps, command_tags false ty (p1 :: p2 :: ps) = Undef UUninit.
Proof. reflexivity. Qed.
Theorem C117_type_partial : forall ty p, command_tags false ty [p] = Done [(p, ty)].
Proof. reflexivity. Qed.
Example C117_ex : initial_bits [255; 255] [true; false; true; false; false; false; false; false; false; true] = Done [5; 254]
  /\ enable_callback 0 [5; 254] (repeat true 10) = Done [true; false; true; false; false; false; false; false; false; true].
Proof. split; reflexivity. Qed.

(** ** C118: the threads of the ports *)
Definition pc_of (s : threads) (i : Z) : option tpc := option_map snd (znth (th_pcs s) i).
Lemma pc_set s i k t j : (exists x, znth (th_pcs s) i = Some x) -> pc_of (set_pc s i k t) j = if j =? i then Some t else pc_of s j.
Proof.
  intros (x & E). unfold pc_of, set_pc. cbn [th_pcs]. apply znth_range in E. destruct (Z.eqb_spec j i) as [->|N].
  - rewrite znth_zset_eq by lia. reflexivity.
  - rewrite znth_zset_ne by (intros ->; lia). reflexivity.
Qed.
Definition opened (s : threads) : bool := th_main s && negb (th_past s) && forallb (fun x => waits (snd x)) (th_pcs s).
Lemma pc_barrier s j : pc_of (barrier s) j = if opened s then option_map released (pc_of s j) else pc_of s j.
Proof. unfold barrier, opened. destruct (_ && _); [|reflexivity]. unfold pc_of. cbn [th_pcs]. rewrite znth_map. destruct (znth (th_pcs s) j); reflexivity. Qed.
Lemma past_barrier s : th_past (barrier s) = opened s || th_past s.
Proof. unfold barrier, opened. destruct (_ && _); reflexivity. Qed.
Lemma opened_waits s j t : opened s = true -> pc_of s j = Some t -> waits t = true.
Proof.
  intros O E. unfold opened in O. apply andb_true_iff in O. destruct O as (_ & O). rewrite forallb_forall in O. unfold pc_of in E.
  destruct (znth (th_pcs s) j) as [x|] eqn:Z; [|discriminate]. injection E as <-. apply O. eapply znth_In. exact Z.
Qed.
(** a thread that is not running when the barrier has been passed never runs *)
Lemma past_step s e i : th_past s = true -> pc_of s i <> Some TRun -> th_past (th_step s e) = true /\ pc_of (th_step s e) i <> Some TRun.
Proof.
  intros P N. assert (NB : forall x, th_past x = true -> opened x = false) by (intros x Hx; unfold opened; rewrite Hx; cbn; rewrite andb_false_r; reflexivity).
  destruct e as [j ok|j|j g|]; cbn [th_step].
  - destruct (znth (th_pcs s) j) as [[k t]|] eqn:E; [|auto]. destruct t; try auto. rewrite past_barrier, pc_barrier. rewrite NB by exact P. split; [exact P|].
    rewrite pc_set by eauto. destruct (i =? j); [|exact N]. destruct stale, ok; discriminate.
  - auto.
  - destruct (znth (th_pcs s) j) as [[k t]|] eqn:E; [|auto]. destruct k, t; try auto; (split; [exact P|]; rewrite pc_set by eauto; destruct (i =? j); [discriminate|exact N]).
  - destruct (th_main s); [auto|]. rewrite past_barrier, pc_barrier. rewrite NB by exact P. split; [exact P|exact N].
Qed.
Lemma never_again : forall es s i, th_past s = true -> pc_of s i <> Some TRun -> pc_of (th_run s es) i <> Some TRun.
Proof. induction es as [|e es IH]; intros s i P N; [exact N|]. unfold th_run. cbn [fold_left]. destruct (past_step s e i P N) as (P1 & N1). apply IH; assumption. Qed.
(** A thread that leaves the loop of its port after an error opens the port again, but waits at a barrier that never opens a second time:
    the port is never served again. *)
Theorem C118_again_refuted : forall es s i gone, th_past s = true -> pc_of s i = Some TRun -> pc_of (th_run s (EFails i gone :: es)) i <> Some TRun.
Proof.
  intros es s i gone P R. unfold th_run. cbn [fold_left]. apply never_again; cbn [th_step]; unfold pc_of in R; destruct (znth (th_pcs s) i) as [(k & t)|] eqn:Z; try discriminate; cbn in R; injection R as ->.
  - destruct k; exact P.
  - destruct k; rewrite pc_set by (rewrite Z; eauto); rewrite Z.eqb_refl; discriminate.
Qed.

(** so does one whose first attempt to open the port fails *)
Lemma top_step s e i : th_past s = false -> pc_of s i = Some (TTop false) -> (forall ok, e <> EOpen i ok) -> th_past (th_step s e) = false /\ pc_of (th_step s e) i = Some (TTop false).
Proof.
  intros P T N. assert (NB : forall x, pc_of x i = Some (TTop false) -> opened x = false).
  { intros x Hx. destruct (opened x) eqn:O; [|reflexivity]. apply (opened_waits x i _ O) in Hx. discriminate. }
  destruct e as [j ok|j|j g|]; cbn [th_step].
  - destruct (znth (th_pcs s) j) as [[k t]|] eqn:E; [|auto]. destruct t; try auto. assert (i <> j) by (intros ->; apply (N ok); reflexivity).
    set (s1 := set_pc _ _ _ _). assert (T1 : pc_of s1 i = Some (TTop false)) by (unfold s1; rewrite pc_set by eauto; replace (i =? j) with false by lia; exact T).
    rewrite past_barrier, pc_barrier. rewrite (NB s1 T1). split; [exact P|exact T1].
  - auto.
  - destruct (znth (th_pcs s) j) as [[k t]|] eqn:E; [|auto]. assert (i <> j \/ t = TTop false).
    { destruct (Z.eq_dec i j) as [->|]; [|auto]. right. unfold pc_of in T. rewrite E in T. injection T as ->. reflexivity. }
    destruct k, t; try auto; (split; [exact P|]; rewrite pc_set by eauto; destruct H as [H|H]; [|discriminate]; replace (i =? j) with false by lia; exact T).
  - destruct (th_main s); [auto|]. rewrite past_barrier, pc_barrier. rewrite NB by exact T. split; [exact P|exact T].
Qed.
Definition stuck (s : threads) (i : Z) : Prop := pc_of s i = Some (TWaitFail false) \/ (th_past s = true /\ pc_of s i <> Some TRun).
Lemma stuck_step s e i : stuck s i -> stuck (th_step s e) i.
Proof.
  intros [T|[P N]]; [|right; apply past_step; assumption].
  assert (NB : forall x, pc_of x i = Some (TWaitFail false) -> stuck (barrier x) i).
  { intros x Hx. unfold stuck. rewrite past_barrier, pc_barrier. rewrite Hx. destruct (opened x); [right; split; [reflexivity|discriminate]|left; reflexivity]. }
  destruct e as [j ok|j|j g|]; cbn [th_step].
  - destruct (znth (th_pcs s) j) as [[k t]|] eqn:E; [|left; exact T]. destruct t; try (left; exact T). apply NB. rewrite pc_set by eauto. destruct (Z.eqb_spec i j) as [->|]; [|exact T].
    unfold pc_of in T. rewrite E in T. discriminate.
  - left. exact T.
  - destruct (znth (th_pcs s) j) as [[k t]|] eqn:E; [|left; exact T]. assert (i <> j \/ t = TWaitFail false).
    { destruct (Z.eq_dec i j) as [->|]; [|auto]. right. unfold pc_of in T. rewrite E in T. injection T as ->. reflexivity. }
    destruct k, t; try (left; exact T); left; rewrite pc_set by eauto; (destruct H as [H|H]; [|discriminate]; replace (i =? j) with false by lia; exact T).
  - destruct (th_main s); [left; exact T|]. apply NB. exact T.
Qed.
Lemma start_past ks : th_past (th_start ks) = false.
Proof. reflexivity. Qed.
Lemma start_pc ks i k b : znth ks i = Some (k, b) -> pc_of (th_start ks) i = Some (if b then TTop false else TNone).
Proof. intros E. unfold pc_of, th_start. cbn [th_pcs]. rewrite znth_map, E. reflexivity. Qed.
Theorem C118_first_refuted : forall ks es es' i k, znth ks i = Some (k, true) -> (forall ok, ~ In (EOpen i ok) es) ->
  pc_of (th_run (th_start ks) (es ++ EOpen i false :: es')) i <> Some TRun.
Proof.
  intros ks es es' i k E N. unfold th_run. rewrite fold_left_app. cbn [fold_left]. assert (S := start_pc _ _ _ _ E).
  assert (G : forall es s, (forall ok, ~ In (EOpen i ok) es) -> th_past s = false -> pc_of s i = Some (TTop false) -> pc_of (fold_left th_step es s) i = Some (TTop false)).
  { clear. induction es as [|e es IH]; intros s N P T; cbn [fold_left]; [exact T|]. destruct (top_step s e i P T) as (P1 & T1); [intros ok ->; apply (N ok); left; reflexivity|].
    apply IH; [intros ok H; apply (N ok); right; exact H|exact P1|exact T1]. }
  specialize (G es (th_start ks) N (start_past ks) S). set (s := fold_left th_step es _) in *.
  assert (K : stuck (th_step s (EOpen i false)) i).
  { unfold pc_of in G. destruct (znth (th_pcs s) i) as [[k1 t]|] eqn:Ei; [|discriminate]. injection G as ->. cbn [th_step]. rewrite Ei. unfold stuck. rewrite past_barrier, pc_barrier. rewrite pc_set by eauto. rewrite Z.eqb_refl.
    destruct (opened _); [right; split; [reflexivity|discriminate]|left; reflexivity]. }
  assert (G' : forall es s, stuck s i -> stuck (fold_left th_step es s) i) by (clear; induction es as [|e es IH]; intros s H; cbn [fold_left]; [exact H|apply IH, stuck_step, H]).
  destruct (G' es' _ K) as [H|[_ H]]; [rewrite H; discriminate|exact H].
Qed.
(** If one port of the configuration could not be set up, its thread is missing at the barrier: no port is ever served, and the main thread
    never gets as far as telling the server that the module runs. *)
Definition waiting (s : threads) (i : Z) : Prop := pc_of s i = Some TNone /\ th_past s = false /\ forall j, pc_of s j <> Some TRun.
Lemma waiting_step s e i : waiting s i -> waiting (th_step s e) i.
Proof.
  intros W. assert (NB : forall x, waiting x i -> waiting (barrier x) i).
  { intros x (X & P & R). assert (O : opened x = false) by (destruct (opened x) eqn:O; [apply (opened_waits x i _ O) in X; discriminate|reflexivity]).
    unfold waiting. rewrite past_barrier. split; [rewrite pc_barrier, O; exact X|]. split; [rewrite O; exact P|]. intros j. rewrite pc_barrier, O. apply R. }
  assert (K := W). destruct K as (X & P & R). destruct e as [j ok|j|j g|]; cbn [th_step].
  - destruct (znth (th_pcs s) j) as [[k t]|] eqn:E; [|exact W]. destruct t; try exact W. apply NB. split; [|split; [exact P|]].
    + rewrite pc_set by eauto. destruct (Z.eqb_spec i j) as [->|]; [|exact X]. unfold pc_of in X. rewrite E in X. discriminate.
    + intros j'. rewrite pc_set by eauto. destruct (j' =? j); [destruct stale, ok; discriminate|apply R].
  - exact W.
  - destruct (znth (th_pcs s) j) as [[k t]|] eqn:E; [|exact W]. destruct k, t; try exact W; exfalso; apply (R j); unfold pc_of; rewrite E; reflexivity.
  - destruct (th_main s); [exact W|]. apply NB. exact W.
Qed.
Theorem C118_missing_refuted : forall ks es i k, znth ks i = Some (k, false) ->
  th_past (th_run (th_start ks) es) = false /\ forall j, pc_of (th_run (th_start ks) es) j <> Some TRun.
Proof.
  intros ks es i k E. assert (W : waiting (th_run (th_start ks) es) i).
  { unfold th_run. assert (W : waiting (th_start ks) i).
    { split; [exact (start_pc _ _ _ _ E)|]. split; [reflexivity|]. intros j. unfold pc_of, th_start. cbn [th_pcs]. rewrite znth_map. destruct (znth ks j) as [[? []]|]; discriminate. }
    revert W. generalize (th_start ks). induction es as [|e es IH]; intros s W; cbn [fold_left]; [exact W|apply IH, waiting_step, W]. }
  destruct W as (_ & W). exact W.
Qed.
(** If every port has a thread and can be opened, all of them run once each has been opened and the main thread has arrived, in whatever order. *)
Definition ready (s : threads) : Prop :=
  (th_past s = false /\ opened s = false /\ forall j t, pc_of s j = Some t -> t = TTop false \/ t = TWaitRun) \/ (th_past s = true /\ forall j t, pc_of s j = Some t -> t = TRun).
Lemma ready_barrier s : th_past s = false -> (forall j t, pc_of s j = Some t -> t = TTop false \/ t = TWaitRun) -> ready (barrier s).
Proof.
  intros P A. unfold ready. rewrite past_barrier. destruct (opened s) eqn:O.
  - right. split; [reflexivity|]. intros j t. rewrite pc_barrier, O. destruct (pc_of s j) as [u|] eqn:E; [|discriminate]. intros H. injection H as <-.
    assert (Wt := opened_waits s j u O E). destruct (A j u E) as [->| ->]; [discriminate|reflexivity].
  - left. split; [exact P|]. split; [unfold barrier; unfold opened in O; rewrite O; exact O|]. intros j t. rewrite pc_barrier, O. apply A.
Qed.
Definition fine (e : tev) : Prop := e = EMain \/ exists i, e = EOpen i true.
Lemma ready_step s e : ready s -> fine e -> ready (th_step s e) /\ (th_main s = true \/ e = EMain -> th_main (th_step s e) = true)
  /\ forall j, (pc_of s j <> Some (TTop false) \/ e = EOpen j true) -> pc_of (th_step s e) j <> Some (TTop false).
Proof.
  intros R [->|(i & ->)]; cbn [th_step].
  - destruct (th_main s) eqn:M; [split; [exact R|]; split; [auto|]; intros j [H|H]; [exact H|discriminate]|].
    split; [|split].
    + destruct R as [(P & _ & A)|(P & A)]; [apply ready_barrier; assumption|]. right. rewrite past_barrier. cbn [th_past]. rewrite P, orb_true_r. split; [reflexivity|].
      intros j t. rewrite pc_barrier. unfold opened. cbn [th_main th_past th_pcs]. rewrite ?P. cbn [negb andb]. apply A.
    + intros _. unfold barrier. destruct (_ && _); reflexivity.
    + intros j [H|H]; [|discriminate]. rewrite pc_barrier. change (pc_of (mkTh (th_pcs s) true (th_past s)) j) with (pc_of s j). destruct (opened _); [|exact H].
      destruct (pc_of s j) as [t|] eqn:E; [|discriminate]. destruct R as [(_ & _ & A)|(_ & A)]; [destruct (A j t E) as [->| ->]; [destruct (H eq_refl)|discriminate]|rewrite (A j t E); discriminate].
  - destruct (znth (th_pcs s) i) as [[k t]|] eqn:E.
    2:{ split; [exact R|]. split; [intros [H|H]; [exact H|discriminate]|]. intros j [H|H]; [exact H|]. injection H as <-. unfold pc_of. rewrite E. discriminate. }
    assert (Ei : pc_of s i = Some t) by (unfold pc_of; rewrite E; reflexivity).
    assert (D : t = TTop false \/ t <> TTop false) by (destruct t as [|[]| |[]| |]; auto; right; discriminate). destruct D as [->|D].
    2:{ assert (Q : t = TWaitRun \/ t = TRun) by (destruct R as [(_ & _ & A)|(_ & A)]; [destruct (A i t Ei); [contradiction|auto]|right; exact (A i t Ei)]).
        destruct Q as [-> | ->]; (split; [exact R|]; split; [intros [H|H]; [exact H|discriminate]|]; intros j [H|H]; [exact H|]; injection H as <-; rewrite Ei; discriminate). }
    destruct R as [(P & O & A)|(P & A)]; [|specialize (A i _ Ei); discriminate].
    set (s1 := set_pc s i k TWaitRun). assert (A1 : forall j t, pc_of s1 j = Some t -> t = TTop false \/ t = TWaitRun).
    { intros j t. unfold s1. rewrite pc_set by eauto. destruct (j =? i); [intros H; injection H as <-; auto|apply A]. }
    split; [apply ready_barrier; [exact P|exact A1]|]. split; [intros [H|H]; [|discriminate]; unfold barrier; destruct (_ && _); [reflexivity|exact H]|].
    intros j H. rewrite pc_barrier. assert (H1 : pc_of s1 j <> Some (TTop false)).
    { unfold s1. rewrite pc_set by eauto. destruct (Z.eqb_spec j i) as [|N]; [discriminate|]. destruct H as [H|H]; [exact H|]. injection H as ->. contradiction. }
    destruct (opened s1); [|exact H1]. destruct (pc_of s1 j) as [u|] eqn:Eu; [|discriminate]. destruct (A1 j u Eu) as [->| ->]; [contradiction|discriminate].
Qed.
Theorem C118_start_partial : forall ks es, (forall k b, In (k, b) ks -> b = true) -> (forall e, In e es -> fine e) ->
  In EMain es -> (forall i, 0 <= i < zlen ks -> In (EOpen i true) es) ->
  th_past (th_run (th_start ks) es) = true /\ forall i, 0 <= i < zlen ks -> pc_of (th_run (th_start ks) es) i = Some TRun.
Proof.
  intros ks es HK HF HM HO.
  assert (G : forall es s, ready s -> (forall e, In e es -> fine e) -> ready (fold_left th_step es s) /\ (th_main s = true \/ In EMain es -> th_main (fold_left th_step es s) = true)
    /\ forall j, (pc_of s j <> Some (TTop false) \/ In (EOpen j true) es) -> pc_of (fold_left th_step es s) j <> Some (TTop false)).
  { clear. induction es as [|e es IH]; intros s R F; cbn [fold_left].
    - split; [exact R|]. split; [intros [H|[]]; exact H|]. intros j [H|[]]; exact H.
    - destruct (ready_step s e R (F e (or_introl eq_refl))) as (R1 & M1 & A1). destruct (IH _ R1 (fun x H => F x (or_intror H))) as (R2 & M2 & A2). split; [exact R2|]. split.
      + intros [H|[H|H]]; apply M2; [left; apply M1; left; exact H|left; apply M1; right; exact H|right; exact H].
      + intros j [H|[H|H]]; apply A2; [left; apply A1; left; exact H|left; apply A1; right; exact H|right; exact H]. }
  assert (LEN : forall es s, zlen (th_pcs (fold_left th_step es s)) = zlen (th_pcs s)).
  { clear. induction es as [|e es IH]; intros s; cbn [fold_left]; [reflexivity|]. rewrite IH. assert (B : forall x, zlen (th_pcs (barrier x)) = zlen (th_pcs x)) by (intros x; unfold barrier; destruct (_ && _); [cbn [th_pcs]; apply zlen_map|reflexivity]).
    destruct e as [j ok|j|j g|]; cbn [th_step].
    - destruct (znth (th_pcs s) j) as [[k []]|]; try reflexivity. rewrite B. cbn [set_pc th_pcs]. apply zset_zlen.
    - reflexivity.
    - destruct (znth (th_pcs s) j) as [[[] []]|]; try reflexivity; cbn [set_pc th_pcs]; apply zset_zlen.
    - destruct (th_main s); [reflexivity|]. rewrite B. reflexivity. }
  assert (R0 : ready (th_start ks)).
  { left. split; [reflexivity|]. split; [reflexivity|]. intros j t. unfold pc_of, th_start. cbn [th_pcs]. rewrite znth_map. destruct (znth ks j) as [[k b]|] eqn:E; [|discriminate].
    cbn. intros H. injection H as <-. rewrite (HK k b); [auto|]. eapply znth_In. exact E. }
  destruct (G es (th_start ks) R0 HF) as (R & M & A). specialize (LEN es (th_start ks)). unfold th_run. set (s := fold_left th_step es (th_start ks)) in *.
  assert (L : zlen (th_pcs s) = zlen ks) by (rewrite LEN; unfold th_start; cbn [th_pcs]; apply zlen_map). specialize (M (or_intror HM)).
  assert (P : th_past s = true /\ forall j t, pc_of s j = Some t -> t = TRun).
  { destruct R as [(P & O & B)|R]; [|exact R]. exfalso. unfold opened in O. rewrite M, P in O. cbn [negb andb] in O.
    assert (X : forallb (fun x => waits (snd x)) (th_pcs s) = true); [|rewrite X in O; discriminate]. apply forallb_forall. intros x Hx. apply In_znth in Hx. destruct Hx as (n & Zn).
    assert (En : pc_of s (n) = Some (snd x)) by (unfold pc_of; rewrite Zn; reflexivity). destruct (B _ _ En) as [Q|Q]; [|rewrite Q; reflexivity].
    exfalso. apply (A (n)); [right; apply HO; apply znth_range in Zn; lia|]. rewrite En, Q. reflexivity. }
  destruct P as (P & Q). split; [exact P|]. intros i Hi. destruct (znth_some (th_pcs s) i) as (x & E); [lia|]. assert (Ei : pc_of s i = Some (snd x)) by (unfold pc_of; rewrite E; reflexivity).
  rewrite Ei. f_equal. exact (Q i _ Ei).
Qed.
Example C118_ex : let s := th_run (th_start [(KMaster, true); (KServer, true); (KSlave, true)]) [EOpen 1 true; EMain; EOpen 0 false; EOpen 2 true] in
  th_past s = true /\ pc_of s 0 = Some (TTop false) /\ pc_of s 1 = Some TRun
  /\ pc_of (th_run s [EFails 1 false; EOpen 1 true; EOpen 0 true]) 1 = Some (TWaitFail true) /\ pc_of (th_run s [EFails 1 false; EOpen 1 true; EOpen 0 true]) 0 = Some TWaitRun.
Proof. repeat split. Qed.
