(** * C51, C52, C61: events and answers received by a client; C62: cutting the byte stream into messages; C63: deadlines *)
From Verif Require Import Base Const Lib ClientRx Prop_Wire.
From Coq Require Import Lia.

(** What the two threads of a client do, one locked section at a time, in any order *)
Inductive act :=
| Arrive (m : cmsg)      (* the connection thread receives a message *)
| Fetch                  (* the program asks for an event *)
| Take (cmd : Z).        (* a request waits for its answer, and this is where the wait ends *)
Inductive out := Event (m : cmsg) | Reply (cmd code : Z) (data : list Z).
Fixpoint client (acts : list act) (s : crx) : run (crx * list out) :=
  match acts with
  | [] => Done (s, [])
  | Arrive m :: r => s <-- accept_msg m s ;; client r s
  | Fetch :: r =>
      x <-- fetch_event s ;;
      y <-- client r (fst x) ;;
      Done (fst y, match snd x with Some m => Event m :: snd y | None => snd y end)
  | Take c :: r =>
      x <-- take_answer c s ;;
      y <-- client r (fst x) ;;
      Done (fst y, Reply c (fst (snd x)) (snd (snd x)) :: snd y)
  end.
Definition is_event (m : cmsg) : bool := negb (Z.land (cm_kind m) F_EVENT =? 0).
Definition is_error (m : cmsg) : bool := negb (Z.land (cm_kind m) F_ERROR =? 0).
(** the server puts a code into every error message *)
Definition coded (a : act) : Prop := match a with Arrive m => is_error m = true -> 4 <= zlen (cm_bytes m) | _ => True end.

(** What the backlog ought to be: at most [n] events, the newest ones, the oldest first *)
Definition keep (n : nat) (q : list cmsg) : list cmsg := skipn (length q - n) q.
Fixpoint backlog (n : nat) (acts : list act) (q : list cmsg) : list cmsg :=
  match acts with
  | [] => q
  | Arrive m :: r => backlog n r (if is_event m then keep n (q ++ [m]) else q)
  | Fetch :: r => backlog n r (tl q)
  | Take _ :: r => backlog n r q
  end.
Fixpoint fetched (n : nat) (acts : list act) (q : list cmsg) : list cmsg :=
  match acts with
  | [] => []
  | Arrive m :: r => fetched n r (if is_event m then keep n (q ++ [m]) else q)
  | Fetch :: r => match q with [] => fetched n r [] | m :: q => m :: fetched n r q end
  | Take _ :: r => fetched n r q
  end.
Definition events_of (os : list out) : list cmsg := flat_map (fun o => match o with Event m => [m] | _ => [] end) os.
Definition event_arrivals (acts : list act) : list cmsg := flat_map (fun a => match a with Arrive m => if is_event m then [m] else [] | _ => [] end) acts.

(** ** The queue of pointers *)
(** [s] holds the events [q] and the answer [l] *)
Record holds (n : Z) (q : list cmsg) (l : option cmsg) (s : crx) : Prop := {
  h_len : zlen (rx_slots s) = n;
  h_cnt : rx_count s = zlen q;
  h_rep : exists ads rest, rx_slots s = ads ++ rest /\ NoDup ads /\ Forall2 (fun a m => znth (rx_heap s) a = Some (Some m)) ads q /\
            match rx_last s with Some a => ~ In a ads | None => True end;
  h_last : match rx_last s, l with Some a, Some m => znth (rx_heap s) a = Some (Some m) | None, None => True | _, _ => False end
}.
Lemma nodup_snoc {A} (l : list A) x : NoDup l -> ~ In x l -> NoDup (l ++ [x]).
Proof.
  induction l as [|y l IH]; intros H N; [constructor; [intros [] | constructor]|]. inversion H; subst. cbn [app]. constructor.
  - intros I. apply in_app_or in I. destruct I as [I|[->|[]]]; [contradiction|]. apply N. left. reflexivity.
  - apply IH; [assumption|]. intros I. apply N. right. exact I.
Qed.
Lemma znth_at {A} (l1 : list A) x l2 i : zlen l1 = i -> znth (l1 ++ x :: l2) i = Some x.
Proof. intros H. rewrite znth_app2 by lia. rewrite H, Z.sub_diag. apply znth_0. Qed.
Lemma zset_at {A} (l1 : list A) x l2 i y : zlen l1 = i -> zset (l1 ++ x :: l2) i y = l1 ++ y :: l2.
Proof.
  intros H. apply znth_ext. intros j Hj. rewrite znth_zset. 
  destruct (Z.eq_dec j i) as [->|N].
  - rewrite !znth_at by exact H. assert (G := zlen_nonneg l1). assert (G2 := zlen_nonneg l2).
    destruct (_ && _) eqn:Q; [reflexivity|]. exfalso. rewrite zlen_app, zlen_cons in Q. lia.
  - destruct (_ && _) eqn:Q; [lia|]. destruct (Z.lt_ge_cases j (zlen l1)).
    + rewrite !znth_app1 by lia. reflexivity.
    + rewrite !znth_app2 by lia. replace (j - zlen l1) with (j - zlen l1 - 1 + 1) by lia. rewrite !znth_S by lia. reflexivity.
Qed.
Lemma move_up_spec mid : forall pre x post n, zlen pre = n ->
  exists y, move_up (length mid) n (pre ++ x :: mid ++ post) = Done (pre ++ mid ++ y :: post).
Proof.
  induction mid as [|z mid IH]; intros pre x post n H; [exists x; reflexivity|].
  cbn [length move_up]. unfold slot.
  replace (pre ++ x :: (z :: mid) ++ post) with ((pre ++ [x]) ++ z :: mid ++ post) by (rewrite <- app_assoc; reflexivity).
  rewrite znth_at by (rewrite zlen_app, H; reflexivity). cbn [rbind].
  rewrite <- app_assoc. cbn [app]. rewrite zset_at by exact H.
  replace (pre ++ z :: z :: mid ++ post) with ((pre ++ [z]) ++ z :: mid ++ post) by (rewrite <- app_assoc; reflexivity).
  destruct (IH (pre ++ [z]) z post (n + 1)) as (y & E); [rewrite zlen_app, H; reflexivity|].
  exists y. rewrite E, <- app_assoc. reflexivity.
Qed.
Lemma Forall2_zlen {A B} (P : A -> B -> Prop) l m : Forall2 P l m -> zlen l = zlen m.
Proof. intros H. unfold zlen. f_equal. induction H; cbn; congruence. Qed.
Lemma rep_fresh (h : list (option cmsg)) ads q x : Forall2 (fun a m => znth h a = Some (Some m)) ads q ->
  Forall2 (fun a m => znth (h ++ [x]) a = Some (Some m)) ads q.
Proof. induction 1 as [|a m l l' H F IH]; constructor; [|exact IH]. rewrite znth_app1; [exact H | apply znth_range in H; lia]. Qed.
Lemma rep_free (h : list (option cmsg)) ads q b : ~ In b ads -> Forall2 (fun a m => znth h a = Some (Some m)) ads q ->
  Forall2 (fun a m => znth (zset h b None) a = Some (Some m)) ads q.
Proof.
  intros N. induction 1 as [|a m l l' H F IH]; constructor.
  - rewrite znth_zset_ne; [exact H|]. intros ->. apply N. left. reflexivity.
  - apply IH. intros I. apply N. right. exact I.
Qed.
Lemma rep_old (h : list (option cmsg)) ads q a : Forall2 (fun a m => znth h a = Some (Some m)) ads q -> In a ads -> a < zlen h.
Proof. intros F I. induction F as [|b m l l' H F IH]; [destruct I|]. destruct I as [<-|I]; [apply znth_range in H; lia | exact (IH I)]. Qed.
Lemma keep_all n q : (length q <= n)%nat -> keep n q = q.
Proof. intros H. unfold keep. replace (length q - n)%nat with 0%nat by lia. reflexivity. Qed.
Lemma keep_one n m q : length (m :: q) = S n -> keep n (m :: q) = q.
Proof. intros H. unfold keep. rewrite H. replace (S n - n)%nat with 1%nat by lia. reflexivity. Qed.
Lemma keep_le n q : (length (keep n q) <= n)%nat.
Proof. unfold keep. rewrite skipn_length. lia. Qed.

Lemma accept_ok n q l m s : 1 <= n -> zlen q <= n -> holds n q l s ->
  exists s', accept_msg m s = Done s' /\ holds n (if is_event m then keep (Z.to_nat n) (q ++ [m]) else q) (if is_event m then l else Some m) s'.
Proof.
  intros Hn Hq [L C (ads & rest & S0 & ND & F & FL) LL].
  assert (La := Forall2_zlen _ _ _ F).
  unfold accept_msg, is_event. destruct (Z.land (cm_kind m) F_EVENT =? 0) eqn:K; cbn [negb].
  - eexists. split; [reflexivity|]. split; cbn [rx_slots rx_heap rx_count rx_last]; [exact L|exact C| |].
    + exists ads, rest. split; [exact S0|]. split; [exact ND|]. split; [apply rep_fresh, F|].
      intros I. apply (rep_old _ _ _ _ F) in I. lia.
    + apply znth_last.
  - assert (Fr : ~ In (zlen (rx_heap s)) ads) by (intros I; apply (rep_old _ _ _ _ F) in I; lia).
    rewrite C, L, S0. destruct (zlen q =? n) eqn:Q.
    + assert (R0 : rest = []) by (apply zlen_zero; rewrite S0, zlen_app in L; lia). subst rest. rewrite app_nil_r.
      destruct ads as [|a ads]; [apply Z.eqb_eq in Q; rewrite zlen_nil in La; lia|].
      destruct q as [|p q]; [inversion F|]. inversion F as [|? ? ? ? Hp F']; subst. inversion ND as [|? ? Na ND']; subst.
      unfold slot at 1. rewrite znth_0. cbn [rbind]. unfold release. rewrite znth_app1 by (apply znth_range in Hp; lia). rewrite Hp. cbn [rbind].
      rewrite zlen_cons in Q, La. rewrite zlen_cons in La.
      destruct (move_up_spec ads [] a [] 0) as (y & E); [reflexivity|]. cbn [app] in E. rewrite app_nil_r in E.
      set (n := zlen (rx_slots s)) in *. clearbody n.
      replace (Z.to_nat (n - 1)) with (length ads) by (unfold zlen in *; lia). rewrite E. cbn [rbind].
      unfold slot. rewrite znth_at by lia. cbn [rbind]. rewrite (zset_at ads y []) by lia.
      eexists. split; [reflexivity|].
      cbn [app]. rewrite keep_one by (cbn [length]; rewrite app_length; cbn [length]; apply Z.eqb_eq in Q; unfold zlen in *; lia).
      split; cbn [rx_slots rx_heap rx_count rx_last].
      * rewrite zlen_app, zlen_cons, zlen_nil. lia.
      * rewrite zlen_app, !zlen_cons, zlen_nil. lia.
      * exists (ads ++ [zlen (rx_heap s)]), []. split; [rewrite app_nil_r; reflexivity|]. split; [|split].
        -- apply nodup_snoc; [exact ND'|]. intros I. apply Fr. right. exact I.
        -- apply Forall2_app.
           ++ apply rep_free; [exact Na|]. apply rep_fresh. exact F'.
           ++ constructor; [|constructor]. rewrite znth_zset_ne by (apply znth_range in Hp; lia). apply znth_last.
        -- destruct (rx_last s) as [b|]; [|exact Logic.I]. intros I. apply in_app_or in I. destruct I as [I|[<-|[]]]; [apply FL; right; exact I|].
           destruct l as [m'|]; [|exact LL]. apply znth_range in LL. lia.
      * destruct (rx_last s) as [b|]; [|exact LL]. destruct l as [m'|]; [|exact LL].
        rewrite znth_zset_ne by (intros ->; apply FL; left; reflexivity). rewrite znth_app1 by (apply znth_range in LL; lia). exact LL.
    + assert (zlen q < n) by lia. destruct rest as [|r rest]; [rewrite S0, app_nil_r in L; lia|].
      unfold slot. rewrite znth_at by lia. cbn [rbind]. rewrite zset_at by lia.
      eexists. split; [reflexivity|].
      rewrite keep_all by (rewrite app_length; cbn [length]; unfold zlen in *; lia).
      split; cbn [rx_slots rx_heap rx_count rx_last].
      * rewrite S0, zlen_app, zlen_cons in L. rewrite zlen_app, zlen_cons. exact L.
      * rewrite zlen_app, zlen_cons, zlen_nil. lia.
      * exists (ads ++ [zlen (rx_heap s)]), rest. split; [rewrite <- app_assoc; reflexivity|]. split; [|split].
        -- apply nodup_snoc; assumption.
        -- apply Forall2_app; [apply rep_fresh; exact F|]. constructor; [|constructor]. apply znth_last.
        -- destruct (rx_last s) as [b|]; [|exact Logic.I]. intros I. apply in_app_or in I. destruct I as [I|[<-|[]]]; [apply FL; exact I|].
           destruct l as [m'|]; [|exact LL]. apply znth_range in LL. lia.
      * destruct (rx_last s) as [b|]; [|exact LL]. destruct l as [m'|]; [|exact LL].
        rewrite znth_app1 by (apply znth_range in LL; lia). exact LL.
Qed.
Lemma fetch_ok n q l s : holds n q l s ->
  exists s', fetch_event s = Done (s', hd_error q) /\ holds n (tl q) l s'.
Proof.
  intros [L C (ads & rest & S0 & ND & F & FL) LL]. unfold fetch_event. rewrite C.
  destruct q as [|m q].
  - cbn [hd_error tl]. change (0 <? zlen (@nil cmsg)) with false. cbv iota. exists s. split; [reflexivity|].
    split; [exact L|exact C| |exact LL]. exists ads, rest. auto.
  - inversion F as [|a ? ads' ? Hp F']; subst. inversion ND as [|? ? Na ND']; subst. assert (La := Forall2_zlen _ _ _ F').
    assert (G := zlen_nonneg q). rewrite zlen_cons in C |- *. destruct (0 <? 1 + zlen q) eqn:Q; [|lia].
    unfold pop_event. rewrite S0. cbn [app]. unfold slot at 1. rewrite znth_0. cbn [rbind]. unfold deref. rewrite Hp. cbn [rbind].
    unfold release. rewrite Hp. cbn [rbind]. rewrite C.
    destruct (move_up_spec ads' [] a rest 0) as (y & E); [reflexivity|]. cbn [app] in E.
    replace (Z.to_nat (1 + zlen q - 1)) with (length ads') by (unfold zlen in *; lia). rewrite E. cbn [rbind fst snd hd_error tl].
    eexists. split; [reflexivity|]. split; cbn [rx_slots rx_heap rx_count rx_last].
    + rewrite zlen_app, !zlen_cons, zlen_app. lia.
    + lia.
    + exists ads', (y :: rest). split; [reflexivity|]. split; [exact ND'|]. split; [apply rep_free; assumption|].
      destruct (rx_last s) as [b|]; [|exact Logic.I]. intros I. apply FL. right. exact I.
    + destruct (rx_last s) as [b|]; [|exact LL]. destruct l as [m'|]; [|exact LL].
      rewrite znth_zset_ne by (intros ->; apply FL; left; reflexivity). exact LL.
Qed.
(** what a request gets for the message [m] *)
Definition reading (cmd : Z) (m : cmsg) : Z * list Z :=
  if cm_kind m =? Z.lor cmd F_ERROR then (s32 (le_val (slice 0 4 (cm_bytes m))), [])
  else if cm_kind m =? Z.lor cmd F_RESPONSE then (0, cm_bytes m)
  else (E_GENERIC, []).
Lemma error_bit cmd m : cm_kind m = Z.lor cmd F_ERROR -> is_error m = true.
Proof.
  intros H. unfold is_error. destruct (Z.land (cm_kind m) F_ERROR =? 0) eqn:Q; [|reflexivity].
  apply Z.eqb_eq in Q. assert (T := f_equal (fun z => Z.testbit z 25) Q). cbv beta in T.
  rewrite Z.land_spec, H, Z.lor_spec in T. change (Z.testbit F_ERROR 25) with true in T. rewrite orb_true_r in T. discriminate T.
Qed.
Lemma take_ok n q l c s : holds n q l s -> (forall m, l = Some m -> is_error m = true -> 4 <= zlen (cm_bytes m)) ->
  exists s', take_answer c s = Done (s', match l with Some m => reading c m | None => (E_TIMEOUT, []) end) /\ holds n q None s'.
Proof.
  intros [L C (ads & rest & S0 & ND & F & FL) LL] Hl. unfold take_answer.
  destruct (rx_last s) as [a|] eqn:R, l as [m|]; try contradiction.
  - unfold deref. rewrite LL. cbn [rbind]. unfold release. rewrite LL. cbn [rbind]. unfold reading.
    set (s' := mk_crx _ _ _ _). assert (holds n q None s').
    { split; cbn [rx_slots rx_heap rx_count rx_last]; [exact L|exact C| |exact Logic.I].
      exists ads, rest. split; [exact S0|]. split; [exact ND|]. split; [apply rep_free; assumption | exact Logic.I]. }
    destruct (cm_kind m =? Z.lor c F_ERROR) eqn:Q.
    + apply Z.eqb_eq, error_bit in Q. specialize (Hl m eq_refl Q). destruct (zlen (cm_bytes m) <? 4) eqn:W; [lia|]. exists s'. split; [reflexivity|assumption].
    + destruct (cm_kind m =? Z.lor c F_RESPONSE); exists s'; (split; [reflexivity|assumption]).
  - exists s. split; [reflexivity|]. split; [exact L|exact C| |rewrite R; exact Logic.I]. exists ads, rest. rewrite R. auto.
Qed.

(** the answer waiting when [acts] are done, and all the replies *)
Fixpoint answers (acts : list act) (l : option cmsg) : list (Z * (Z * list Z)) :=
  match acts with
  | [] => []
  | Arrive m :: r => answers r (if is_event m then l else Some m)
  | Fetch :: r => answers r l
  | Take c :: r => (c, match l with Some m => reading c m | None => (E_TIMEOUT, []) end) :: answers r None
  end.
Definition replies_of (os : list out) : list (Z * (Z * list Z)) := flat_map (fun o => match o with Reply c k d => [(c, (k, d))] | _ => [] end) os.
Lemma client_ok n acts : 1 <= n -> Forall coded acts -> forall q l s, holds n q l s -> zlen q <= n -> (forall m, l = Some m -> is_error m = true -> 4 <= zlen (cm_bytes m)) ->
  exists s' os l', client acts s = Done (s', os) /\ events_of os = fetched (Z.to_nat n) acts q /\ holds n (backlog (Z.to_nat n) acts q) l' s' /\
    replies_of os = answers acts l.
Proof.
  intros Hn. induction acts as [|a acts IH]; intros Hc q l s H Hq Hl.
  - exists s, [], l. repeat (split; [reflexivity || exact H|]). reflexivity.
  - inversion Hc as [|? ? Ha Hc']; subst. specialize (IH Hc'). destruct a as [m| |c]; cbn [client backlog fetched answers].
    + destruct (accept_ok n q l m s Hn Hq H) as (s1 & E & H1). rewrite E. cbn [rbind].
      apply (IH _ _ _ H1).
      * destruct (is_event m); [|exact Hq]. assert (K := keep_le (Z.to_nat n) (q ++ [m])). unfold zlen. lia.
      * destruct (is_event m); [exact Hl|]. intros m' [= <-]. exact Ha.
    + destruct (fetch_ok n q l s H) as (s1 & E & H1). rewrite E. cbn [rbind fst snd].
      destruct (IH _ _ _ H1) as (s2 & os & l' & E2 & Ev & H2 & R); [|exact Hl|].
      { destruct q; cbn [tl]; [exact Hq | rewrite zlen_cons in Hq; lia]. }
      rewrite E2. cbn [rbind fst snd]. destruct q as [|m q]; cbn [hd_error tl] in *.
      * exists s2, os, l'. auto.
      * exists s2, (Event m :: os), l'. split; [reflexivity|]. split; [cbn [events_of flat_map app]; unfold events_of in Ev; rewrite Ev; reflexivity|]. split; [exact H2|exact R].
    + destruct (take_ok n q l c s H Hl) as (s1 & E & H1). rewrite E. cbn [rbind fst snd].
      destruct (IH _ _ _ H1 Hq) as (s2 & os & l' & E2 & Ev & H2 & R); [discriminate|].
      rewrite E2. cbn [rbind fst snd]. eexists s2, _, l'. split; [reflexivity|]. split; [exact Ev|]. split; [exact H2|].
      cbn [replies_of flat_map app]. unfold replies_of in R. rewrite R. destruct l as [m|]; [destruct (reading c m)|]; reflexivity.
Qed.
Lemma holds_init n junk : 0 <= n -> holds n [] None (rx_init n junk).
Proof.
  intros Hn. split; cbn; [unfold zlen; rewrite repeat_length; lia|reflexivity| |exact Logic.I].
  exists [], (repeat junk (Z.to_nat n)). split; [reflexivity|]. split; [constructor|]. split; [constructor|exact Logic.I].
Qed.

(** ** C51: every interleaving of arrivals, fetches and answered requests, every queue limit *)
(** The events handed out and those still pending are exactly those of a queue that keeps the newest [n]. *)
Theorem C51 n junk acts : 1 <= n -> Forall coded acts ->
  exists s os, client acts (rx_init n junk) = Done (s, os) /\ events_of os = fetched (Z.to_nat n) acts [] /\
    rx_count s = zlen (backlog (Z.to_nat n) acts []) /\
    forall i m, znth (backlog (Z.to_nat n) acts []) i = Some m -> exists a, znth (rx_slots s) i = Some a /\ znth (rx_heap s) a = Some (Some m).
Proof.
  intros Hn Hc. destruct (client_ok n acts Hn Hc [] None (rx_init n junk)) as (s & os & l & E & Ev & H & _).
  - apply holds_init. lia.
  - rewrite zlen_nil. lia.
  - discriminate.
  - exists s, os. split; [exact E|]. split; [exact Ev|]. destruct H as [_ C (ads & rest & S0 & _ & F & _) _]. split; [exact C|].
    intros i m Hi. assert (R := znth_range _ _ _ Hi). assert (La := Forall2_zlen _ _ _ F).
    rewrite S0. clear - Hi F R La. rewrite znth_app1 by lia. revert i Hi R La.
    induction F as [|a x ads q Hx F IH]; intros i Hi R La; [apply znth_In in Hi; destruct Hi|].
    destruct (Z.eq_dec i 0) as [->|N].
    + rewrite znth_0 in *. injection Hi as <-. exists a. auto.
    + replace i with (i - 1 + 1) in Hi |- * by lia. rewrite znth_S in Hi by lia. rewrite znth_S by lia. rewrite !zlen_cons in *. apply IH; [exact Hi|lia|lia].
Qed.
(** in order of arrival: what is handed out, followed by what is pending, is the sequence of arrivals with some left out *)
Inductive picked {A} : list A -> list A -> Prop :=
| picked_nil : picked [] []
| picked_take x l m : picked l m -> picked (x :: l) (x :: m)
| picked_skip x l m : picked l m -> picked l (x :: m).
Lemma picked_refl {A} (l : list A) : picked l l.
Proof. induction l; constructor; assumption. Qed.
Lemma picked_trans {A} (b c : list A) : picked b c -> forall a, picked a b -> picked a c.
Proof. induction 1 as [|x l m H IH|x l m H IH]; intros a Ha; [exact Ha| |constructor; apply IH; exact Ha]. inversion Ha; subst; constructor; apply IH; assumption. Qed.
Lemma picked_app {A} (a b c d : list A) : picked a b -> picked c d -> picked (a ++ c) (b ++ d).
Proof. induction 1; intros H2; cbn [app]; [exact H2|constructor; auto|constructor; auto]. Qed.
Lemma picked_keep n q : picked (keep n q) q.
Proof. unfold keep. generalize (length q - n)%nat. induction q as [|x q IH]; intros [|k]; cbn; try constructor; try apply picked_refl. apply IH. Qed.
Lemma order_general n acts : forall q, picked (fetched n acts q ++ backlog n acts q) (q ++ event_arrivals acts).
Proof.
  induction acts as [|[m| |c] acts IH]; intros q; cbn [fetched backlog event_arrivals flat_map].
  - rewrite app_nil_r. apply picked_refl.
  - destruct (is_event m).
    + eapply picked_trans; [|apply IH]. cbn [app]. match goal with |- picked _ (q ++ m :: ?x) => replace (q ++ m :: x) with ((q ++ [m]) ++ x) by (rewrite <- app_assoc; reflexivity) end. apply picked_app; [apply picked_keep|apply picked_refl].
    + apply IH.
  - cbn [app]. destruct q as [|m q]; [apply IH|]. cbn [app tl]. constructor. apply IH.
  - apply IH.
Qed.
Theorem C51_order n junk acts s os : 1 <= n -> Forall coded acts -> client acts (rx_init n junk) = Done (s, os) ->
  exists pending, picked (events_of os ++ pending) (event_arrivals acts) /\ rx_count s = zlen pending /\ zlen pending <= n.
Proof.
  intros Hn Hc E. destruct (C51 n junk acts Hn Hc) as (s1 & os1 & E1 & Ev & C & _). rewrite E in E1. injection E1 as <- <-.
  exists (backlog (Z.to_nat n) acts []). split; [rewrite Ev; apply (order_general _ acts [])|]. split; [exact C|].
  assert (G : forall q, (length q <= Z.to_nat n)%nat -> (length (backlog (Z.to_nat n) acts q) <= Z.to_nat n)%nat).
  { clear. induction acts as [|[m| |c] acts IH]; intros q Hq; cbn [backlog]; [exact Hq| | |exact (IH _ Hq)].
    - destruct (is_event m); [apply IH, keep_le | exact (IH _ Hq)].
    - apply IH. destruct q; cbn [tl length] in *; lia. }
  specialize (G [] ltac:(cbn; lia)). unfold zlen. lia.
Qed.
(** nothing is lost while the backlog stays within the limit *)
Fixpoint within (n : nat) (acts : list act) (k : nat) : Prop :=
  match acts with
  | [] => True
  | Arrive m :: r => if is_event m then (S k <= n)%nat /\ within n r (S k) else within n r k
  | Fetch :: r => within n r (k - 1)
  | Take _ :: r => within n r k
  end.
Theorem C51_all n junk acts : 1 <= n -> Forall coded acts -> within (Z.to_nat n) acts 0 ->
  exists s os, client acts (rx_init n junk) = Done (s, os) /\
    exists pending, events_of os ++ pending = event_arrivals acts /\ rx_count s = zlen pending.
Proof.
  intros Hn Hc Hw. destruct (C51 n junk acts Hn Hc) as (s & os & E & Ev & C & _). exists s, os. split; [exact E|].
  exists (backlog (Z.to_nat n) acts []). split; [|exact C]. rewrite Ev.
  assert (G : forall q, within (Z.to_nat n) acts (length q) -> fetched (Z.to_nat n) acts q ++ backlog (Z.to_nat n) acts q = q ++ event_arrivals acts).
  { clear. induction acts as [|[m| |c] acts IH]; intros q Hq; cbn [fetched backlog event_arrivals flat_map within] in *.
    - symmetry. apply app_nil_r.
    - destruct (is_event m); [|apply IH; exact Hq]. destruct Hq as (A & B).
      rewrite keep_all by (rewrite app_length; cbn [length]; lia). rewrite IH.
      + rewrite <- app_assoc. reflexivity.
      + rewrite app_length. cbn [length]. replace (length q + 1)%nat with (S (length q)) by lia. exact B.
    - cbn [app]. destruct q as [|m q]; cbn [length tl] in *.
      + apply IH. exact Hq.
      + cbn [app]. f_equal. apply IH. replace (S (length q) - 1)%nat with (length q) in Hq by lia. exact Hq.
    - apply IH. exact Hq. }
  apply (G [] Hw).
Qed.
(** the newest event is kept: right after it arrives it is the last one pending *)
Theorem C51_newest n junk acts m : 1 <= n -> Forall coded acts -> coded (Arrive m) -> is_event m = true ->
  exists s os, client (acts ++ [Arrive m]) (rx_init n junk) = Done (s, os) /\
    exists a, znth (rx_slots s) (rx_count s - 1) = Some a /\ znth (rx_heap s) a = Some (Some m).
Proof.
  intros Hn Hc Hm Ve. destruct (C51 n junk (acts ++ [Arrive m]) Hn) as (s & os & E & _ & C & P); [apply Forall_app; split; [exact Hc|constructor; [exact Hm|constructor]]|].
  exists s, os. split; [exact E|]. apply P. rewrite C.
  assert (G : forall q, exists q', backlog (Z.to_nat n) (acts ++ [Arrive m]) q = q' ++ [m]).
  { clear - Hn Ve. induction acts as [|[x| |c] acts IH]; intros q; cbn [app backlog]; try apply IH. rewrite Ve. unfold keep.
    exists (skipn (length (q ++ [m]) - Z.to_nat n) q). rewrite skipn_app. f_equal. rewrite app_length. cbn [length].
    replace (length q + 1 - Z.to_nat n - length q)%nat with 0%nat by lia. reflexivity. }
  destruct (G []) as (q' & ->). rewrite zlen_app, zlen_cons, zlen_nil. replace (zlen q' + (1 + 0) - 1) with (zlen q') by lia. apply znth_last.
Qed.
Definition ev (k : Z) : cmsg := mk_cm F_EVENT (be_bytes 4 13 ++ be_bytes 4 k).
Example C51_ex :
  Forall coded [Arrive (ev 1); Arrive (ev 2); Fetch; Arrive (ev 3); Arrive (mk_cm (4 + F_RESPONSE) [9]); Arrive (ev 4); Take 4; Fetch; Fetch; Fetch] /\
  match client [Arrive (ev 1); Arrive (ev 2); Fetch; Arrive (ev 3); Arrive (mk_cm (4 + F_RESPONSE) [9]); Arrive (ev 4); Take 4; Fetch; Fetch; Fetch] (rx_init 2 77) with
  | Done (_, os) => os = [Event (ev 1); Reply 4 0 [9]; Event (ev 3); Event (ev 4)]
  | Undef _ => False
  end.
Proof. split; [repeat constructor; cbn; discriminate|]. vm_compute. reflexivity. Qed.

(** ** C52: the answer to a call *)
(** Nothing of the server but events arrives, and events may be fetched: *)
Definition aside (a : act) : Prop := match a with Arrive m => is_event m = true /\ coded a | Fetch => True | Take _ => False end.
(** one call: the request [cmd], its answer, and what goes on before and after the answer comes in; the call ends after its answer came *)
Record call := mk_call { k_cmd : Z; k_answer : cmsg; k_before : list act; k_after : list act }.
Definition timely (k : call) : Prop := Forall aside (k_before k) /\ Forall aside (k_after k) /\ is_event (k_answer k) = false /\ coded (Arrive (k_answer k)).
Definition steps (k : call) : list act := k_before k ++ [Arrive (k_answer k)] ++ k_after k ++ [Take (k_cmd k)].
Lemma aside_coded a : aside a -> coded a.
Proof. destruct a; cbn; tauto. Qed.
Lemma answers_aside acts : Forall aside acts -> forall r l, answers (acts ++ r) l = answers r l.
Proof. induction 1 as [|a acts H F IH]; intros r l; [reflexivity|]. destruct a; cbn [app answers]; [destruct H as (-> & _); apply IH | apply IH | destruct H]. Qed.
(** For every series of calls whose answers come in time, each call returns its own answer: the data sent, or the error code sent. *)
Theorem C52_partial n junk ks : 1 <= n -> Forall timely ks ->
  exists s os, client (flat_map steps ks) (rx_init n junk) = Done (s, os) /\
    replies_of os = map (fun k => (k_cmd k, reading (k_cmd k) (k_answer k))) ks.
Proof.
  intros Hn Hk. destruct (client_ok n (flat_map steps ks) Hn) with (q := @nil cmsg) (l := @None cmsg) (s := rx_init n junk) as (s & os & l & E & _ & _ & R).
  - induction Hk as [|k ks (A & B & C & D) F IH]; [constructor|]. cbn [flat_map]. apply Forall_app. split; [|exact IH].
    unfold steps. apply Forall_app. split; [revert A; apply Forall_impl; exact aside_coded|]. apply Forall_app. split; [constructor; [exact D|constructor]|].
    apply Forall_app. split; [revert B; apply Forall_impl; exact aside_coded|]. constructor; [exact Logic.I|constructor].
  - apply holds_init. lia.
  - rewrite zlen_nil. lia.
  - discriminate.
  - exists s, os. split; [exact E|]. rewrite R. clear - Hk. induction Hk as [|k ks (A & B & C & _) F IH]; [reflexivity|].
    cbn [flat_map map]. unfold steps at 1. rewrite <- !app_assoc. rewrite answers_aside by exact A. cbn [app answers]. rewrite C.
    rewrite answers_aside by exact B. cbn [app answers]. rewrite IH. reflexivity.
Qed.
(** in particular the data of a response, and the code of an error *)
Lemma response_kind cmd d : 0 <= cmd < 28 -> is_event (mk_cm (Z.lor cmd F_RESPONSE) d) = false /\ is_error (mk_cm (Z.lor cmd F_RESPONSE) d) = false /\
  reading cmd (mk_cm (Z.lor cmd F_RESPONSE) d) = (0, d).
Proof.
  intros H. unfold is_event, is_error, reading. cbn [cm_kind cm_bytes].
  assert (In cmd [0;1;2;3;4;5;6;7;8;9;10;11;12;13;14;15;16;17;18;19;20;21;22;23;24;25;26;27]) as I by (cbn [In]; lia).
  clear - I. cbn [In] in I. repeat (destruct I as [<-|I]; [vm_compute; auto|]). destruct I.
Qed.
Theorem C52_data cmd d : 0 <= cmd < 28 -> reading cmd (mk_cm (Z.lor cmd F_RESPONSE) d) = (0, d).
Proof. intros H. apply response_kind. exact H. Qed.
Theorem C52_error cmd e : -2147483648 <= e < 2147483648 -> reading cmd (mk_cm (Z.lor cmd F_ERROR) (le_bytes 4 e)) = (e, []).
Proof.
  intros H. unfold reading. cbn [cm_kind cm_bytes]. rewrite Z.eqb_refl. f_equal.
  change 4 with (zlen (le_bytes 4 e)) at 1. rewrite slice_full. rewrite le_val_le_bytes. change (256 ^ Z.of_nat 4) with 4294967296.
  unfold s32. cbv zeta. rewrite Z.mod_mod by lia. destruct (_ <? _) eqn:Q; lia.
Qed.
(** REFUTED in general.  When one call gives up before its answer comes, every later call of the same kind returns the
    answer to the call before it, for ever: *)
Theorem C52_shift_refuted n junk cmd ds : 1 <= n -> 0 <= cmd < 28 ->
  exists s os, client (Take cmd :: flat_map (fun d => [Arrive (mk_cm (Z.lor cmd F_RESPONSE) d); Take cmd]) ds) (rx_init n junk) = Done (s, os) /\
    replies_of os = (cmd, (E_TIMEOUT, [])) :: map (fun d => (cmd, (0, d))) ds.
Proof.
  intros Hn Hc.
  assert (K := fun d => response_kind cmd d Hc).
  match goal with |- exists s os, client ?a _ = _ /\ _ => set (acts := a) end.
  destruct (client_ok n acts Hn) with (q := @nil cmsg) (l := @None cmsg) (s := rx_init n junk) as (s & os & l & E & _ & _ & R).
  - subst acts. constructor; [exact Logic.I|]. induction ds as [|d ds IH]; cbn [flat_map]; [constructor|].
    constructor; [|constructor; [exact Logic.I|exact IH]]. cbn [coded]. destruct (K d) as (_ & -> & _). discriminate.
  - apply holds_init. lia.
  - rewrite zlen_nil. lia.
  - discriminate.
  - exists s, os. split; [exact E|]. rewrite R. subst acts. cbn [answers]. f_equal. clear - K.
    induction ds as [|d ds IH]; [reflexivity|]. cbn [flat_map app answers map]. destruct (K d) as (-> & _ & ->). rewrite IH. reflexivity.
Qed.
(** a late answer of another kind makes a good call fail, and its own answer is then the late one *)
Theorem C52_late_refuted :
  match client [Take 5; Arrive (mk_cm (Z.lor 5 F_RESPONSE) [1; 2]); Take 9; Arrive (mk_cm (Z.lor 9 F_RESPONSE) [7]); Take 5; Arrive (mk_cm (Z.lor 5 F_RESPONSE) [3; 4])] (rx_init 8 0) with
  | Done (_, os) => replies_of os = [(5, (E_TIMEOUT, [])); (9, (E_GENERIC, [])); (5, (E_GENERIC, []))]
  | Undef _ => False
  end.
Proof. vm_compute. reflexivity. Qed.
Example C52_ex : Forall timely [mk_call 5 (mk_cm (Z.lor 5 F_RESPONSE) [1; 2]) [Arrive (ev 1)] [Fetch]; mk_call 9 (mk_cm (Z.lor 9 F_ERROR) (le_bytes 4 (-5))) [] []] /\
  reading 9 (mk_cm (Z.lor 9 F_ERROR) (le_bytes 4 (-5))) = (-5, []).
Proof. split; [|vm_compute; reflexivity]. constructor; [|constructor; [|constructor]]; (repeat split; try constructor; cbn; try (repeat split; intros; discriminate); auto). Qed.

(** ** C61: a received event runs the callback that was registered for it *)
Inductive dbop := RAdd (idx id cb : Z) | RDel (idx id : Z).
Fixpoint registry (ops : list dbop) (c : cev) : run cev :=
  match ops with
  | [] => Done c
  | RAdd i e cb :: r => c <-- add_event i e cb c ;; registry r c
  | RDel i e :: r => registry r (fst (del_event i e c))
  end.
(** the callbacks registered for one event, the oldest first; a deletion takes the oldest *)
Fixpoint registered (ops : list dbop) (i e : Z) (cbs : list Z) : list Z :=
  match ops with
  | [] => cbs
  | RAdd i' e' cb :: r => registered r i e (if (i' =? i) && (e' =? e) then cbs ++ [cb] else cbs)
  | RDel i' e' :: r => registered r i e (if (i' =? i) && (e' =? e) then tl cbs else cbs)
  end.
Definition id32 (z : Z) : Prop := 0 <= z < 4294967296.
Definition op_ids (o : dbop) : Prop := match o with RAdd i e _ => id32 i /\ id32 e | RDel i e => id32 i /\ id32 e end.
Definition of_event (i e : Z) (l : list evdb) : list Z := map ev_cb (filter (is_ev i e) l).
Lemma u32_id z : id32 z -> u32 z = z.
Proof. unfold u32, id32. apply Z.mod_small. Qed.
Lemma find_split i e l : forall n, match find_ev i e l n with
  | Some (k, x) => exists a b, l = a ++ x :: b /\ k = n + zlen a /\ is_ev i e x = true /\ of_event i e a = []
  | None => of_event i e l = [] end.
Proof.
  induction l as [|x l IH]; intros n; cbn [find_ev]; [reflexivity|].
  destruct (is_ev i e x) eqn:Q.
  - exists [], l. split; [reflexivity|]. split; [rewrite zlen_nil; lia|]. split; [exact Q|reflexivity].
  - specialize (IH (n + 1)). destruct (find_ev i e l (n + 1)) as [(k & y)|].
    + destruct IH as (a & b & -> & -> & Y & A). exists (x :: a), b. split; [reflexivity|]. split; [rewrite zlen_cons; lia|]. split; [exact Y|].
      unfold of_event in *. cbn [filter]. rewrite Q. exact A.
    + unfold of_event in *. cbn [filter]. rewrite Q. exact IH.
Qed.
Lemma del_split i e c : exists c' r, del_event i e c = (c', r) /\ ev_size c' = ev_size c /\ zlen (ev_list c') <= zlen (ev_list c) /\
  forall i' e', id32 i -> id32 e -> id32 i' -> id32 e' ->
    of_event i' e' (ev_list c') = if (i =? i') && (e =? e') then tl (of_event i' e' (ev_list c)) else of_event i' e' (ev_list c).
Proof.
  unfold del_event. assert (F := find_split i e (ev_list c) 0). destruct (find_ev i e (ev_list c) 0) as [(k & x)|].
  - destruct F as (a & b & E & -> & X & A). eexists _, _. split; [reflexivity|]. cbn [ev_size ev_list]. split; [reflexivity|].
    rewrite E. replace (Z.to_nat (0 + zlen a)) with (length a) by (unfold zlen; lia). replace (Z.to_nat (0 + zlen a + 1)) with (S (length a)) by (unfold zlen; lia).
    rewrite firstn_app, Nat.sub_diag, firstn_all. cbn [firstn]. rewrite app_nil_r.
    replace (skipn (S (length a)) (a ++ x :: b)) with b by (clear; induction a; [reflexivity|exact IHa]).
    split; [rewrite !zlen_app, zlen_cons; lia|]. intros i' e' Hi He Hi' He'.
    unfold of_event in *. rewrite !filter_app, !map_app. cbn [filter].
    unfold is_ev in X. apply andb_prop in X. destruct X as (X1 & X2). rewrite u32_id in X1, X2 by assumption.
    destruct ((i =? i') && (e =? e')) eqn:W.
    + assert (i = i') by lia. assert (e = e') by lia. subst i' e'. rewrite A. unfold is_ev at 2. rewrite !u32_id by assumption. rewrite X1, X2. reflexivity.
    + destruct (is_ev i' e' x) eqn:V; [|reflexivity]. unfold is_ev in V. rewrite !u32_id in V by assumption. lia.
  - eexists _, _. split; [reflexivity|]. split; [reflexivity|]. split; [lia|]. intros i' e' Hi He Hi' He'.
    destruct ((i =? i') && (e =? e')) eqn:W; [|reflexivity]. assert (i = i') by lia. assert (e = e') by lia. subst i' e'. rewrite F. reflexivity.
Qed.
Lemma registry_spec ops : forall c, Forall op_ids ops -> zlen (ev_list c) <= ev_size c -> 1 <= ev_size c -> ev_size c <= 1073741823 \/ zlen (ev_list c) + zlen ops <= ev_size c ->
  zlen (ev_list c) + zlen ops <= 1073741824 -> ev_size c < 2147483648 ->
  exists c', registry ops c = Done c' /\ forall i e, id32 i -> id32 e -> of_event i e (ev_list c') = registered ops i e (of_event i e (ev_list c)).
Proof.
  induction ops as [|[i e cb|i e] ops IH]; intros c Hf Hs H1 Hb Hl H31; cbn [registry registered].
  - exists c. auto.
  - inversion Hf as [|? ? Ho Hf']; subst. cbn [op_ids] in Ho. destruct Ho as (Hi & He). rewrite zlen_cons in *. assert (G := zlen_nonneg ops). assert (G2 := zlen_nonneg (ev_list c)).
    unfold add_event. set (size := if zlen (ev_list c) =? ev_size c then ev_size c * 2 else ev_size c).
    assert (Z1 : zlen (ev_list c) < size /\ ev_size c <= size < 2147483648 /\ (size <= 1073741823 \/ zlen (ev_list c) + (1 + zlen ops) <= size)).
    { unfold size. destruct (zlen (ev_list c) =? ev_size c) eqn:Q; lia. }
    destruct Z1 as (A & B & C). destruct (fits32 size) eqn:F; [cbn [negb]|unfold fits32 in F; lia]. destruct (size <=? zlen (ev_list c)) eqn:Q; [lia|]. cbn [rbind].
    destruct (IH (mk_cev (ev_list c ++ [mk_ev (u32 i) (u32 e) cb]) size)) as (c' & E & P); cbn [ev_list ev_size]; try (rewrite ?zlen_app, ?zlen_cons, ?zlen_nil; lia); [exact Hf'|].
    exists c'. split; [exact E|]. intros i' e' Hi' He'. rewrite P by assumption. f_equal. unfold of_event. cbn [ev_list]. rewrite filter_app, map_app. cbn [filter].
    assert (V : is_ev i' e' (mk_ev (u32 i) (u32 e) cb) = (i =? i') && (e =? e')) by (unfold is_ev; cbn [ev_idx ev_id]; rewrite !u32_id by assumption; reflexivity).
    rewrite V. destruct (_ && _); cbn [map ev_cb]; [reflexivity|apply app_nil_r].
  - inversion Hf as [|? ? Ho Hf']; subst. cbn [op_ids] in Ho. destruct Ho as (Hi & He). rewrite zlen_cons in *. destruct (del_split i e c) as (c1 & r & E & S1 & L1 & P1). rewrite E. cbn [fst].
    destruct (IH c1) as (c' & E' & P); try lia; [exact Hf'|]. exists c'. split; [exact E'|]. intros i' e' Hi' He'. rewrite P by assumption. f_equal. apply P1; assumption.
Qed.
(** For every history of registrations and deletions an event message runs the callback registered for its tag and id
    (the one registered first and not deleted), which sees exactly the data sent along; without one, none is run. *)
Theorem C61 ops kind i e data : Forall op_ids ops -> zlen ops <= 1073741823 -> id32 i -> id32 e ->
  exists c, registry ops ev_init = Done c /\
    dispatch_event (mk_cm kind (be_bytes 4 i ++ be_bytes 4 e ++ data)) c =
      match registered ops i e [] with
      | cb :: _ => Done (Some (cb, data), (0, Some (i, e)))
      | [] => Done (None, (E_GENERIC, None))
      end.
Proof.
  intros Hf Hl Hi He. destruct (registry_spec ops ev_init Hf) as (c & E & P); cbn [ev_list ev_size ev_init]; rewrite ?zlen_nil; try lia.
  exists c. split; [exact E|]. specialize (P i e Hi He). cbn [ev_init ev_list] in P. change (of_event i e []) with (@nil Z) in P. rewrite <- P.
  unfold dispatch_event. cbn [cm_bytes]. assert (G := zlen_nonneg data).
  assert (L : zlen (be_bytes 4 i ++ be_bytes 4 e ++ data) = 8 + zlen data) by (rewrite !zlen_app, !zlen_be; lia). rewrite L.
  destruct (8 + zlen data <? 8) eqn:Q; [lia|].
  assert (S1 : slice 0 4 (be_bytes 4 i ++ be_bytes 4 e ++ data) = be_bytes 4 i) by (apply slice_app1; apply zlen_be).
  assert (S2 : slice 4 4 (be_bytes 4 i ++ be_bytes 4 e ++ data) = be_bytes 4 e) by (rewrite slice_app2 by apply zlen_be; apply slice_app1; apply zlen_be).
  assert (S3 : slice 8 (8 + zlen data - 8) (be_bytes 4 i ++ be_bytes 4 e ++ data) = data).
  { rewrite app_assoc. rewrite slice_app2 by (rewrite zlen_app, !zlen_be; reflexivity).
    replace (8 + zlen data - 8) with (zlen data) by lia. apply slice_full. }
  rewrite S1, S2, S3, !be_val_bytes. change (256 ^ Z.of_nat 4) with 4294967296. unfold id32 in *. rewrite !Z.mod_small by assumption.
  assert (F := find_split i e (ev_list c) 0). destruct (find_ev i e (ev_list c) 0) as [(k & x)|].
  - destruct F as (a & b & -> & _ & X & A). unfold of_event in *. rewrite filter_app, map_app. rewrite A. cbn [filter app]. rewrite X. reflexivity.
  - rewrite F. reflexivity.
Qed.
(** the data a callback asks for: as much as there is, up to the length asked; nothing outside of a callback *)
Theorem C61_data d len : 0 <= len -> d <> [] -> event_get_data (Some d) len = Done (Z.min len (zlen d), slice 0 (Z.min len (zlen d)) d).
Proof.
  intros H N. unfold event_get_data. destruct (zlen d =? 0) eqn:Q; [apply Z.eqb_eq, zlen_zero in Q; contradiction|]. destruct (len <? 0) eqn:W; [lia|]. reflexivity.
Qed.
Theorem C61_outside len : event_get_data None len = Done (E_DELETED, []).
Proof. reflexivity. Qed.
Definition some_ops : list dbop := [RAdd 13 1 70; RAdd 13 2 71; RAdd 14 1 72; RDel 13 1].
Example C61_ex : Forall op_ids some_ops /\ registered some_ops 14 1 [] = [72] /\ registered some_ops 13 1 [] = [].
Proof. split; [repeat constructor; cbv; discriminate|]. split; reflexivity. Qed.

(** ** C62: the byte stream from the server is cut into the messages that were sent *)
Definition sent (m : cmsg) : list Z := be_bytes 4 (zlen (cm_bytes m)) ++ be_bytes 4 (cm_kind m) ++ cm_bytes m.
Definition sendable (m : cmsg) : Prop := id32 (cm_kind m) /\ zlen (cm_bytes m) <= 4088.
(** [k] calls of [_message_get], one after the other *)
Fixpoint get_all (k : nat) (gs bs : list Z) : run (list Z * list cmsg) :=
  match k with
  | O => Done (bs, [])
  | S k =>
      x <-- message_get gs bs ;;
      match x with
      | (bs, gs, Some m) => y <-- get_all k gs bs ;; Done (fst y, m :: snd y)
      | (bs, gs, None) => get_all k gs bs
      end
  end.
Lemma slice_firstn n (l : list Z) : slice 0 n l = firstn (Z.to_nat n) l.
Proof. reflexivity. Qed.
Lemma skip_rest c (l : list Z) : 0 <= c <= zlen l -> slice c (zlen l - c) l = skipn (Z.to_nat c) l.
Proof.
  intros H. unfold slice. apply firstn_all2. rewrite skipn_length. unfold zlen in *. lia.
Qed.
Lemma body_ok gs : forall acc r rest, Forall (fun g => 1 <= g) gs -> zlen r <= zlen gs -> zlen acc + zlen r <= 4088 ->
  exists pre gs', gs = pre ++ gs' /\ zlen pre <= zlen r /\ get_body gs (zlen acc + zlen r) (r ++ rest) acc = Done (rest, gs', Some (acc ++ r)).
Proof.
  induction gs as [|g gs IH]; intros acc r rest Hg Hl Hs.
  - assert (r = []) by (apply zlen_zero; assert (G := zlen_nonneg r); change (zlen (@nil Z)) with 0 in Hl; lia). subst r.
    exists [], []. split; [reflexivity|]. split; [lia|]. cbn [get_body]. rewrite zlen_nil in *. destruct (4096 <? zlen acc) eqn:Q; [lia|].
    destruct (_ <=? _) eqn:W; [|lia]. cbn [app]. rewrite app_nil_r. reflexivity.
  - cbn [get_body]. destruct (4096 <? zlen acc) eqn:Q; [assert (G := zlen_nonneg r); lia|].
    destruct (zlen acc + zlen r <=? zlen acc) eqn:W.
    + assert (r = []) by (apply zlen_zero; assert (G := zlen_nonneg r); lia). subst r. exists [], (g :: gs). split; [reflexivity|]. split; [rewrite !zlen_nil; lia|]. rewrite app_nil_r. reflexivity.
    + inversion Hg as [|? ? Hg1 Hg']; subst. replace (zlen acc + zlen r - zlen acc) with (zlen r) by lia. unfold read_chunk. rewrite slice_firstn.
      set (k := Z.min (Z.min g (zlen r)) (zlen (r ++ rest))). assert (G := zlen_nonneg rest).
      assert (K : 1 <= k <= zlen r) by (unfold k; rewrite zlen_app; lia).
      assert (C : firstn (Z.to_nat k) (r ++ rest) = firstn (Z.to_nat k) r).
      { rewrite firstn_app. replace (Z.to_nat k - length r)%nat with 0%nat by (unfold zlen in K; lia). apply app_nil_r. }
      rewrite C. rewrite zlen_firstn. replace (Z.min (Z.max 0 k) (zlen r)) with k by lia.
      destruct (k =? 0) eqn:W2; [lia|]. rewrite skip_rest by (rewrite zlen_app; lia).
      rewrite skipn_app. replace (Z.to_nat k - length r)%nat with 0%nat by (unfold zlen in K; lia). cbn [skipn].
      rewrite zlen_cons in Hl.
      assert (L2 : zlen (skipn (Z.to_nat k) r) = zlen r - k) by (unfold zlen in *; rewrite skipn_length; lia).
      destruct (IH (acc ++ firstn (Z.to_nat k) r) (skipn (Z.to_nat k) r) rest Hg') as (pre & gs' & E & P & B).
      * lia.
      * rewrite zlen_app, zlen_firstn. lia.
      * exists (g :: pre), gs'. split; [cbn [app]; rewrite E; reflexivity|]. split; [rewrite zlen_cons; lia|].
        rewrite zlen_app, zlen_firstn, L2 in B. replace (zlen acc + Z.min (Z.max 0 k) (zlen r) + (zlen r - k)) with (zlen acc + zlen r) in B by lia.
        rewrite B. rewrite <- app_assoc, firstn_skipn. reflexivity.
Qed.
(** One message, whose header comes in one piece, however its body is cut up: *)
Theorem C62_message m g gs rest : sendable m -> 8 <= g -> Forall (fun g => 1 <= g) gs -> zlen (cm_bytes m) <= zlen gs ->
  exists pre gs', gs = pre ++ gs' /\ zlen pre <= zlen (cm_bytes m) /\ message_get (g :: gs) (sent m ++ rest) = Done (rest, gs', Some m).
Proof.
  intros (Hk & Hs) Hg Hgs Hl. unfold message_get, sent. cbn [get_header]. change (8 <=? zlen (@nil Z)) with false. cbv iota.
  rewrite <- !app_assoc. set (b := cm_bytes m) in *. set (hdr := be_bytes 4 (zlen b) ++ be_bytes 4 (cm_kind m)).
  assert (H8 : zlen hdr = 8) by (unfold hdr; rewrite zlen_app, !zlen_be; reflexivity).
  rewrite app_assoc. fold hdr. assert (G := zlen_nonneg (b ++ rest)).
  assert (RC : read_chunk g 8 (hdr ++ b ++ rest) = hdr).
  { unfold read_chunk. rewrite zlen_app. replace (Z.min (Z.min g 8) (zlen hdr + zlen (b ++ rest))) with 8 by lia. apply slice_app1. exact H8. }
  rewrite RC, H8. cbn [Z.eqb]. rewrite zlen_app, H8. replace (8 + zlen (b ++ rest) - 8) with (zlen (b ++ rest)) by lia.
  rewrite (slice_app2 hdr) by exact H8. rewrite slice_full. cbn [app].
  assert (GH : get_header gs (b ++ rest) hdr = (b ++ rest, gs, Some hdr)) by (destruct gs; cbn [get_header]; rewrite H8; reflexivity).
  rewrite GH. unfold hdr. rewrite slice_app1 by apply zlen_be.
  rewrite (slice_app2 (be_bytes 4 (zlen b))) by apply zlen_be. replace (slice 0 4 (be_bytes 4 (cm_kind m))) with (be_bytes 4 (cm_kind m)).
  2: { symmetry. rewrite <- (zlen_be 4 (cm_kind m)) at 1. change (Z.of_nat 4) with 4. apply (slice_full (be_bytes 4 (cm_kind m))). }
  rewrite !be_val_bytes. change (256 ^ Z.of_nat 4) with 4294967296. assert (G2 := zlen_nonneg b). unfold id32 in Hk.
  rewrite (Z.mod_small (zlen b)) by lia. rewrite (Z.mod_small (cm_kind m)) by lia.
  destruct (body_ok gs [] b rest Hgs Hl) as (pre & gs' & E & P & B); [rewrite zlen_nil; lia|]. rewrite zlen_nil, Z.add_0_l in B. cbn [app] in B.
  rewrite B. cbn [rbind]. exists pre, gs'. split; [exact E|]. split; [exact P|]. destruct (4088 <? zlen b) eqn:Q; [lia|]. unfold b. destruct m; reflexivity.
Qed.
(** A stream of messages, when every read is given at least 8 bytes' worth (or all that it asks for): *)
Fixpoint reads_needed (ms : list cmsg) : Z := match ms with [] => 0 | m :: r => 1 + zlen (cm_bytes m) + reads_needed r end.
Theorem C62_partial ms : forall gs rest, Forall sendable ms -> Forall (fun g => 8 <= g) gs -> reads_needed ms <= zlen gs ->
  get_all (length ms) gs (flat_map sent ms ++ rest) = Done (rest, ms).
Proof.
  induction ms as [|m ms IH]; intros gs rest Hs Hg Hn; [reflexivity|].
  inversion Hs as [|? ? Hm Hs']; subst. cbn [reads_needed length flat_map get_all] in *.
  assert (R0 : 0 <= reads_needed ms) by (clear; induction ms as [|x ms IH]; cbn [reads_needed]; [lia | assert (G := zlen_nonneg (cm_bytes x)); lia]).
  assert (G := zlen_nonneg (cm_bytes m)).
  destruct gs as [|g gs]; [change (zlen (@nil Z)) with 0 in Hn; lia|]. rewrite zlen_cons in Hn. inversion Hg as [|? ? Hg1 Hg']; subst.
  rewrite <- app_assoc. destruct (C62_message m g gs (flat_map sent ms ++ rest) Hm Hg1) as (pre & gs' & E & P & B).
  - revert Hg'. apply Forall_impl. intros z Hz. lia.
  - lia.
  - rewrite B. cbn [rbind]. rewrite E in *. apply Forall_app in Hg'. rewrite zlen_app in Hn. rewrite IH; [reflexivity|exact Hs'|apply Hg'|lia].
Qed.
(** REFUTED: a header that comes in two pieces takes bytes of the body with it (each read of the header asks for 8 bytes) *)
Theorem C62_split_refuted :
  sendable (mk_cm 16777220 [1; 2; 3; 4; 5; 6]) /\
  message_get [3; 8; 6; 6] (sent (mk_cm 16777220 [1; 2; 3; 4; 5; 6]) ++ sent (mk_cm 16777221 [7])) =
    Done ([1; 1; 0; 0; 5; 7], [6], Some (mk_cm 16777220 [4; 5; 6; 0; 0; 0])).
Proof. split; [split; [split; vm_compute; [discriminate|reflexivity] | vm_compute; discriminate]|]. vm_compute. reflexivity. Qed.
(** REFUTED: when the receive timeout expires inside a message its rest is taken for the next header *)
Theorem C62_timeout_refuted :
  match message_get [8; 2; 0] (sent (mk_cm 16777220 [1; 2; 3; 4; 5; 6; 7; 8; 9; 10])) with
  | Done (bs, _, None) => bs = [3; 4; 5; 6; 7; 8; 9; 10]
  | _ => False
  end.
Proof. vm_compute. reflexivity. Qed.
Example C62_ex : Forall sendable [mk_cm 16777220 [1; 2; 3]; mk_cm 2147483648 []] /\ reads_needed [mk_cm 16777220 [1; 2; 3]; mk_cm 2147483648 []] = 5.
Proof. split; [|reflexivity]. repeat constructor; cbv; discriminate. Qed.

(** ** C63: a wait with a timeout ends at a valid moment *)
(** the deadline given to pthread_cond_timedwait; it is refused (EINVAL, and then assert(3) aborts) unless the nanoseconds are below 10^9 *)
Definition moment (t : Z * Z) : Z := fst t * 1000000000 + snd t.
Definition valid_time (t : Z * Z) : Prop := 0 <= snd t < 1000000000.
(** the deadline is the timeout after now, always *)
Theorem C63_when sec nsec timeout : 0 <= timeout -> moment (deadline sec nsec timeout) = sec * 1000000000 + nsec + timeout * 1000000.
Proof.
  intros H. unfold deadline, moment. cbv zeta. rewrite Z.quot_div_nonneg by lia. rewrite Z.rem_mod_nonneg by lia.
  destruct (_ <? _); cbn [fst snd]; lia.
Qed.
(** and valid unless the nanoseconds add up to exactly one second *)
Theorem C63_partial sec nsec timeout : 0 <= timeout -> 0 <= nsec < 1000000000 -> nsec + timeout mod 1000 * 1000000 <> 1000000000 -> valid_time (deadline sec nsec timeout).
Proof.
  intros H Hn Hx. unfold deadline, valid_time. cbv zeta. rewrite Z.rem_mod_nonneg by lia. assert (B := Z.mod_pos_bound timeout 1000 ltac:(lia)).
  destruct (_ <? _) eqn:Q; cbn [snd]; lia.
Qed.
Theorem C63_refuted : 0 <= 500000000 < 1000000000 /\ ~ valid_time (deadline 100 500000000 1500).
Proof. split; [lia|]. vm_compute. intros (_ & H). discriminate H. Qed.
Example C63_ex : valid_time (deadline 100 999999999 1999) /\ deadline 100 999999999 1999 = (102, 998999999).
Proof. split; [split; vm_compute; [discriminate|reflexivity]|reflexivity]. Qed.
