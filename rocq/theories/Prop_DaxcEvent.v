(** * Prop_DaxcEvent: C159 and C160, the events of the command line client *)
From Verif Require Import Base Const Types State Events Atomic Server Lib Shape Inv IdInv Reach Spec Demo Text Prop_Text Prop_Tags Prop_Events ClientTypes ClientData ClientRx Prop_Wire Prop_ClientRx Prop_ClientOvr Cache Path Daxc LuaEvent Prop_LuaEvent DaxcEvent.
From Verif Require Prop_Text Prop_DaxcCmd.

(** ** Words of the statements *)
(** fewer than 2^31 tags and events per tag so far *)
Definition small (s : server) : Prop := zlen (s_db s) < 2147483648 /\ forall t, In t (s_db s) -> t_nextev t < 2147483648.
(** the message that tells of event [id] of tag [i] *)
Definition note (i id : Z) (data : list Z) : cmsg := mk_cm 0 (be_bytes 4 i ++ be_bytes 4 id ++ data).
(** DEL EVENT with these words deletes event [n]: the number is taken modulo 2^32 *)
Definition deletes (a : list name) (n : Z) : Prop := exists w r, a = w :: r /\ (Prop_Text.number w - n) mod 4294967296 = 0.
(** one thing happens: the server does something for others, or a command of the client *)
Inductive happens (E : env) (fd : Z) : server * dev -> list name -> server * dev -> Prop :=
| hp_other s d os s' : exec E s os = Done s' -> happens E fd (s, d) [] (s', d)
| hp_add s d T db cc a cc' s' d' r : event_add_cmd E T db cc fd s d a = Done (cc', s', d', r) -> happens E fd (s, d) [] (s', d')
| hp_del s d a s' d' b : event_del_cmd E fd s d a = Done (s', d', b) -> happens E fd (s, d) a (s', d').
(** a run of the client *)
Inductive session (E : env) (fd : Z) : server * dev -> Prop :=
| se_start s : reachable E s -> session E fd (s, dev_start)
| se_step x a y : session E fd x -> happens E fd x a y -> small (fst y) -> session E fd y.
(** [y] comes later than [x] and event [n] was not deleted in between *)
Inductive later (E : env) (fd n : Z) : server * dev -> server * dev -> Prop :=
| la_refl x : later E fd n x x
| la_step x y a z : later E fd n x y -> happens E fd y a z -> small (fst z) -> ~ deletes a n -> later E fd n x z.

(** ** The invariant *)
Definition used (p : Z * Z) : bool * Z * Z := (true, fst p, snd p).
Definition known (s : server) (p : Z * Z) : Prop := exists t, znth (s_db s) (fst p) = Some t /\ 0 <= snd p < t_nextev t /\ (fst p = 0 -> 1 <= snd p).
Definition listed (sl : list (Z * Z)) (e : evdb) : Prop := znth sl (ev_cb e) = Some (ev_idx e, ev_id e).
Definition good (s : server) (d : dev) (sl : list (Z * Z)) : Prop :=
  dv_tab d = map used sl ++ repeat (false, 0, 0) (64 - length sl) /\ (length sl <= 64)%nat /\ NoDup sl /\ Forall (known s) sl /\ Forall (listed sl) (ev_list (dv_ev d)) /\ NoDup (map ev_cb (ev_list (dv_ev d))).
(** ... and every event of the list [live] can still be reported *)
Definition alive (d : dev) (n : Z) : Prop := exists e, In e (ev_list (dv_ev d)) /\ ev_cb e = n.

Lemma known_id s p : small s -> known s p -> 0 <= fst p < 2147483648 /\ 0 <= snd p < 2147483648.
Proof. intros [S1 S2] (t & H & B & _). assert (R := znth_range _ _ _ H). assert (Q := S2 _ (znth_In _ _ _ H)). lia. Qed.
Lemma free_used sl r : forall n, free_slot (map used sl ++ r) n = free_slot r (n + zlen sl).
Proof. induction sl as [|p sl IH]; intros n; cbn [map app free_slot used]; [f_equal; rewrite zlen_nil; lia|]. rewrite IH, zlen_cons. f_equal. lia. Qed.
Lemma entry_used sl r : forall n k p, NoDup sl -> znth sl k = Some p -> entry_of (map used sl ++ r) (fst p) (snd p) n = n + k + 1.
Proof.
  induction sl as [|q sl IH]; intros n k p N H; [exfalso; apply znth_range in H; change (zlen (@nil (Z * Z))) with 0 in H; lia|]. inversion N as [|? ? N1 N2]; subst. cbn [map app entry_of used].
  assert (K := znth_range _ _ _ H). destruct (Z.eq_dec k 0) as [->|Hk].
  - rewrite znth_0 in H. injection H as ->. rewrite !Z.eqb_refl. cbn [andb]. lia.
  - replace k with (k - 1 + 1) in H by lia. rewrite znth_S in H by lia. destruct ((fst q =? fst p) && (snd q =? snd p)) eqn:Q.
    + exfalso. apply N1. assert (q = p) as -> by (destruct q, p; cbn [fst snd] in Q; f_equal; lia). eapply znth_In. exact H.
    + rewrite (IH (n + 1) (k - 1) p N2 H). lia.
Qed.

Lemma znth_inj {A} (l : list A) i j x : NoDup l -> znth l i = Some x -> znth l j = Some x -> i = j.
Proof.
  intros N H1 H2. assert (R1 := znth_range _ _ _ H1). assert (R2 := znth_range _ _ _ H2). unfold znth in H1, H2.
  replace ((0 <=? i) && (i <? zlen l)) with true in H1 by lia. replace ((0 <=? j) && (j <? zlen l)) with true in H2 by lia.
  assert (Z.to_nat i = Z.to_nat j); [|lia]. apply (proj1 (NoDup_nth_error l) N); [unfold zlen in R1; lia | congruence].
Qed.
Lemma note_print s d sl i id data : small s -> good s d sl -> forall n, znth sl n = Some (i, id) ->
  (alive d n -> event_print d (note i id data) = Done (Some (n + 1))) /\ (~ alive d n -> event_print d (note i id data) = Done None).
Proof.
  intros Sm (T & L & N & K & Ls & Nc) n H. assert (Kp := proj1 (Forall_forall _ _) K _ (znth_In _ _ _ H)). destruct (known_id _ _ Sm Kp) as [B1 B2]. cbn [fst snd] in B1, B2.
  unfold event_print, dispatch_event, note. cbn [cm_bytes]. assert (G := zlen_nonneg data).
  assert (Ln : zlen (be_bytes 4 i ++ be_bytes 4 id ++ data) = 8 + zlen data) by (rewrite !zlen_app, !zlen_be; lia). rewrite Ln. replace (8 + zlen data <? 8) with false by lia.
  assert (S1 : slice 0 4 (be_bytes 4 i ++ be_bytes 4 id ++ data) = be_bytes 4 i) by (apply Prop_Wire.slice_app1; apply zlen_be).
  assert (S2 : slice 4 4 (be_bytes 4 i ++ be_bytes 4 id ++ data) = be_bytes 4 id) by (rewrite Prop_Wire.slice_app2 by apply zlen_be; apply Prop_Wire.slice_app1; apply zlen_be).
  rewrite S1, S2, !be_val_bytes. change (256 ^ Z.of_nat 4) with 4294967296. rewrite !Z.mod_small by lia.
  assert (U : forall e, is_ev i id e = true -> ev_idx e = i /\ ev_id e = id) by (intros e He; unfold is_ev in He; rewrite !u32_id in He by (unfold id32; lia); lia).
  assert (F := find_split i id (ev_list (dv_ev d)) 0). destruct (find_ev i id _ 0) as [(k & e)|]; cbn [rbind fst].
  - destruct F as (a & b & E & _ & X & _). destruct (U _ X) as [X1 X2].
    assert (Le : listed sl e) by (apply (proj1 (Forall_forall _ _) Ls); rewrite E; apply in_elt). unfold listed in Le. rewrite X1, X2 in Le.
    assert (Q : ev_cb e = n) by exact (znth_inj sl _ _ _ N Le H).
    split; [|intros A; exfalso; apply A; exists e; split; [rewrite E; apply in_elt | exact Q]]. intros _.
    assert (Z1 : znth (dv_tab d) (ev_cb e) = Some (used (i, id))). { rewrite T, Q. assert (R1 := znth_range _ _ _ H). rewrite znth_app1 by (unfold zlen in *; rewrite map_length; lia). rewrite znth_map, H. reflexivity. }
    rewrite Z1. unfold used. cbn [fst snd]. rewrite T. do 2 f_equal. rewrite (entry_used sl _ 0 n (i, id) N H). lia.
  - split; [|reflexivity]. intros (e & I & Q). exfalso. assert (Le := proj1 (Forall_forall _ _) Ls _ I). unfold listed in Le. rewrite Q, H in Le. injection Le as X1 X2.
    assert (W : In (ev_cb e) (of_event i id (ev_list (dv_ev d)))). { unfold of_event. apply in_map, filter_In. split; [exact I|]. unfold is_ev. rewrite <- X1, <- X2, !u32_id by (unfold id32; lia). rewrite !Z.eqb_refl. reflexivity. }
    rewrite F in W. exact W.
Qed.

Lemma known_exec E s os s' p : reachable E s -> exec E s os = Done s' -> known s p -> known s' p.
Proof. intros R X (t & H & B & C). destruct (exec_nextev _ _ _ _ _ _ R X H) as (t' & H' & B'). exists t'. split; [exact H'|]. split; [lia | exact C]. Qed.
Lemma exec1 E s o s' : step E s o = Done s' -> exec E s [o] = Done s'.
Proof. intros H. cbn [exec]. rewrite H. reflexivity. Qed.
Lemma exec_reach E os : forall s s', reachable E s -> exec E s os = Done s' -> reachable E s'.
Proof. intros s s' R H. eapply reachable_exec; eassumption. Qed.
Lemma ask_exec E s o s' r : ask E s o = Done (s', r) -> exec E s [o] = Done s'.
Proof. intros H. apply ask_inv in H as [H _]. apply exec1. exact H. Qed.
Lemma find_keep u f l fd : (forall m, m_fd (f m) = m_fd m) -> List.find (fun m => m_fd m =? fd) (map (fun m => if m_uid m =? u then f m else m) l) = option_map (fun m => if m_uid m =? u then f m else m) (List.find (fun m => m_fd m =? fd) l).
Proof. intros H. induction l as [|m l IH]; cbn [map List.find]; [reflexivity|]. destruct (m_uid m =? u) eqn:Q; rewrite ?H; (destruct (m_fd m =? fd); [cbn [option_map]; rewrite Q; reflexivity | exact IH]). Qed.
(** what is known about an event that was added *)
Lemma added_id E s fd h ty ud s' p : ask E s (OpEvAdd fd h ty ud) = Done (s', inl p) ->
  exists m t t' e x, find_mod s fd = Some m /\ (exists m', find_mod s' fd = Some m' /\ m_uid m' = m_uid m) /\ znth (s_db s) (h_index h) = Some t /\ znth (s_db s') (h_index h) = Some t' /\
    p = le_bytes 4 (t_nextev t) /\ 0 <= t_nextev t /\ t_nextev t' = t_nextev t + 1 /\ t_events t' = e :: t_events t /\ t_data t' = t_data t /\ e_id e = t_nextev t /\
    e_mod e = m_uid m /\ e_etype e = ty /\ e_dtype e = h_type h /\ e_byte e = s32 (h_byte h) /\ e_bit e = h_bit h /\ e_count e = s32 (h_count h) /\ e_size e = h_size h /\ e_data e = fst x /\
    set_event_data E (s_step s) (s_types s) ty (h_type h) (s32 (h_count h)) (s32 (h_byte h)) (t_data t) ud = Done x.
Proof.
  intros H. unfold ask in H. apply rbind_done in H as (s0 & H & A). injection A as -> A.
  apply step_inv in H as (s1 & u & H & ->). cbn [handle_op] in H. inv1 H. inv1 H. cbn [set_step s_out] in A. unfold reply_int in H.
  assert (Er : forall c y, s1 = set_out y (s_out y ++ [OErr fd MSG_EVNT_ADD c]) -> False). { intros c y ->. cbn [set_out s_out] in A. rewrite rev_app_distr in A. discriminate. }
  destruct (find_mod s fd) as [m|] eqn:F. 2:{ inv1 Hm. exfalso. cbn [Z.ltb Z.compare] in H. unfold reply_err, emit, modify in H. injection H as <- _. eapply Er. reflexivity. }
  apply event_add_cases in Hm as [[-> Hr]|(t & x & Ht & -> & Hx & ->)].
  - exfalso. replace (v <? 0) with true in H by lia. unfold reply_err, emit, modify in H. injection H as <- _. eapply Er. reflexivity.
  - set (sx := upd_mod _ _ _) in *. destruct (t_nextev t <? 0) eqn:Q; [exfalso; unfold reply_err, emit, modify in H; injection H as <- _; exact (Er _ sx eq_refl)|].
    unfold respond in H. replace (MSG_DATA_SIZE <? zlen (le_bytes 4 (t_nextev t))) with false in H by (rewrite zlen_le_bytes; reflexivity).
    unfold emit, modify in H. inversion H. subst s1. clear H. cbn [set_out s_out] in A. rewrite rev_app_distr in A. cbn [rev app] in A. injection A as Z.
    eexists m, t, _, _, x. split; [reflexivity|]. split. { unfold find_mod in *. cbn. rewrite find_keep by reflexivity. rewrite F. cbn [option_map]. rewrite Z.eqb_refl. eexists. split; [reflexivity|]. reflexivity. }
    split; [exact Ht|]. split; [cbn; apply znth_zset_eq; eapply znth_range; exact Ht|]. cbn [t_nextev t_events t_data set_attr set_nextev set_events]. split; [symmetry; exact Z|]. split; [lia|]. do 12 (split; [reflexivity|]). exact Hx.
Qed.
Lemma id_back m : 0 <= m < 2147483648 -> s32 (le_val (slice 0 4 (le_bytes 4 m))) = m.
Proof. intros B. change 4 with (zlen (le_bytes 4 m)) at 1. rewrite slice_full, le_val_le_bytes. change (256 ^ Z.of_nat 4) with 4294967296. unfold s32. cbv zeta. rewrite Z.mod_mod by lia. rewrite Z.mod_small by lia. replace (m <? 2147483648) with true by lia. reflexivity. Qed.
(** a successful ADD EVENT *)
Lemma add_inv E T db cc fd s d a cc' s' d' n : event_add_cmd E T db cc fd s d a = Done (cc', s', d', inl n) ->
  exists k c nm rest h data p s1 ev, free_slot (dv_tab d) 0 = Some (n - 1) /\ a = nm :: c :: k :: rest /\ event_kind k <> 0 /\ tag_handle (s_types s) db cc nm (s32 (strtol0 c)) = Done (cc', inl h) /\
    (match rest with [w] => event_value T (h_type h) w | _ => Done [] end) = Done data /\ ask E s (OpEvAdd fd h (event_kind k) data) = Done (s1, inl p) /\
    add_event (h_index h) (s32 (le_val (slice 0 4 p))) (n - 1) (dv_ev d) = Done ev /\ (exists r, ask E s1 (OpEvOpt fd (h_index h) (s32 (le_val (slice 0 4 p))) 1) = Done (s', r)) /\
    d' = mk_dev (zset (dv_tab d) (n - 1) (true, h_index h, s32 (le_val (slice 0 4 p)))) ev.
Proof.
  unfold event_add_cmd. intros H. destruct (free_slot (dv_tab d) 0) as [f|]; [|discriminate]. destruct a as [|nm [|c [|k rest]]]; try discriminate. cbv zeta in H. destruct (event_kind k =? 0) eqn:K; [discriminate|].
  apply rbind_done in H as ((cc1 & [h|]) & Hh & H); [|discriminate]. apply rbind_done in H as (data & Hd & H). apply rbind_done in H as ((s1 & [p|]) & Ha & H); [|discriminate]. cbv beta iota in H.
  apply rbind_done in H as (ev & He & H). apply rbind_done in H as ((s2 & r) & Ho & H). cbv beta iota in H. cbn [fst] in H. injection H as <- <- <- <-. replace (f + 1 - 1) with f by lia.
  exists k, c, nm, rest, h, data, p, s1, ev. split; [reflexivity|]. split; [reflexivity|]. split; [lia|]. repeat (split; [assumption|]). split; [exists r; exact Ho | reflexivity].
Qed.
Lemma add_fails E T db cc fd s d a cc' s' d' : event_add_cmd E T db cc fd s d a = Done (cc', s', d', inr tt) -> d' = d /\ exists os, exec E s os = Done s'.
Proof.
  unfold event_add_cmd. intros H. assert (Z : forall c, Done (c, s, d, @inr Z unit tt) = Done (cc', s', d', inr tt) -> d' = d /\ exists os, exec E s os = Done s') by (intros c Q; injection Q as _ <- <-; split; [reflexivity | exists []; reflexivity]).
  destruct (free_slot (dv_tab d) 0) as [f|]; [|eapply Z; exact H]. destruct a as [|nm [|c [|k rest]]]; try (eapply Z; exact H). cbv zeta in H. destruct (event_kind k =? 0) eqn:K; [eapply Z; exact H|].
  apply rbind_done in H as ((cc1 & [h|]) & Hh & H); [|eapply Z; exact H]. apply rbind_done in H as (data & Hd & H). apply rbind_done in H as ((s1 & [p|]) & Ha & H); cbv beta iota in H.
  - apply rbind_done in H as (ev & He & H). apply rbind_done in H as ((s2 & r) & Ho & H). discriminate.
  - injection H as _ <- <-. split; [reflexivity|]. eexists. eapply ask_exec. exact Ha.
Qed.
Lemma del_inv E fd s d a s' d' b : event_del_cmd E fd s d a = Done (s', d', b) ->
  (b = false /\ d' = d /\ exists os, exec E s os = Done s') \/
  exists w r u i id p, b = true /\ a = w :: r /\ 0 <= s32 (strtol0 w - 1) <= 64 /\ znth (dv_tab d) (s32 (strtol0 w - 1)) = Some (u, i, id) /\ ask E s (OpEvDel fd i id) = Done (s', inl p) /\
    d' = mk_dev (dv_tab d) (fst (del_event i id (dv_ev d))).
Proof.
  unfold event_del_cmd. intros H. assert (Z : Done (s, d, false) = Done (s', d', b) -> b = false /\ d' = d /\ exists os, exec E s os = Done s') by (intros Q; injection Q as <- <- <-; split; [reflexivity|]; split; [reflexivity | exists []; reflexivity]).
  destruct a as [|w r]; [left; apply Z; exact H|]. destruct (strtol0 w =? _); [discriminate|]. cbv zeta in H. destruct (_ || _) eqn:Q; [left; apply Z; exact H|]. unfold MAX_EVENTS in Q.
  destruct (znth (dv_tab d) _) as [[[u i] id]|] eqn:Hz; [|discriminate]. apply rbind_done in H as ((s1 & [p|]) & Ha & H); cbv beta iota in H; injection H as <- <- <-.
  - right. exists w, r, u, i, id, p. split; [reflexivity|]. split; [reflexivity|]. split; [lia|]. split; [exact Hz|]. split; [exact Ha | reflexivity].
  - left. split; [reflexivity|]. split; [reflexivity|]. eexists. eapply ask_exec. exact Ha.
Qed.

Lemma good_more E s os s' d sl : reachable E s -> exec E s os = Done s' -> good s d sl -> good s' d sl.
Proof. intros R X (T & L & N & K & Ls & Nc). split; [exact T|]. split; [exact L|]. split; [exact N|]. split; [eapply Forall_impl; [|exact K]; intros p; apply (known_exec _ _ _ _ _ R X)|]. split; [exact Ls | exact Nc]. Qed.
Lemma listed_app sl p e : listed sl e -> listed (sl ++ [p]) e.
Proof. unfold listed. intros H. rewrite znth_app1; [exact H | eapply znth_range; exact H]. Qed.
Lemma zset_end {A} (a b : list A) x y : zset (a ++ x :: b) (zlen a) y = a ++ y :: b.
Proof.
  unfold zset. rewrite zlen_app, zlen_cons. assert (G1 := zlen_nonneg a). assert (G2 := zlen_nonneg b). replace (_ && _) with true by lia.
  unfold zlen. rewrite Nat2Z.id. clear. induction a as [|q a IH]; [reflexivity|]. unfold upd in *. cbn [app length firstn skipn] in *. f_equal. exact IH.
Qed.
Lemma slot_of (sl : list (Z * Z)) j u i id : znth (map used sl ++ repeat (false, 0, 0) (64 - length sl)) j = Some (u, i, id) -> znth sl j = Some (i, id) \/ zlen sl <= j /\ i = 0 /\ id = 0.
Proof.
  intros H. assert (R := znth_range _ _ _ H). destruct (Z.ltb_spec j (zlen sl)).
  - left. rewrite znth_app1 in H by (unfold zlen in *; rewrite map_length; lia). rewrite znth_map in H. destruct (znth sl j) as [[i' id']|]; [|discriminate]. cbn [option_map] in H. unfold used in H. cbn [fst snd] in H. congruence.
  - right. split; [assumption|]. apply znth_In in H as H1. apply in_app_or in H1 as [I|I].
    + exfalso. assert (Z1 : zlen (map used sl) <= j) by (unfold zlen in *; rewrite map_length; lia). rewrite znth_app2 in H by exact Z1. apply znth_In, repeat_spec in H. apply in_map_iff in I as (q & Q & _). unfold used in Q. congruence.
    + apply repeat_spec in I. split; congruence.
Qed.
Lemma index_mod w : 0 <= s32 (strtol0 w - 1) <= 64 -> (Prop_Text.number w - (s32 (strtol0 w - 1) + 1)) mod 4294967296 = 0.
Proof.
  rewrite strtol0_number. generalize (Prop_Text.number w). intros x. unfold sat64.
  destruct (Z.ltb_spec x (-9223372036854775808)) as [H|H]; [replace (Z.max _ _) with (-9223372036854775808) by lia; change (s32 (-9223372036854775808 - 1)) with (-1); lia|].
  destruct (Z.ltb_spec 9223372036854775807 x) as [H1|H1]; [replace (Z.max _ _) with 9223372036854775807 by lia; change (s32 (9223372036854775807 - 1)) with (-2); lia|].
  replace (Z.max _ _) with x by lia. intros _. unfold s32. cbv zeta. destruct (_ <? _); lia.
Qed.
(** the ids of the first tag begin with 1 *)
Lemma init_first E now r : exists s, init_tagbase E (empty_server now r) = Done (s, tt) /\ exists t, znth (s_db s) 0 = Some t /\ t_nextev t = 1.
Proof.
  assert (H : (match init_tagbase E (empty_server now r) with Done (s, _) => Some (map t_nextev (s_db s)) | Undef _ => None end) = Some (repeat 1 11)) by (vm_compute; reflexivity).
  destruct (init_tagbase E (empty_server now r)) as [[s []]|]; [|discriminate]. exists s. split; [reflexivity|]. injection H as H. destruct (s_db s) as [|t l]; [discriminate|]. cbn [map repeat] in H. exists t. split; [apply znth_0 | congruence].
Qed.
Local Transparent boot.
Lemma first_tag E s t : reachable E s -> znth (s_db s) 0 = Some t -> 1 <= t_nextev t.
Proof.
  intros (now & r & s0 & os & H1 & H2) Ht. assert (R0 : reachable E s0) by (exists now, r, s0, []; split; [exact H1 | reflexivity]).
  assert (G : exists t0, znth (s_db s0) 0 = Some t0 /\ 1 <= t_nextev t0).
  { clear H2 R0. revert H1. unfold boot. match goal with |- match ?m ?x with _ => _ end = _ -> _ => destruct (m x) as [[s1 u]|] eqn:H end; [|discriminate].
    intros K; injection K as <-. inv1 H. destruct (init_first E now (mk_rdb false [] 1 [])) as (s2 & P1 & t0 & P2 & P3). rewrite P1 in Hm. injection Hm as <- _.
    assert (I2 : Inv s2) by (eapply init_tagbase_good; [exact P1 | apply Inv_empty]).
    destruct (r_open r); [|inv_all; exists t0; split; [exact P2 | lia]].
    inv1 H. inv1 H. unfold modify in H; injection H as <- _.
    assert (Er : er (fun _ _ => True) s2 s3). { eapply er_trans; [eapply restore_types_er; exact Hm|]. eapply restore_tags_er; [|exact Hm0]. eapply restore_types_good; eassumption. }
    destruct (er_tag _ _ _ Er _ _ P2) as (t1 & A & B). exists t1. split; [exact A|]. assert (Q := tv_ev _ _ _ _ _ _ B). lia. }
  destruct G as (t0 & G1 & G2). destruct (exec_nextev _ _ _ _ _ _ R0 H2 G1) as (t1 & A & B). assert (t1 = t) by congruence. subst. lia.
Qed.
Local Opaque boot.
(** an ADD EVENT that succeeds takes the next number *)
Lemma good_add E T db cc fd s d a cc' s' d' n sl : reachable E s -> small s' -> good s d sl -> event_add_cmd E T db cc fd s d a = Done (cc', s', d', inl n) ->
  reachable E s' /\ n = zlen sl + 1 /\ (forall k, alive d k -> alive d' k) /\ alive d' (n - 1) /\
  exists i id t, znth (s_db s) i = Some t /\ id = t_nextev t /\ good s' d' (sl ++ [(i, id)]).
Proof.
  intros R Sm (T1 & L & N & K & Ls & Nc) H. destruct (add_inv _ _ _ _ _ _ _ _ _ _ _ _ H) as (k & c & nm & rest & h & data & p & s1 & ev & Hf & -> & Hk & Hh & Hd & Ha & He & (r & Ho) & ->).
  assert (R1 := exec_reach _ _ _ _ R (ask_exec _ _ _ _ _ Ha)). assert (X2 := ask_exec _ _ _ _ _ Ho). assert (R2 := exec_reach _ _ _ _ R1 X2). split; [exact R2|].
  destruct (added_id _ _ _ _ _ _ _ _ Ha) as (_ & t & t' & _ & _ & _ & _ & Ht & Ht' & -> & B1 & B2 & _). destruct (exec_nextev _ _ _ _ _ _ R1 X2 Ht') as (t2 & Ht2 & B3).
  assert (Kn : known s' (h_index h, t_nextev t)) by (exists t2; split; [exact Ht2|]; split; [cbn [snd]; lia|]; cbn [fst snd]; intros Z0; rewrite Z0 in Ht; eapply first_tag; [exact R | exact Ht]). destruct (known_id _ _ Sm Kn) as [B4 B5]. cbn [fst snd] in B4, B5. rewrite id_back in * by exact B5.
  rewrite T1, free_used in Hf. destruct (64 - length sl)%nat as [|m] eqn:Q; [discriminate|]. cbn [repeat free_slot] in Hf. assert (n = zlen sl + 1) as -> by (assert (0 + zlen sl = n - 1) by congruence; lia). clear Hf. split; [reflexivity|].
  replace (zlen sl + 1 - 1) with (zlen sl) in * by lia. unfold add_event in He. cbv zeta in He. destruct (negb _); [discriminate|]. destruct (_ <=? _); [discriminate|]. injection He as <-. rewrite !u32_id by (unfold id32; lia).
  split; [intros j (e & I & J); exists e; cbn [dv_ev ev_list]; split; [apply in_or_app; left; exact I | exact J]|].
  split; [eexists; cbn [dv_ev ev_list]; split; [apply in_or_app; right; left; reflexivity | reflexivity]|].
  exists (h_index h), (t_nextev t), t. split; [exact Ht|]. split; [reflexivity|]. unfold good. cbn [dv_tab dv_ev ev_list].
  assert (X1 := ask_exec _ _ _ _ _ Ha).
  split. { rewrite T1. cbn [repeat]. replace (zlen sl) with (zlen (map used sl)) by (unfold zlen; rewrite map_length; reflexivity). rewrite zset_end, map_app, app_length, <- app_assoc. cbn [map app length]. replace (64 - (length sl + 1))%nat with m by lia. reflexivity. }
  split; [rewrite app_length; cbn [length]; lia|].
  split. { apply nodup_snoc; [exact N|]. intros I. destruct (proj1 (Forall_forall _ _) K _ I) as (t0 & H0 & H1). cbn [fst snd] in *. assert (t0 = t) by congruence. subst. lia. }
  split. { apply Forall_app. split; [|constructor; [exact Kn | constructor]]. eapply Forall_impl; [|exact K]. intros q Kq. eapply known_exec; [exact R1 | exact X2|]. eapply known_exec; [exact R | exact X1 | exact Kq]. }
  split. { apply Forall_app. split; [eapply Forall_impl; [|exact Ls]; intros e; apply listed_app|]. constructor; [|constructor]. unfold listed. cbn [ev_cb ev_idx ev_id]. apply znth_last. }
  rewrite map_app. cbn [map ev_cb]. apply nodup_snoc; [exact Nc|]. intros I. apply in_map_iff in I as (e & Q1 & I). assert (Le := proj1 (Forall_forall _ _) Ls _ I). apply znth_range in Le. lia.
Qed.
(** DEL EVENT takes one event away *)
Lemma good_del E fd s d a s' d' b sl : reachable E s -> small s' -> good s d sl -> event_del_cmd E fd s d a = Done (s', d', b) ->
  reachable E s' /\ good s' d' sl /\ (forall k, alive d k -> ~ deletes a (k + 1) -> alive d' k).
Proof.
  intros R Sm G H. destruct (del_inv _ _ _ _ _ _ _ _ H) as [(_ & -> & os & X)|(w & r & u & i & id & p & _ & -> & B & Hz & Ha & ->)].
  - split; [eapply exec_reach; eassumption|]. split; [eapply good_more; eassumption | auto].
  - assert (X := ask_exec _ _ _ _ _ Ha). split; [eapply exec_reach; eassumption|]. destruct (good_more _ _ _ _ _ _ R X G) as (T1 & L & N & K & Ls & Nc).
    set (c := dv_ev d) in *. rewrite T1 in Hz.
    assert (F := find_split i id (ev_list c) 0). unfold del_event. destruct (find_ev i id (ev_list c) 0) as [(k & e)|]; cbn [fst].
    2:{ split; [repeat (split; [assumption|]); assumption | auto]. }
    destruct F as (l1 & l2 & Q & -> & Xe & _). cbn [dv_ev ev_list ev_size dv_tab].
    assert (Q1 : firstn (Z.to_nat (0 + zlen l1)) (ev_list c) ++ skipn (Z.to_nat (0 + zlen l1 + 1)) (ev_list c) = l1 ++ l2).
    { rewrite Q. replace (Z.to_nat (0 + zlen l1)) with (length l1) by (unfold zlen; lia). replace (Z.to_nat (0 + zlen l1 + 1)) with (length (l1 ++ [e])) by (rewrite app_length; unfold zlen; cbn [length]; lia). 
      rewrite firstn_app, Nat.sub_diag, firstn_all. cbn [firstn]. rewrite app_nil_r. f_equal. change (l1 ++ e :: l2) with (l1 ++ [e] ++ l2). rewrite app_assoc, skipn_app, Nat.sub_diag, skipn_all. reflexivity. }
    rewrite Q1. rewrite Q in Ls, Nc. apply Forall_app in Ls as [Ls1 Ls2]. apply Forall_cons_iff in Ls2 as [Le Ls2]. rewrite map_app in Nc. cbn [map] in Nc.
    split. { unfold good. cbn [dv_ev ev_list dv_tab]. repeat (split; [assumption|]). split; [apply Forall_app; split; assumption|]. rewrite map_app. eapply NoDup_remove_1. exact Nc. }
    intros j (e0 & I & J) D. fold c in I. rewrite Q in I. apply in_app_or in I as [I|[<-|I]]; [exists e0; split; [cbn [dv_ev ev_list]; apply in_or_app; left; exact I | exact J]| |exists e0; split; [cbn [dv_ev ev_list]; apply in_or_app; right; exact I | exact J]].
    exfalso. apply D. exists w, r. split; [reflexivity|]. unfold listed in Le. rewrite J in Le. destruct (known_id _ _ Sm (proj1 (Forall_forall _ _) K _ (znth_In _ _ _ Le))) as [B1 B2]. cbn [fst snd] in B1, B2.
    destruct (slot_of _ _ _ _ _ Hz) as [Hs|(Hs & -> & ->)].
    + destruct (known_id _ _ Sm (proj1 (Forall_forall _ _) K _ (znth_In _ _ _ Hs))) as [B3 B4]. cbn [fst snd] in B3, B4. unfold is_ev in Xe. rewrite !u32_id in Xe by (unfold id32; lia).
      assert (ev_idx e = i /\ ev_id e = id) as [E1 E2] by lia. rewrite E1, E2 in Le. assert (H0 : j = s32 (strtol0 w - 1)) by exact (znth_inj sl _ _ _ N Le Hs). rewrite <- J in H0. rewrite <- J, H0. apply index_mod. exact B.
    + exfalso. unfold is_ev in Xe. change (u32 0) with 0 in Xe. assert (ev_idx e = 0 /\ ev_id e = 0) as [E1 E2] by lia. rewrite E1, E2 in Le. 
      destruct (proj1 (Forall_forall _ _) K _ (znth_In _ _ _ Le)) as (t & Ht & Hb). cbn [fst snd] in *. lia.
Qed.
Lemma opt_set E s fd i id s' r m t e l : ask E s (OpEvOpt fd i id 1) = Done (s', r) -> find_mod s fd = Some m -> znth (s_db s) i = Some t -> t_events t = e :: l -> e_id e = id -> e_mod e = m_uid m ->
  exists t', znth (s_db s') i = Some t' /\ t_events t' = set_opts e 1 :: l /\ t_data t' = t_data t.
Proof.
  intros H F Ht He Hi Hm. apply ask_inv in H as [H _]. apply step_inv in H as (s1 & u & H & ->). cbn [handle_op] in H. inv1 H. rewrite F in H. inv1 H.
  unfold event_opt in Hm0. inv1 Hm0. rewrite Ht, He in Hm0. cbn [List.find] in Hm0. rewrite Hi, Z.eqb_refl in Hm0. cbv beta iota in Hm0. rewrite Hm, Z.eqb_refl in Hm0. cbv iota in Hm0. inv1 Hm0. inv1 Hm0.
  eexists (set_events t (set_opts e 1 :: l)). split; [|split; reflexivity]. cbn [set_step s_db].
  assert (Q : s_db s1 = zset (s_db s) i (set_events t (set_opts e 1 :: l))).
  { destruct (0 <=? i); [unfold respond in H; destruct (_ <? _) in H; [unfold ret in H; inversion H; subst; reflexivity|] | unfold reply_err in H]; unfold emit, modify in H; inversion H; subst; reflexivity. }
  rewrite Q. apply znth_zset_eq. eapply znth_range. exact Ht.
Qed.
Lemma kind_named k : event_kind k <> 0 -> names_kind k (event_kind k).
Proof.
  unfold event_kind, names_kind, kinds. intros H.
  repeat match goal with |- context [case_eqb k ?x] => destruct (case_eqb k x) eqn:?; [exists x; split; [cbn [In]; tauto | assumption]|] end. exfalso. apply H. reflexivity.
Qed.

(** ** C159 *)
Lemma ul_number w : 0 <= Prop_Text.number w <= 18446744073709551615 -> fst (strtoul0 w) = Prop_Text.number w.
Proof.
  destruct (signed w) as (neg & m & Hm & _ & -> & -> & _). intros B. unfold strtoul_neg, sgn in *. replace (18446744073709551615 <? m) with false by (destruct neg; lia).
  cbn [fst]. unfold u64. destruct neg; lia.
Qed.
Lemma l_number w : -9223372036854775808 <= Prop_Text.number w <= 9223372036854775807 -> strtol0 w = Prop_Text.number w.
Proof. intros B. rewrite strtol0_number. unfold sat64. lia. Qed.
Lemma value_is T t lo hi n w data : In (t, (lo, hi, n)) int_types -> lo <= Prop_Text.number w <= hi -> event_value T t w = Done data -> data = le_bytes n (Prop_Text.number w).
Proof.
  intros I B H. assert (Q : (event_value T t w = Done (le_bytes n (strtol0 w)) /\ -9223372036854775808 <= lo /\ hi <= 9223372036854775807) \/ (event_value T t w = Done (le_bytes n (fst (strtoul0 w))) /\ 0 <= lo /\ hi <= 18446744073709551615)).
  { unfold int_types in I. cbn [In] in I. repeat (destruct I as [I|I]; [inversion I; subst; first [left; split; [reflexivity | lia] | right; split; [reflexivity | lia]]|]). contradiction. }
  destruct Q as [[Q W]|[Q W]]; [rewrite l_number in Q by lia | rewrite ul_number in Q by lia]; congruence.
Qed.
(** a successful ADD EVENT leaves a new event at the tag named: of this client, of the kind named, for the elements named, sending the data, and
    with the number given as its reference value *)
Theorem C159_registered_partial : forall E T db cc fd s d a cc' s' d' n,
  reachable E s -> small s' -> event_add_cmd E T db cc fd s d a = Done (cc', s', d', inl n) ->
  exists nm c k rest h m t t' e, a = nm :: c :: k :: rest /\ tag_handle (s_types s) db cc nm (s32 (strtol0 c)) = Done (cc', inl h) /\ find_mod s fd = Some m /\
    znth (s_db s) (h_index h) = Some t /\ znth (s_db s') (h_index h) = Some t' /\ t_events t' = e :: t_events t /\ t_data t' = t_data t /\
    e_mod e = m_uid m /\ names_kind k (e_etype e) /\ e_opts e = 1 /\ e_dtype e = h_type h /\ e_byte e = s32 (h_byte h) /\ e_bit e = h_bit h /\ e_count e = s32 (h_count h) /\ e_size e = h_size h /\
    (compares (e_etype e) -> forall w lo hi z, rest = [w] -> In (h_type h, (lo, hi, z)) int_types -> lo <= Prop_Text.number w <= hi -> e_data e = le_bytes z (Prop_Text.number w)).
Proof.
  intros E T db cc fd s d a cc' s' d' n R Sm H. destruct (add_inv _ _ _ _ _ _ _ _ _ _ _ _ H) as (k & c & nm & rest & h & data & p & s1 & ev & _ & -> & Hk & Hh & Hd & Ha & _ & (r & Ho) & _).
  destruct (added_id _ _ _ _ _ _ _ _ Ha) as (m & t & t' & e & x & Fm & (m' & Fm' & Um) & Ht & Ht' & -> & B1 & B2 & A1 & A2 & A3 & A4 & A5 & A6 & A7 & A8 & A9 & A10 & A11 & A12).
  assert (R1 := exec_reach _ _ _ _ R (ask_exec _ _ _ _ _ Ha)). assert (X2 := ask_exec _ _ _ _ _ Ho). destruct (exec_nextev _ _ _ _ _ _ R1 X2 Ht') as (t2 & Ht2 & B3).
  assert (B5 : t_nextev t2 < 2147483648) by (apply (proj2 Sm); eapply znth_In; exact Ht2). rewrite id_back in Ho by lia.
  destruct (opt_set _ _ _ _ _ _ _ _ _ _ _ Ho Fm' Ht' A1 A3 ltac:(congruence)) as (t3 & H3 & H4 & H5).
  exists nm, c, k, rest, h, m, t, t3, (set_opts e 1). split; [reflexivity|]. split; [exact Hh|]. split; [exact Fm|]. split; [exact Ht|]. split; [exact H3|]. split; [exact H4|]. split; [congruence|].
  cbn [set_opts e_mod e_etype e_opts e_dtype e_byte e_bit e_count e_size e_data]. split; [exact A4|]. split; [rewrite A5; apply kind_named; exact Hk|]. split; [reflexivity|]. do 5 (split; [assumption|]).
  intros C w lo hi z -> I B. rewrite A11. rewrite A5 in C. assert (V := value_is _ _ _ _ _ _ _ I B Hd). subst data.
  destruct (type_size_base (s_types s) (h_type h) lo hi z (or_introl I)) as [Z1 _].
  eapply compared; [exact C | exact Z1 | apply zlen_le_bytes | exact A12].
Qed.
(** a word that names no kind is refused *)
Theorem C159_unknown : forall E T db cc fd s d nm c k rest, (forall x, ~ names_kind k x) -> event_add_cmd E T db cc fd s d (nm :: c :: k :: rest) = Done (cc, s, d, inr tt).
Proof.
  intros E T db cc fd s d nm c k rest N. unfold event_add_cmd. destruct (free_slot _ _); [|reflexivity]. cbv zeta. destruct (event_kind k =? 0) eqn:Q; [reflexivity|]. exfalso. eapply N, kind_named. lia.
Qed.
(** REFUTED: for a tag of type TIME half of the reference value is whatever is on the stack *)
Theorem C159_time_refuted : forall E T db cc fd s d nm c k w n cc1 h, free_slot (dv_tab d) 0 = Some n -> event_kind k <> 0 ->
  tag_handle (s_types s) db cc nm (s32 (strtol0 c)) = Done (cc1, inl h) -> h_type h = T_TIME -> event_add_cmd E T db cc fd s d [nm; c; k; w] = Undef UUninit.
Proof. intros E T db cc fd s d nm c k w n cc1 h Hf Hk Hh Ht. unfold event_add_cmd. rewrite Hf. cbv zeta. replace (event_kind k =? 0) with false by lia. rewrite Hh. cbn [rbind]. rewrite Ht. reflexivity. Qed.
(** REFUTED: a number outside the range of the type is not refused, only its low bits are used *)
Theorem C159_range_refuted : forall E T db cc fd s d nm c k cc1 h, tag_handle (s_types s) db cc nm (s32 (strtol0 c)) = Done (cc1, inl h) -> h_type h = T_BYTE ->
  event_add_cmd E T db cc fd s d [nm; c; k; str "300"] = event_add_cmd E T db cc fd s d [nm; c; k; str "44"].
Proof. intros E T db cc fd s d nm c k cc1 h Hh Ht. unfold event_add_cmd. rewrite Hh. cbn [rbind]. rewrite Ht. reflexivity. Qed.
Lemma good_start s : good s dev_start [].
Proof. unfold good. cbn [dev_start dv_tab dv_ev ev_init ev_list map length]. split; [reflexivity|]. split; [lia|]. repeat split; constructor. Qed.
Lemma happens_good E fd x a y sl : reachable E (fst x) -> small (fst y) -> good (fst x) (snd x) sl -> happens E fd x a y ->
  reachable E (fst y) /\ (forall k, alive (snd x) k -> ~ deletes a (k + 1) -> alive (snd y) k) /\ exists more, good (fst y) (snd y) (sl ++ more).
Proof.
  intros R Sm G H. destruct H as [s d os s' X|s d T db cc a cc' s' d' r A|s d a s' d' b A]; cbn [fst snd] in *.
  - split; [eapply exec_reach; eassumption|]. split; [auto|]. exists []. rewrite app_nil_r. eapply good_more; eassumption.
  - destruct r as [n|[]].
    + destruct (good_add _ _ _ _ _ _ _ _ _ _ _ _ _ R Sm G A) as (R' & _ & K & _ & i & id & t & _ & _ & G'). split; [exact R'|]. split; [auto|]. exists [(i, id)]. exact G'.
    + destruct (add_fails _ _ _ _ _ _ _ _ _ _ _ A) as (-> & os & X). split; [eapply exec_reach; eassumption|]. split; [auto|]. exists []. rewrite app_nil_r. eapply good_more; eassumption.
  - destruct (good_del _ _ _ _ _ _ _ _ _ R Sm G A) as (R' & G' & K). split; [exact R'|]. split; [exact K|]. exists []. rewrite app_nil_r. exact G'.
Qed.
Lemma session_good E fd x : session E fd x -> reachable E (fst x) /\ exists sl, good (fst x) (snd x) sl.
Proof.
  induction 1 as [s R|x a y H (R & sl & G) Hp Sm]; [split; [exact R|]; exists []; apply good_start|].
  destruct (happens_good _ _ _ _ _ _ R Sm G Hp) as (R' & _ & more & G'). split; [exact R'|]. exists (sl ++ more). exact G'.
Qed.
Lemma later_good E fd n x y sl : later E fd n x y -> reachable E (fst x) -> small (fst x) -> good (fst x) (snd x) sl -> alive (snd x) (n - 1) ->
  reachable E (fst y) /\ small (fst y) /\ alive (snd y) (n - 1) /\ exists more, good (fst y) (snd y) (sl ++ more).
Proof.
  intros L R Sm G A. induction L as [x|x y a z L IH Hp Sz D]; [split; [exact R|]; split; [exact Sm|]; split; [exact A|]; exists []; rewrite app_nil_r; exact G|].
  destruct (IH R Sm G A) as (R1 & _ & A1 & m1 & G1). destruct (happens_good _ _ _ _ _ _ R1 Sz G1 Hp) as (R2 & K & m2 & G2). split; [exact R2|]. split; [exact Sz|].
  split; [apply K; [exact A1 | replace (n - 1 + 1) with n by lia; exact D]|]. exists (m1 ++ m2). rewrite app_assoc. exact G2.
Qed.
Lemma del_answer E s fd i id s' c : 0 <= i -> ask E s (OpEvDel fd i id) = Done (s', inr c) -> False.
Proof.
  intros Hi H. apply ask_inv in H as [H Q]. apply step_inv in H as (s1 & u & H & ->). cbn [handle_op] in H. inv1 H. inv1 H. replace (0 <=? i) with true in H by lia.
  unfold respond in H. replace (MSG_DATA_SIZE <? zlen (le_bytes 4 i ++ jbytes E (s_step s) 0 4)) with false in H by (rewrite zlen_app, zlen_le_bytes, zlen_jbytes by lia; reflexivity).
  unfold emit, modify in H. inversion H. subst s1. cbn [set_step set_out s_out] in Q. rewrite rev_app_distr in Q. discriminate.
Qed.

(** ** C160 *)
(** the [n]-th event added gets number [n]; a message about it prints [n], however many events were added and deleted in between; DEL EVENT [n]
    takes it back at the server and from then on nothing is printed for it *)
Theorem C160_numbered : forall E T db cc fd s d nm c a cc' s1 d1 n,
  session E fd (s, d) -> event_add_cmd E T db cc fd s d (nm :: c :: a) = Done (cc', s1, d1, inl n) -> small s1 ->
  1 <= n <= 64 /\ exists h e, tag_handle (s_types s) db cc nm (s32 (strtol0 c)) = Done (cc', inl h) /\ newest s1 (h_index h) = Some e /\
    forall s2 d2, later E fd n (s1, d1) (s2, d2) ->
      (forall data, event_print d2 (note (h_index h) (e_id e) data) = Done (Some n)) /\
      forall w r s3 d3 b, Prop_Text.number w = n -> event_del_cmd E fd s2 d2 (w :: r) = Done (s3, d3, b) -> small s3 ->
        b = true /\ step E s2 (OpEvDel fd (h_index h) (e_id e)) = Done s3 /\ forall data, event_print d3 (note (h_index h) (e_id e) data) = Done None.
Proof.
  intros E T db cc fd s d nm c a cc' s1 d1 n Se H Sm. destruct (session_good _ _ _ Se) as (R & sl & G). cbn [fst snd] in R, G.
  destruct (good_add _ _ _ _ _ _ _ _ _ _ _ _ _ R Sm G H) as (R1 & Hn & _ & Al & i & id & t & Ht & Hid & G1).
  destruct (C159_registered_partial _ _ _ _ _ _ _ _ _ _ _ _ R Sm H) as (nm' & c' & k & rest & h & m & t1 & t2 & e & Ea & Hh & Fm & Ht1 & Ht2 & Ev & _). injection Ea as <- <- ->.
  split. { destruct G1 as (_ & L & _). rewrite app_length in L. cbn [length] in L. assert (Z0 := zlen_nonneg sl). unfold zlen in *. lia. }
  destruct (add_inv _ _ _ _ _ _ _ _ _ _ _ _ H) as (k2 & c2 & nm2 & rest2 & h2 & data & p & s0 & ev & Hf & Ea & Hk & Hh2 & Hd & Ha & He & (ro & Ho) & Ed). injection Ea as <- <- <- <-. assert (h2 = h) by congruence. subst h2.
  destruct (added_id _ _ _ _ _ _ _ _ Ha) as (m0 & t0 & t0' & e0 & x & Fm0 & (m' & Fm' & Um) & Ht0 & Ht0' & -> & B1 & B2 & A1 & A2 & A3 & A4 & A5 & _).
  assert (t0 = t1) by congruence. subst t0.
  assert (R0 := exec_reach _ _ _ _ R (ask_exec _ _ _ _ _ Ha)). assert (X2 := ask_exec _ _ _ _ _ Ho). destruct (exec_nextev _ _ _ _ _ _ R0 X2 Ht0') as (t3 & Ht3 & B3).
  assert (B5 : t_nextev t3 < 2147483648) by (apply (proj2 Sm); eapply znth_In; exact Ht3). rewrite id_back in * by lia.
  assert (M0 : e_mod e0 = m_uid m') by congruence.
  destruct (opt_set _ _ _ _ _ _ _ _ _ _ _ Ho Fm' Ht0' A1 A3 M0) as (t4 & H3 & H4 & H5). assert (t4 = t2) by congruence. subst t4.
  assert (Ee : e = set_opts e0 1) by congruence. assert (Ei : e_id e = t_nextev t1) by (rewrite Ee; exact A3).
  (* the entry of the table *)
  assert (Sl : znth (sl ++ [(i, id)]) (n - 1) = Some (h_index h, e_id e)).
  { destruct G1 as (T1 & L1 & _). assert (Z1 : znth (dv_tab d1) (n - 1) = Some (true, h_index h, t_nextev t1)).
    { rewrite Ed. cbn [dv_tab]. apply znth_zset_eq. destruct G as (T0 & L0 & _). rewrite T0. rewrite zlen_app. unfold zlen in *. rewrite map_length, repeat_length. rewrite app_length in L1. cbn [length] in L1. lia. }
    rewrite T1 in Z1. destruct (slot_of _ _ _ _ _ Z1) as [Z2|(Z2 & _)]; [rewrite Ei; exact Z2|]. exfalso. rewrite zlen_app in Z2. change (zlen [(i, id)]) with 1 in Z2. lia. }
  exists h, e. split; [exact Hh|]. split; [unfold newest; rewrite Ht2, Ev; reflexivity|]. intros s2 d2 La.
  destruct (later_good _ _ _ _ _ _ La R1 Sm G1 Al) as (R2 & Sm2 & Al2 & more & G2). cbn [fst snd] in *.
  assert (Sl2 : znth ((sl ++ [(i, id)]) ++ more) (n - 1) = Some (h_index h, e_id e)) by (rewrite znth_app1; [exact Sl | eapply znth_range; exact Sl]).
  split. { intros dat. replace n with (n - 1 + 1) by lia. eapply note_print; [exact Sm2 | exact G2 | exact Sl2 | exact Al2]. }
  intros w r s3 d3 b Nw Hd3 Sm3. assert (Bn : 1 <= n <= 64). { destruct G1 as (_ & L & _). rewrite app_length in L. cbn [length] in L. assert (Z0 := zlen_nonneg sl). unfold zlen in *. lia. }
  assert (Iw : s32 (strtol0 w - 1) = n - 1) by (rewrite l_number by lia; unfold s32; cbv zeta; rewrite Nw; destruct (_ <? _) eqn:?; lia).
  assert (Tb : znth (dv_tab d2) (n - 1) = Some (true, h_index h, e_id e)).
  { destruct G2 as (T2 & _). rewrite T2. assert (Rg := znth_range _ _ _ Sl2). rewrite znth_app1 by (unfold zlen in *; rewrite map_length; lia). rewrite znth_map, Sl2. reflexivity. }
  assert (Rh := znth_range _ _ _ Ht2).
  destruct (good_del _ _ _ _ _ _ _ _ _ R2 Sm3 G2 Hd3) as (R3 & G3 & _).
  assert (De : exists p, ask E s2 (OpEvDel fd (h_index h) (e_id e)) = Done (s3, inl p) /\ b = true /\ d3 = mk_dev (dv_tab d2) (fst (del_event (h_index h) (e_id e) (dv_ev d2)))).
  { unfold event_del_cmd in Hd3. replace (strtol0 w =? -9223372036854775808) with false in Hd3 by (rewrite l_number by lia; lia). cbv zeta in Hd3. rewrite Iw, Tb in Hd3. unfold MAX_EVENTS in Hd3. replace ((n - 1 <? 0) || (64 <? n - 1)) with false in Hd3 by lia.
    apply rbind_done in Hd3 as ((s4 & [p|q]) & Hq & Hd3); cbv beta iota in Hd3; [|exfalso; eapply del_answer; [|exact Hq]; lia]. injection Hd3 as <- <- <-. exists p. auto. }
  destruct De as (p & Hq & -> & Ed3). split; [reflexivity|]. split; [apply ask_inv in Hq as [Hq _]; exact Hq|].
  intros dat. refine (proj2 (note_print s3 d3 _ _ _ dat Sm3 G3 (n - 1) Sl2) _). intros (e1 & I1 & Q1).
  (* no entry is left *)
  rewrite Ed3 in I1. cbn [dv_ev] in I1. destruct G2 as (_ & _ & N2 & K2 & Ls2 & Nc2). destruct G3 as (_ & _ & _ & K3 & Ls3 & Nc3). unfold del_event in I1.
  destruct Al2 as (e2 & I2 & Q2). assert (F := find_split (h_index h) (e_id e) (ev_list (dv_ev d2)) 0). destruct (find_ev (h_index h) (e_id e) (ev_list (dv_ev d2)) 0) as [(kk & e3)|] eqn:Fe; cbn [fst ev_list] in I1.
  - destruct F as (l1 & l2 & Q & -> & X & _). assert (Ke := known_id _ _ Sm2 (proj1 (Forall_forall _ _) K2 _ (znth_In _ _ _ Sl2))). cbn [fst snd] in Ke.
    unfold is_ev in X. rewrite !u32_id in X by (unfold id32; lia). assert (Le := proj1 (Forall_forall _ _) Ls2 e3 ltac:(rewrite Q; apply in_elt)). unfold listed in Le. replace (ev_idx e3) with (h_index h) in Le by lia. replace (ev_id e3) with (e_id e) in Le by lia.
    assert (C3 : ev_cb e3 = n - 1) by exact (znth_inj _ _ _ _ N2 Le Sl2).
    assert (Q0 : firstn (Z.to_nat (0 + zlen l1)) (ev_list (dv_ev d2)) ++ skipn (Z.to_nat (0 + zlen l1 + 1)) (ev_list (dv_ev d2)) = l1 ++ l2).
    { rewrite Q. replace (Z.to_nat (0 + zlen l1)) with (length l1) by (unfold zlen; lia). replace (Z.to_nat (0 + zlen l1 + 1)) with (length (l1 ++ [e3])) by (rewrite app_length; unfold zlen; cbn [length]; lia). 
      rewrite firstn_app, Nat.sub_diag, firstn_all. cbn [firstn]. rewrite app_nil_r. f_equal. change (l1 ++ e3 :: l2) with (l1 ++ [e3] ++ l2). rewrite app_assoc, skipn_app, Nat.sub_diag, skipn_all. reflexivity. }
    rewrite Q0 in I1. rewrite Q, map_app in Nc2. cbn [map] in Nc2. apply NoDup_remove_2 in Nc2. apply Nc2. rewrite C3, <- Q1, <- map_app. apply in_map. exact I1.
  - assert (Ke := known_id _ _ Sm2 (proj1 (Forall_forall _ _) K2 _ (znth_In _ _ _ Sl2))). cbn [fst snd] in Ke. assert (Le := proj1 (Forall_forall _ _) Ls2 _ I2). unfold listed in Le. rewrite Q2, Sl2 in Le. injection Le as Y1 Y2.
    assert (W : In (ev_cb e2) (of_event (h_index h) (e_id e) (ev_list (dv_ev d2)))). { unfold of_event. apply in_map, filter_In. split; [exact I2|]. unfold is_ev. rewrite <- Y1, <- Y2, !u32_id by (unfold id32; lia). rewrite !Z.eqb_refl. reflexivity. }
    rewrite F in W. exact W.
Qed.
(** [y] comes later than [x], whatever was deleted in between *)
Inductive ever (E : env) (fd : Z) : server * dev -> server * dev -> Prop :=
| ev_refl x : ever E fd x x
| ev_step x y a z : ever E fd x y -> happens E fd y a z -> small (fst z) -> ever E fd x z.
(** REFUTED: once 64 events were added, no event can be added any more, even if all of them were deleted *)
Theorem C160_full_refuted : forall E T db cc fd s d a cc' s1 d1 s2 d2, session E fd (s, d) -> event_add_cmd E T db cc fd s d a = Done (cc', s1, d1, inl 64) -> small s1 ->
  ever E fd (s1, d1) (s2, d2) -> forall T db cc a, event_add_cmd E T db cc fd s2 d2 a = Done (cc, s2, d2, inr tt).
Proof.
  intros E T db cc fd s d a cc' s1 d1 s2 d2 Se H Sm Ev. destruct (session_good _ _ _ Se) as (R & sl & G). cbn [fst snd] in R, G.
  destruct (good_add _ _ _ _ _ _ _ _ _ _ _ _ _ R Sm G H) as (R1 & Hn & _ & _ & i & id & t & _ & _ & G1).
  assert (G2 : forall y, ever E fd (s1, d1) y -> reachable E (fst y) /\ exists more, good (fst y) (snd y) ((sl ++ [(i, id)]) ++ more)).
  { clear - R1 G1. intros y Ev. remember (s1, d1) as x eqn:Ex. induction Ev as [x|x y a z Ev IH Hp Sz]; subst; [split; [exact R1|]; exists []; rewrite app_nil_r; exact G1|].
    destruct (IH eq_refl) as (R2 & m1 & G2). destruct (happens_good _ _ _ _ _ _ R2 Sz G2 Hp) as (R3 & _ & m2 & G3). split; [exact R3|]. exists (m1 ++ m2). rewrite app_assoc. exact G3. }
  destruct (G2 _ Ev) as (_ & more & T2 & L2 & _). cbn [snd] in T2. intros T' db' cc2 a'. unfold event_add_cmd. rewrite T2, free_used.
  assert (Q : (64 - length ((sl ++ [(i, id)]) ++ more) = 0)%nat) by (rewrite !app_length in *; cbn [length] in *; unfold zlen in Hn; lia). rewrite Q. reflexivity.
Qed.
(** REFUTED: DEL EVENT 65 reads past the end of the table *)
Theorem C160_last_refuted : forall E fd s d, session E fd (s, d) -> event_del_cmd E fd s d [str "65"] = Undef UOob.
Proof.
  intros E fd s d Se. destruct (session_good _ _ _ Se) as (_ & sl & T & L & _). cbn [snd] in T. unfold event_del_cmd. change (strtol0 (str "65")) with 65. change (65 =? -9223372036854775808) with false. cbv zeta iota. change (s32 (65 - 1)) with 64. change ((64 <? 0) || (MAX_EVENTS <? 64)) with false. cbv iota.
  replace (znth (dv_tab d) 64) with (@None (bool * Z * Z)); [reflexivity|]. symmetry. apply znth_none. right. rewrite T, zlen_app. unfold zlen. rewrite map_length, repeat_length. lia.
Qed.
(** REFUTED: a number above 2^32 deletes an event that was not named *)
Theorem C160_modulo_refuted : forall E fd s d, event_del_cmd E fd s d [str "4294967297"] = event_del_cmd E fd s d [str "1"].
Proof. reflexivity. Qed.

(** ** Examples *)
Lemma small_check s : (zlen (s_db s) <? 2147483648) && forallb (fun t => t_nextev t <? 2147483648) (s_db s) = true -> small s.
Proof. intros H. apply andb_prop in H as [A B]. split; [lia|]. intros t I. assert (Q := proj1 (forallb_forall _ _) B _ I). cbv beta in Q. lia. Qed.
Definition ex_add s d a := event_add_cmd env0 Prop_Text.te0 Prop_DaxcCmd.ex_db [] 5 s d a.
Example C159_ex : exists cc' s' d' e, ex_add demo dev_start [str "foo[2]"; str "3"; str "Greater"; str "-7"] = Done (cc', s', d', inl 1) /\ small s' /\ newest s' 13 = Some e /\ e_etype e = EV_GREATER /\ compares EV_GREATER /\ e_byte e = 8 /\ e_count e = 3 /\
  e_data e = le_bytes 4 (-7) /\ e_opts e = 1 /\ forall x, ~ names_kind (str "EQUALS") x.
Proof.
  do 4 eexists. split; [vm_compute; reflexivity|]. split; [apply small_check; vm_compute; reflexivity|]. split; [vm_compute; reflexivity|]. split; [reflexivity|]. split; [unfold compares; cbn; tauto|].
  split; [reflexivity|]. split; [reflexivity|]. split; [vm_compute; reflexivity|]. split; [reflexivity|]. intros k (x & I & C). unfold kinds in I. cbn [In] in I. repeat (destruct I as [I|I]; [inversion I; subst; vm_compute in C; discriminate|]). contradiction.
Qed.
Example C160_ex : exists cc1 s1 d1 cc2 s2 d2 s3 d3, session env0 5 (demo, dev_start) /\ ex_add demo dev_start [str "foo"; str "1"; str "change"] = Done (cc1, s1, d1, inl 1) /\ small s1 /\
  ex_add s1 d1 [str "foo"; str "1"; str "write"] = Done (cc2, s2, d2, inl 2) /\ small s2 /\ event_del_cmd env0 5 s2 d2 [str "1"] = Done (s3, d3, true) /\ small s3 /\ later env0 5 2 (s2, d2) (s3, d3) /\
  event_print d2 (note 13 1 []) = Done (Some 1) /\ event_print d3 (note 13 2 []) = Done (Some 2) /\ event_print d3 (note 13 1 []) = Done None.
Proof.
  assert (X : exists cc1 s1 d1 cc2 s2 d2 s3 d3, ex_add demo dev_start [str "foo"; str "1"; str "change"] = Done (cc1, s1, d1, inl 1) /\ small s1 /\
    ex_add s1 d1 [str "foo"; str "1"; str "write"] = Done (cc2, s2, d2, inl 2) /\ small s2 /\ event_del_cmd env0 5 s2 d2 [str "1"] = Done (s3, d3, true) /\ small s3 /\
    event_print d2 (note 13 1 []) = Done (Some 1) /\ event_print d3 (note 13 2 []) = Done (Some 2) /\ event_print d3 (note 13 1 []) = Done None).
  { do 8 eexists. split; [vm_compute; reflexivity|]. split; [apply small_check; vm_compute; reflexivity|]. split; [vm_compute; reflexivity|]. split; [apply small_check; vm_compute; reflexivity|].
    split; [vm_compute; reflexivity|]. split; [apply small_check; vm_compute; reflexivity|]. split; [vm_compute; reflexivity|]. split; vm_compute; reflexivity. }
  destruct X as (cc1 & s1 & d1 & cc2 & s2 & d2 & s3 & d3 & A & B & C & D & F & G & H & I & J). exists cc1, s1, d1, cc2, s2, d2, s3, d3.
  split; [apply se_start; exact demo_reachable|]. do 6 (split; [assumption|]). split; [|auto].
  eapply la_step; [apply la_refl | eapply hp_del; exact F | exact G|]. intros (w & r & Q & M). injection Q as <- <-. vm_compute in M. discriminate.
Qed.
(** 64 events can be added *)
Fixpoint add_many (k : nat) (s : server) (d : dev) : run (server * dev * Z) :=
  match k with
  | O => Done (s, d, 0)
  | Datatypes.S j => x <-- add_many j s d ;; let '(s, d, _) := x in y <-- ex_add s d [str "bar"; str "1"; str "set"] ;; match y with (_, s, d, inl n) => Done (s, d, n) | (_, s, d, inr _) => Done (s, d, -1) end
  end.
Example C160_ex_full : (x <-- add_many 64 demo dev_start ;; Done (snd x)) = Done 64 /\ (x <-- add_many 65 demo dev_start ;; Done (snd x)) = Done (-1).
Proof. split; vm_compute; reflexivity. Qed.
