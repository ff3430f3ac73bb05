(** * C97: a notification of the server runs the callback that the client registered for it *)
From Verif Require Import Base Const Types State Events Atomic Server Lib SearchProofs Shape Inv Reach Spec Frame Effects Out DataFrame WRel ModInv IdInv Demo
  Prop_Tags Prop_Data Prop_Groups EvSpec Prop_Events Prop_Answer ClientRx.
From Verif Require Prop_ClientRx Prop_Wire.
From Coq Require Import Lia.

(** ** Messages on the wire *)
(** src/server/message.c:95-121 [_message_send], src/server/events.c:34-62 [_send_event]: the type and the data of the message;
    the header in front is [Prop_ClientRx.sent] *)
Definition wire (o : out) : cmsg :=
  match o with
  | OResp _ cmd p => mk_cm (Z.lor cmd F_RESPONSE) p
  | OErr _ cmd code => mk_cm (Z.lor cmd F_ERROR) (le_bytes 4 code)
  | OEvent _ ety i id data => mk_cm (u32 (Z.lor F_EVENT ety)) (be_bytes 4 i ++ be_bytes 4 id ++ match data with Some x => x | None => [] end)
  end.
(** the connection it is written to *)
Definition dest (o : out) : Z := match o with OResp fd _ _ | OErr fd _ _ | OEvent fd _ _ _ _ => fd end.
Definition inbox (fd : Z) (l : list out) : list out := filter (fun o => dest o =? fd) l.

(** ** Everything the server sends can be received *)
Definition fit (o : out) : Prop :=
  match o with
  | OResp _ cmd p => 1 <= cmd <= 27 /\ zlen p <= 4088
  | OErr _ cmd _ => 1 <= cmd <= 27
  | OEvent _ _ _ _ _ => fit_event o
  end.
Definition fitout (s s' : server) : Prop := exists l, s_out s' = s_out s ++ l /\ Forall fit l.
Lemma fitout_trans a b c : fitout a b -> fitout b c -> fitout a c.
Proof. intros (x & A & B) (y & C & D). exists (x ++ y). rewrite C, A, app_assoc. split; [reflexivity | apply Forall_app; auto]. Qed.
Lemma evout_fitout s s' : evout s s' -> fitout s s'.
Proof.
  intros (ev & A & B). exists ev. split; [exact A|]. revert B. apply Forall_impl. intros [?|?|?]; cbn; try contradiction. auto.
Qed.
Lemma respond_fitout fd cmd p : 1 <= cmd <= 27 -> pres fitout (respond fd cmd p).
Proof.
  intros C s s' u H. unfold respond in H. destruct (MSG_DATA_SIZE <? zlen p) eqn:Q; [apply ret_done in H as [-> _]; apply evout_fitout, evout_refl|].
  unfold emit, modify in H. injection H as <- _. exists [OResp fd cmd p]. split; [reflexivity|]. constructor; [|constructor]. cbn. unfold MSG_DATA_SIZE in Q. lia.
Qed.
Lemma err_fitout fd cmd e : 1 <= cmd <= 27 -> pres fitout (reply_err fd cmd e).
Proof. intros C s s' u H. unfold reply_err, emit, modify in H. injection H as <- _. exists [OErr fd cmd e]. split; [reflexivity|]. repeat constructor; lia. Qed.
Lemma int_fitout fd cmd e : 1 <= cmd <= 27 -> pres fitout (reply_int fd cmd e).
Proof. intros C. unfold reply_int. destruct (e <? 0); [apply err_fitout | apply respond_fitout]; exact C. Qed.
Lemma status_fitout fd cmd e : 1 <= cmd <= 27 -> pres fitout (reply_status fd cmd e).
Proof. intros C. unfold reply_status. destruct (negb _); [apply err_fitout | apply respond_fitout]; exact C. Qed.
Lemma bind_fitout {A B} (m : SM A) (f : A -> SM B) : pres fitout m -> (forall a, pres fitout (f a)) -> pres fitout (bind m f).
Proof. intros M F s s' b H. apply bind_done in H as (s1 & a & H1 & H). eapply fitout_trans; [exact (M _ _ _ H1) | exact (F _ _ _ _ H)]. Qed.
Lemma ret_fitout {A} (a : A) : pres fitout (ret a).
Proof. intros s s' b H. apply ret_done in H as [-> _]. apply evout_fitout, evout_refl. Qed.
Lemma undef_fitout {A} u : pres fitout (undef u : SM A).
Proof. intros s s' b H. discriminate. Qed.
Lemma get_fitout : pres fitout get.
Proof. intros s s' b H. unfold get in H. injection H as <- _. apply evout_fitout, evout_refl. Qed.
Lemma lift_fitout {A} (r : run A) : pres fitout (lift r).
Proof. intros s s' b H. unfold lift in H. destruct r; [|discriminate]. injection H as <- _. apply evout_fitout, evout_refl. Qed.
Lemma ev_fitout {A} (m : SM A) : pres evout m -> pres fitout m.
Proof. intros P s s' a H. apply evout_fitout. exact (P _ _ _ H). Qed.
Lemma same_fitout f : (forall s, s_out (f s) = s_out s) -> pres fitout (modify f).
Proof. intros F s s' a H. unfold modify in H. injection H as <- _. apply evout_fitout, evout_same, F. Qed.
Lemma handle_fitout E o : pres fitout (handle_op E o).
Proof.
  destruct o; cbn [handle_op]; unfold h_tag_del, h_tag_get, h_read, h_write, h_mask, h_cdt_create, h_cdt_get, h_atomic, with_mod, group_read, group_write;
  repeat first
    [ apply ret_fitout | apply get_fitout | apply lift_fitout | apply undef_fitout
    | apply respond_fitout; vm_compute; split; discriminate | apply err_fitout; vm_compute; split; discriminate
    | apply int_fitout; vm_compute; split; discriminate | apply status_fitout; vm_compute; split; discriminate
    | apply ev_fitout; solve [apply module_register_evout | apply module_unregister_evout | apply group_read_loop_evout | auto with evo]
    | apply bind_fitout; [|intros ?]
    | apply same_fitout; reflexivity
    | match goal with |- pres fitout (if ?b then _ else _) => destruct b | |- pres fitout (match ?x with _ => _ end) => destruct x | |- pres fitout (let _ := _ in _) => cbv zeta end ].
  - intros s s' r H. apply group_add_other in H as [->|(g & z & ->)]; apply evout_fitout; [apply evout_refl | apply evout_same; reflexivity].
  - intros s s' r H. apply evout_fitout. unfold group_del in H. inv_all; try apply evout_refl; apply evout_same; reflexivity.
Qed.

Lemma step_fitout E s o s' : step E s o = Done s' -> fitout s s'.
Proof. intros H. apply step_inv in H as (s1 & u & H & ->). destruct (handle_fitout _ _ _ _ _ H) as (l & A & B). exists l. auto. Qed.
Lemma exec_fitout E : forall os s s', exec E s os = Done s' -> fitout s s'.
Proof.
  induction os as [|o os IH]; intros s s' H; cbn [exec] in H; [injection H as <-; apply evout_fitout, evout_refl|].
  apply rbind_done in H as (s1 & H1 & H). eapply fitout_trans; [exact (step_fitout _ _ _ _ H1) | exact (IH _ _ H)].
Qed.
Lemma reachable_fit E s : reachable E s -> Forall fit (s_out s).
Proof.
  intros (now & r & s0 & os & B & H). destruct (exec_fitout _ _ _ _ H) as (l & -> & F). apply Forall_app. split; [|exact F].
  apply boot_evout in B. revert B. apply Forall_impl. intros [?|?|?]; cbn; try contradiction. auto.
Qed.
Lemma event_kind ety : Prop_ClientRx.id32 (u32 (Z.lor F_EVENT ety)) /\ Z.land (u32 (Z.lor F_EVENT ety)) F_EVENT <> 0.
Proof.
  split; [unfold Prop_ClientRx.id32, u32; apply Z.mod_pos_bound; lia|]. intros H.
  assert (T : Z.testbit (Z.land (u32 (Z.lor F_EVENT ety)) F_EVENT) 31 = true).
  { rewrite Z.land_spec. unfold u32. change 4294967296 with (2 ^ 32). rewrite Z.mod_pow2_bits_low by lia. rewrite Z.lor_spec. reflexivity. }
  rewrite H in T. discriminate.
Qed.
Lemma small_cmd cmd : 1 <= cmd <= 27 -> Prop_ClientRx.id32 (Z.lor cmd F_RESPONSE) /\ Prop_ClientRx.id32 (Z.lor cmd F_ERROR) /\
  Z.land (Z.lor cmd F_RESPONSE) F_EVENT = 0 /\ Z.land (Z.lor cmd F_ERROR) F_EVENT = 0.
Proof.
  intros H. assert (In cmd [1;2;3;4;5;6;7;8;9;10;11;12;13;14;15;16;17;18;19;20;21;22;23;24;25;26;27]) as I by (cbn [In]; lia).
  clear - I. cbn [In] in I. repeat (destruct I as [<-|I]; [vm_compute; repeat split; discriminate|]). destruct I.
Qed.
Lemma fit_sendable o : fit o -> Prop_ClientRx.sendable (wire o).
Proof.
  destruct o as [fd cmd p|fd cmd e|fd ety i id x]; cbn [fit wire]; unfold Prop_ClientRx.sendable; cbn [cm_kind cm_bytes].
  - intros [A B]. split; [apply small_cmd; exact A | exact B].
  - intros A. split; [apply small_cmd; exact A | rewrite zlen_le_bytes; lia].
  - intros A. split; [apply event_kind|]. rewrite !zlen_app, !Prop_Wire.zlen_be. destruct x; cbn [fit_event] in A; unfold DAX_MSGMAX in A; rewrite ?zlen_nil; lia.
Qed.
(** Whatever the history: every message the server has sent has a type and a size that the receiving end takes apart again *)
Theorem C97_fits : forall E s, reachable E s -> Forall (fun o => Prop_ClientRx.sendable (wire o)) (s_out s).
Proof. intros E s R. apply reachable_fit in R. revert R. apply Forall_impl. exact fit_sendable. Qed.
Lemma wire_event o : fit o -> Prop_ClientRx.is_event (wire o) = match o with OEvent _ _ _ _ _ => true | _ => false end.
Proof.
  intros F. unfold Prop_ClientRx.is_event. destruct o as [fd cmd p|fd cmd e|fd ety i id x]; cbn [wire cm_kind fit] in *.
  - destruct F as [A _]. apply small_cmd in A as (_ & _ & -> & _). reflexivity.
  - apply small_cmd in F as (_ & _ & _ & ->). reflexivity.
  - destruct (event_kind ety) as [_ N]. apply negb_true_iff, Z.eqb_neq. exact N.
Qed.
Lemma wire_coded o : fit o -> Prop_ClientRx.coded (Prop_ClientRx.Arrive (wire o)).
Proof.
  intros F. cbn. destruct o as [fd cmd p|fd cmd e|fd ety i id x]; cbn [wire cm_kind cm_bytes fit] in *; intros Q.
  - exfalso. destruct F as [F _]. unfold Prop_ClientRx.is_error in Q. cbn [cm_kind] in Q. destruct (Prop_ClientRx.response_kind cmd p) as (_ & K & _); [lia|]. unfold Prop_ClientRx.is_error in K. cbn [cm_kind] in K. congruence.
  - rewrite zlen_le_bytes. lia.
  - rewrite !zlen_app, !Prop_Wire.zlen_be. match goal with |- context [zlen ?l] => match l with match _ with _ => _ end => assert (G := zlen_nonneg l) end end. lia.
Qed.

(** ** From the socket to the callback *)
(** what the program is shown when it handles the event [m]: tag, event, callback and data *)
Definition handled (c : cev) (m : cmsg) : list (Z * Z * Z * list Z) :=
  match dispatch_event m c with Done (Some (cb, d), (_, Some (i, id))) => [(i, id, cb, d)] | _ => [] end.
(** the messages that arrive in a history of a client *)
Definition arrivals (acts : list Prop_ClientRx.act) : list cmsg := flat_map (fun a => match a with Prop_ClientRx.Arrive m => [m] | _ => [] end) acts.
(** the data sent with the notifications about event [id] of tag [i] among the messages [l] *)
Definition notified (i id : Z) (l : list out) : list (list Z) :=
  flat_map (fun o => match o with OEvent _ _ i' id' d => if (i' =? i) && (id' =? id) then [match d with Some x => x | None => [] end] else [] | _ => [] end) l.
(** numbers of tags and events that fit into the 32 bits they have *)
Definition small (o : out) : Prop := match o with OEvent _ _ i id _ => Prop_ClientRx.id32 i /\ Prop_ClientRx.id32 id | _ => True end.

Lemma event_arrivals_filter acts : Prop_ClientRx.event_arrivals acts = filter Prop_ClientRx.is_event (arrivals acts).
Proof.
  induction acts as [|[m| |c] acts IH]; [reflexivity| | exact IH | exact IH].
  unfold Prop_ClientRx.event_arrivals, arrivals in *. cbn [flat_map app filter]. rewrite IH. destruct (Prop_ClientRx.is_event m); reflexivity.
Qed.
Lemma coded_arrivals acts : Forall (fun m => Prop_ClientRx.coded (Prop_ClientRx.Arrive m)) (arrivals acts) -> Forall Prop_ClientRx.coded acts.
Proof.
  induction acts as [|[m| |c] acts IH]; intros H; [constructor| | |]; cbn in H.
  - apply Forall_cons_iff in H as [A B]. constructor; auto.
  - constructor; [exact I | auto].
  - constructor; [exact I | auto].
Qed.
Lemma handled_wire ops c i id l cb cbs : Forall Prop_ClientRx.op_ids ops -> zlen ops <= 1073741823 -> Prop_ClientRx.registry ops ev_init = Done c ->
  Forall fit l -> Forall small l -> Prop_ClientRx.id32 i -> Prop_ClientRx.id32 id -> Prop_ClientRx.registered ops i id [] = cb :: cbs ->
  filter (fun x => (fst (fst (fst x)) =? i) && (snd (fst (fst x)) =? id)) (flat_map (handled c) (filter Prop_ClientRx.is_event (map wire l))) =
    map (fun d => (i, id, cb, d)) (notified i id l).
Proof.
  intros O Z C F S Hi He Rg. induction F as [|o l Fo F IH]; [reflexivity|]. apply Forall_cons_iff in S as [So S]. specialize (IH S).
  cbn [map filter]. rewrite (wire_event _ Fo). unfold notified in *. cbn [flat_map]. destruct o as [fd cmd p|fd cmd e|fd ety i' id' x]; [exact IH | exact IH|].
  cbn [flat_map]. rewrite filter_app, IH, map_app. f_equal. destruct So as [A B].
  destruct (Prop_ClientRx.C61 ops (u32 (Z.lor F_EVENT ety)) i' id' (match x with Some y => y | None => [] end) O Z A B) as (c' & C' & D).
  assert (c' = c) by congruence. subst c'. unfold handled. cbn [wire]. rewrite D.
  destruct (Prop_ClientRx.registered ops i' id' []) as [|cb' r] eqn:Q.
  - destruct ((i' =? i) && (id' =? id)) eqn:W; [|reflexivity]. assert (i' = i) by lia. assert (id' = id) by lia. subst. congruence.
  - cbn [filter fst snd]. destruct ((i' =? i) && (id' =? id)) eqn:W; [|reflexivity]. assert (i' = i) by lia. assert (id' = id) by lia. subst. cbn [map]. congruence.
Qed.

Lemma fit_part (P : out -> bool) l : Forall fit l -> Forall fit (filter P l).
Proof. intros H. apply Forall_forall. intros o I. apply filter_In in I as [I _]. rewrite Forall_forall in H. auto. Qed.
Lemma small_part (P : out -> bool) l : Forall small l -> Forall small (filter P l).
Proof. intros H. apply Forall_forall. intros o I. apply filter_In in I as [I _]. rewrite Forall_forall in H. auto. Qed.
(** FULL STATEMENT (false, see C51 and C62): without the conditions on the socket's reads and on the backlog, see there.
    Over any history of requests of all clients: the messages sent to [fd] are read from its socket as they were sent; and whenever they arrive and the
    program fetches events, in any order and with at most [n] events waiting, the callback registered for event [id] of tag [i] has been run
    once for each notification about it, in their order and with the data sent along, except for those still waiting *)
Theorem C97_delivered_partial : forall E s os s' l fd gs more ops i id cb cbs,
  reachable E s -> exec E s os = Done s' -> s_out s' = s_out s ++ l -> Forall small l ->
  Forall (fun g => 8 <= g) gs -> Prop_ClientRx.reads_needed (map wire (inbox fd l)) <= zlen gs ->
  Forall Prop_ClientRx.op_ids ops -> zlen ops <= 1073741823 -> Prop_ClientRx.id32 i -> Prop_ClientRx.id32 id -> Prop_ClientRx.registered ops i id [] = cb :: cbs ->
  exists ms, Prop_ClientRx.get_all (length (inbox fd l)) gs (flat_map Prop_ClientRx.sent (map wire (inbox fd l)) ++ more) = Done (more, ms) /\
    forall n junk acts, 1 <= n -> arrivals acts = ms -> Prop_ClientRx.within (Z.to_nat n) acts 0 ->
      exists x ys c late, Prop_ClientRx.client acts (rx_init n junk) = Done (x, ys) /\ Prop_ClientRx.registry ops ev_init = Done c /\
        filter (fun x => (fst (fst (fst x)) =? i) && (snd (fst (fst x)) =? id)) (flat_map (handled c) (Prop_ClientRx.events_of ys)) ++ late =
          map (fun d => (i, id, cb, d)) (notified i id (inbox fd l)) /\
        (rx_count x = 0 -> late = []).
Proof.
  intros E s os s' l fd gs more ops i id cb cbs R H L S G N O Z Hi He Rg.
  assert (F : Forall fit (inbox fd l)).
  { apply fit_part. destruct (exec_fitout _ _ _ _ H) as (l' & A & B). rewrite L in A. apply app_inv_head in A. subst l'. exact B. }
  apply (small_part (fun o => dest o =? fd)) in S. fold (inbox fd l) in S. set (q := inbox fd l) in *.
  exists (map wire q). split.
  - rewrite <- (map_length wire q). apply Prop_ClientRx.C62_partial; [|exact G | exact N]. apply Forall_map. revert F. apply Forall_impl. exact fit_sendable.
  - intros n junk acts Hn A W.
    destruct (Prop_ClientRx.C51_all n junk acts Hn) as (x & ys & C & pend & P1 & P2); [| exact W |].
    { apply coded_arrivals. rewrite A. apply Forall_map. revert F. apply Forall_impl. exact wire_coded. }
    destruct (Prop_ClientRx.C61 ops 0 i id [] O Z Hi He) as (c & Rc & _).
    rewrite event_arrivals_filter, A in P1.
    exists x, ys, c, (filter (fun x => (fst (fst (fst x)) =? i) && (snd (fst (fst x)) =? id)) (flat_map (handled c) pend)).
    split; [exact C|]. split; [exact Rc|]. split.
    + rewrite <- filter_app, <- flat_map_app, P1. eapply handled_wire; eassumption.
    + intros K. rewrite K in P2. symmetry in P2. apply zlen_zero in P2. subst pend. reflexivity.
Qed.

Lemma notified_about fd i id l : notified i id (inbox fd l) = notified i id (inbox fd (filter (about i id) l)).
Proof.
  induction l as [|o l IH]; [reflexivity|]. cbn [filter inbox]. unfold inbox, notified in *. destruct o as [f c p|f c e|f ety i' id' x]; cbn [about filter dest].
  - destruct (f =? fd); [cbn [flat_map app]|]; exact IH.
  - destruct (f =? fd); [cbn [flat_map app]|]; exact IH.
  - destruct ((i' =? i) && (id' =? id)) eqn:Q; cbn [filter dest]; (destruct (f =? fd); [cbn [flat_map]; rewrite ?Q, IH; reflexivity | exact IH]).
Qed.
(** FULL STATEMENT (false): as above; the tag has no mappings (they may change it again at once).
    A write that changes the watched bytes runs the callback of the client that registered the event, once and with the new bytes
    if the client asked for them; it runs no callback of another client for this event *)
Theorem C97_change_partial : forall E s fd i off n b b' o a s' t e l,
  reachable E s -> writing s fd i off n b b' o a -> step E s o = Done s' -> answered s s' a ->
  znth (s_db s) i = Some t -> In e (t_events t) -> change_event e -> placed e b -> 0 < n -> sendable e -> saw e b ->
  watched e b' <> watched e b -> no_mapping s i -> s_out s' = s_out s ++ l ->
  exists m, registrant s e m /\ notified i (e_id e) (inbox (m_fd m) l) = [if Z.testbit (e_opts e) 0 then watched e b' else []] /\
    (forall fd', fd' <> m_fd m -> notified i (e_id e) (inbox fd' l) = []) /\
    forall gs more ops cb cbs, Forall small l -> Forall (fun g => 8 <= g) gs -> Prop_ClientRx.reads_needed (map wire (inbox (m_fd m) l)) <= zlen gs ->
      Forall Prop_ClientRx.op_ids ops -> zlen ops <= 1073741823 -> Prop_ClientRx.id32 i -> Prop_ClientRx.id32 (e_id e) -> Prop_ClientRx.registered ops i (e_id e) [] = cb :: cbs ->
      exists ms, Prop_ClientRx.get_all (length (inbox (m_fd m) l)) gs (flat_map Prop_ClientRx.sent (map wire (inbox (m_fd m) l)) ++ more) = Done (more, ms) /\
        forall k junk acts, 1 <= k -> arrivals acts = ms -> Prop_ClientRx.within (Z.to_nat k) acts 0 ->
          exists x ys c, Prop_ClientRx.client acts (rx_init k junk) = Done (x, ys) /\ Prop_ClientRx.registry ops ev_init = Done c /\
            (rx_count x = 0 -> filter (fun x => (fst (fst (fst x)) =? i) && (snd (fst (fst x)) =? e_id e)) (flat_map (handled c) (Prop_ClientRx.events_of ys)) =
               [(i, e_id e, cb, if Z.testbit (e_opts e) 0 then watched e b' else [])]).
Proof.
  intros E s fd i off n b b' o a s' t e l R W H A Ht He Ty P N Se S Ne Nm L.
  destruct (C24_change_event _ _ _ _ _ _ _ _ _ _ _ _ _ R W H A Ht He Ty P N Se S) as (Q & _ & _). destruct (Q Ne) as (m & M & (notes & rest & T1 & T2 & T3)).
  destruct (T3 Nm) as (y & -> & Y). rewrite L in T1. apply app_inv_head in T1. subst l.
  assert (B : forall f, notified i (e_id e) (inbox f (notes ++ [y])) = notified i (e_id e) (inbox f [note m i e b'])).
  { intros f. rewrite notified_about, filter_app, T2. cbn [filter]. destruct y; cbn [about]; rewrite ?app_nil_r; try reflexivity. exfalso. apply Y. exact I. }
  assert (B1 : notified i (e_id e) (inbox (m_fd m) (notes ++ [y])) = [if Z.testbit (e_opts e) 0 then watched e b' else []]).
  { rewrite B. unfold inbox, note, notified. cbn [filter dest]. rewrite Z.eqb_refl. cbn [flat_map]. rewrite !Z.eqb_refl. cbn [andb app]. destruct (Z.testbit (e_opts e) 0); reflexivity. }
  exists m. split; [exact M|]. split; [exact B1|]. split.
  - intros f Nf. rewrite B. unfold inbox, note, notified. cbn [filter dest]. replace (m_fd m =? f) with false by lia. reflexivity.
  - intros gs more ops cb cbs Sm G Rd O Z Hi Hid Rg.
    assert (H1 : exec E s [o] = Done s') by (cbn [exec]; rewrite H; reflexivity).
    destruct (C97_delivered_partial E s [o] s' (notes ++ [y]) (m_fd m) gs more ops i (e_id e) cb cbs R H1 L Sm G Rd O Z Hi Hid Rg) as (ms & X1 & X2).
    exists ms. split; [exact X1|]. intros k junk acts Hk Aa Wi. destruct (X2 k junk acts Hk Aa Wi) as (x & ys & c & late & C1 & C2 & C3 & C4).
    exists x, ys, c. split; [exact C1|]. split; [exact C2|]. intros K. rewrite (C4 K), app_nil_r, B1 in C3. exact C3.
Qed.

(** the write of C24_ex: client 6 changes two of the DINTs of foo that it watches itself (event 2, callback 77) and fetches the event after its answer *)
Example C97_ex : exists l, step env0 evd (OpWrite 6 13 8 [9; 9; 9; 9]) = Done (next_of evd (OpWrite 6 13 8 [9; 9; 9; 9])) /\
  s_out (next_of evd (OpWrite 6 13 8 [9; 9; 9; 9])) = s_out evd ++ l /\ Forall small l /\ watched (ev_of evd 13 0) (splice 8 [9; 9; 9; 9] (bytes_of evd 13)) <> watched (ev_of evd 13 0) (bytes_of evd 13) /\
  notified 13 2 (inbox 6 l) = [[]] /\ notified 13 1 (inbox 5 l) = [splice 8 [9; 9; 9; 9] (bytes_of evd 13)] /\
  Prop_ClientRx.get_all 2 (repeat 8 40) (flat_map Prop_ClientRx.sent (map wire (inbox 6 l))) = Done ([], map wire (inbox 6 l)) /\
  exists x ys c, Prop_ClientRx.client (map Prop_ClientRx.Arrive (map wire (inbox 6 l)) ++ [Prop_ClientRx.Take 7; Prop_ClientRx.Fetch]) (rx_init 4 0) = Done (x, ys) /\
    Prop_ClientRx.registry [Prop_ClientRx.RAdd 13 2 77] ev_init = Done c /\ rx_count x = 0 /\ flat_map (handled c) (Prop_ClientRx.events_of ys) = [(13, 2, 77, [])].
Proof.
  exists [OEvent 6 EV_CHANGE 13 2 None; OEvent 5 EV_WRITE 13 1 (Some (splice 8 [9;9;9;9] (bytes_of evd 13))); OResp 6 7 []].
  split; [vm_compute; reflexivity|]. split; [vm_compute; reflexivity|].
  split; [repeat constructor; vm_compute; intuition discriminate|]. split; [vm_compute; discriminate|]. split; [reflexivity|]. split; [reflexivity|].
  split; [vm_compute; reflexivity|]. eexists. eexists. eexists. split; [vm_compute; reflexivity|]. split; [reflexivity|]. split; reflexivity.
Qed.
(** C97 fails while an event is being registered.  libmsg.c:1196-1219: the server knows the event before the client's library does; a notification that another
    thread fetches in between is answered with ERR_GENERIC, no callback is run, and nothing is left of it when the callback is registered *)
Theorem C97_race_refuted : exists E s s1 s2 l note, reachable E s /\
  step E s (OpEvAdd 6 (mk_h 13 0 0 2 8 T_DINT) EV_CHANGE []) = Done s1 /\ step E s1 (OpWrite 5 13 0 [1; 2; 3; 4]) = Done s2 /\
  s_out s2 = s_out s ++ l /\ inbox 6 l = [OResp 6 9 (le_bytes 4 3); note] /\ notified 13 3 [note] = [[]] /\
  exists x, Prop_ClientRx.client [Prop_ClientRx.Arrive (wire (OResp 6 9 (le_bytes 4 3))); Prop_ClientRx.Arrive (wire note); Prop_ClientRx.Fetch; Prop_ClientRx.Take 9] (rx_init 4 0) =
      Done (x, [Prop_ClientRx.Event (wire note); Prop_ClientRx.Reply 9 0 (le_bytes 4 3)]) /\
    dispatch_event (wire note) ev_init = Done (None, (E_GENERIC, None)) /\ rx_count x = 0.
Proof.
  exists env0, evd. eexists. eexists. exists [OResp 6 9 (le_bytes 4 3); OEvent 6 EV_CHANGE 13 3 None; OEvent 5 EV_WRITE 13 1 (Some (splice 0 [1; 2; 3; 4] (bytes_of evd 13))); OResp 5 7 []], (OEvent 6 EV_CHANGE 13 3 None).
  split; [exact evd_reachable|]. split; [vm_compute; reflexivity|]. split; [vm_compute; reflexivity|]. split; [vm_compute; reflexivity|]. split; [reflexivity|]. split; [reflexivity|].
  eexists. split; [vm_compute; reflexivity|]. split; vm_compute; reflexivity.
Qed.

(** ** C98: each call of a client gets the answer to its own request *)
Definition is_answer (o : out) : bool := match o with OEvent _ _ _ _ _ => false | _ => true end.
(** the result of the call that an answer of the server stands for: the code and the data *)
Definition result_of (o : out) : Z * list Z := match o with OResp _ _ p => (0, p) | OErr _ _ code => (s32 code, []) | OEvent _ _ _ _ _ => (0, []) end.
Definition cmd_of (o : out) : Z := match o with OResp _ cmd _ | OErr _ cmd _ => cmd | OEvent _ _ _ _ _ => 0 end.
Lemma reading_wire o : fit o -> is_answer o = true -> Prop_ClientRx.reading (cmd_of o) (wire o) = result_of o.
Proof.
  destruct o as [fd cmd p|fd cmd e|? ? ? ? ?]; cbn [fit is_answer cmd_of wire result_of]; intros F A; [| |discriminate].
  - apply Prop_ClientRx.C52_data. lia.
  - unfold Prop_ClientRx.reading. cbn [cm_kind cm_bytes]. rewrite Z.eqb_refl. f_equal.
    change 4 with (zlen (le_bytes 4 e)) at 1. rewrite slice_full. rewrite le_val_le_bytes. change (256 ^ Z.of_nat 4) with 4294967296.
    unfold s32. cbv zeta. rewrite Z.mod_mod by lia. reflexivity.
Qed.
Lemma pick_inbox fd l : filter (fun x => fst x =? fd) (pick answers l) = map (fun o => (fd, cmd_of o)) (filter is_answer (inbox fd l)).
Proof.
  induction l as [|o l IH]; [reflexivity|]. unfold inbox in *. destruct o as [f c p|f c e|f ? ? ? ?]; cbn [pick answers filter dest fst].
  - destruct (Z.eqb_spec f fd) as [->|]; [cbn [filter is_answer map cmd_of]; rewrite IH; reflexivity | exact IH].
  - destruct (Z.eqb_spec f fd) as [->|]; [cbn [filter is_answer map cmd_of]; rewrite IH; reflexivity | exact IH].
  - destruct (f =? fd); exact IH.
Qed.
(** FULL STATEMENT (false, see C52 and C96): without [supported] and for answers that come after the timeout.
    For every history of the server and every client [fd] that makes one call after the other: if each answer arrives before the timeout of its call
    (notifications and fetched events may come in between), every call returns what the server answered to this very request *)
Theorem C98_calls_partial : forall E now r s0 os s fd n junk ks, boot E now r = Done s0 -> Forall unsigned os -> Forall supported os -> exec E s0 os = Done s ->
  1 <= n -> Forall Prop_ClientRx.timely ks -> map Prop_ClientRx.k_cmd ks = map snd (filter (fun x => fst x =? fd) (pick asks os)) ->
  map Prop_ClientRx.k_answer ks = map wire (filter is_answer (inbox fd (s_out s))) ->
  exists x ys, Prop_ClientRx.client (flat_map Prop_ClientRx.steps ks) (rx_init n junk) = Done (x, ys) /\
    Prop_ClientRx.replies_of ys = map (fun o => (cmd_of o, result_of o)) (filter is_answer (inbox fd (s_out s))).
Proof.
  intros E now r s0 os s fd n junk ks B U S H N T C A.
  destruct (Prop_ClientRx.C52_partial n junk ks N T) as (x & ys & X & Y). exists x, ys. split; [exact X|]. rewrite Y.
  assert (F : Forall fit (inbox fd (s_out s))) by (apply fit_part, (reachable_fit E); exists now, r, s0, os; auto).
  assert (P := C96_client_partial E now r s0 os s fd B U S H). rewrite pick_inbox in P. rewrite <- P, map_map in C. cbn [snd] in C.
  clear - A C F. set (q := inbox fd (s_out s)) in *. clearbody q.
  assert (G : Forall (fun o => fit o /\ is_answer o = true) (filter is_answer q)).
  { apply Forall_forall. intros o I. apply filter_In in I as [I J]. rewrite Forall_forall in F. auto. }
  set (l := filter is_answer q) in *. clearbody l. revert ks A C. induction G as [|o l [Fo Ao] G IH]; intros [|k ks] A C; try discriminate; [reflexivity|].
  cbn [map] in *. injection A as A1 A2. injection C as C1 C2. rewrite (IH ks A2 C2), A1, C1, (reading_wire _ Fo Ao). reflexivity.
Qed.
(** client 6 of C96_ex makes five calls; the notification about the write of client 5 comes in during the last of them *)
Definition greeting : list Z := [232; 3; 0; 0; 222; 188; 188; 154; 120; 86; 240; 222; 188; 154; 120; 86; 52; 18; 219; 15; 73; 64; 91; 106; 3; 191; 132; 5; 140; 193; 0].
Example C98_ex : exists s0 s ks x ys, boot env0 1000 empty_ret = Done s0 /\ exec env0 s0 talk = Done s /\ Forall Prop_ClientRx.timely ks /\
  map Prop_ClientRx.k_cmd ks = map snd (filter (fun x => fst x =? 6) (pick asks talk)) /\
  map Prop_ClientRx.k_answer ks = map wire (filter is_answer (inbox 6 (s_out s))) /\
  arrivals (flat_map Prop_ClientRx.steps ks) = map wire (inbox 6 (s_out s)) /\
  Prop_ClientRx.client (flat_map Prop_ClientRx.steps ks) (rx_init 4 0) = Done (x, ys) /\
  Prop_ClientRx.replies_of ys = [(1, (0, greeting)); (6, (0, [0; 0; 0; 0])); (2, (E_TAG_DUPL, [])); (9, (0, le_bytes 4 1)); (4, (E_NOTFOUND, []))].
Proof.
  assert (P : plays env0 talk = true) by (vm_compute; reflexivity). assert (Q := play_after _ _ P). unfold play in Q. apply rbind_done in Q as (s0 & B & H).
  exists s0, (after_ops env0 talk).
  exists [Prop_ClientRx.mk_call 1 (wire (OResp 6 1 greeting)) [] []; Prop_ClientRx.mk_call 6 (wire (OResp 6 6 [0; 0; 0; 0])) [] []; Prop_ClientRx.mk_call 2 (wire (OErr 6 2 E_TAG_DUPL)) [] [];
     Prop_ClientRx.mk_call 9 (wire (OResp 6 9 (le_bytes 4 1))) [] []; Prop_ClientRx.mk_call 4 (wire (OErr 6 4 E_NOTFOUND)) [Prop_ClientRx.Arrive (wire (OEvent 6 EV_CHANGE 13 1 None)); Prop_ClientRx.Fetch] []].
  eexists. eexists. split; [exact B|]. split; [exact H|]. split; [repeat constructor; vm_compute; intuition discriminate|]. split; [reflexivity|].
  split; [vm_compute; reflexivity|]. split; [vm_compute; reflexivity|]. split; [vm_compute; reflexivity|]. vm_compute. reflexivity.
Qed.
(** it fails after a timeout: client 6 reads tag 13 and gives up before the answer comes, then reads tag 15, and is given the contents of tag 13 as those of tag 15 *)
Theorem C98_late_refuted : exists E s s2 ys x, reachable E s /\ exec E s [OpRead 6 13 0 4; OpRead 6 15 0 4] = Done s2 /\
  s_out s2 = s_out s ++ [OResp 6 6 [1; 1; 1; 1]; OResp 6 6 [2; 2; 2; 2]] /\
  Prop_ClientRx.client [Prop_ClientRx.Take 6; Prop_ClientRx.Arrive (wire (OResp 6 6 [1; 1; 1; 1])); Prop_ClientRx.Take 6; Prop_ClientRx.Arrive (wire (OResp 6 6 [2; 2; 2; 2]))] (rx_init 4 0) = Done (x, ys) /\
  Prop_ClientRx.replies_of ys = [(6, (E_TIMEOUT, [])); (6, (0, [1; 1; 1; 1]))].
Proof.
  exists env0, (after_ops env0 (demo_ops ++ [OpWrite 5 13 0 [1; 1; 1; 1]; OpWrite 5 15 0 [2; 2; 2; 2]])). eexists. eexists. eexists.
  split; [apply after_reachable; vm_compute; reflexivity|]. split; [vm_compute; reflexivity|]. split; [vm_compute; reflexivity|]. split; [vm_compute; reflexivity|]. reflexivity.
Qed.
