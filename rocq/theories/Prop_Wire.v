(** * Prop_Wire: messages on the socket (C41-C43) *)
From Verif Require Import Base Const Types State Events Atomic Server Lib Buffer Wire BufProofs.

(** the bytes of a request on the socket (libmsg.c:29-60): a length that counts the header, the command, the payload *)
Definition wire (r : Z * list Z) : list Z := be_bytes 4 (8 + zlen (snd r)) ++ be_bytes 4 (fst r) ++ snd r.
Definition valid (r : Z * list Z) : Prop := 1 <= fst r <= 27 /\ zlen (snd r) <= 4088.
(** the events of one socket, and what the server executes for it *)
Definition from (fd : Z) (es : list rx) : list rx := filter (fun e => rfd e =? fd) es.
Definition calls (fd : Z) (fs : list frame) : list frame := filter (fun f => ffd f =? fd) fs.
(** the message buffers after any history of socket events *)
Definition proper (e : rx) : Prop := e <> RxIdle /\ rfd e <> 0.
Definition bufs_reach (B : benv) (bs : list bnode) : Prop :=
  exists es outs, Forall (fun e => e = RxIdle \/ rfd e <> 0) es /\ rx_exec B (buff_initialize B) es = Done (bs, outs).
(** [cuts r cs]: the reads [cs] deliver the bytes of [r]; no read ends inside the length field or one byte before the end *)
Definition cuts (r : Z * list Z) (cs : list (list Z)) : Prop :=
  Forall (fun c => c <> []) cs /\ concat cs = wire r /\
  forall a b, cs = a ++ b -> a <> [] -> b <> [] -> 4 <= zlen (concat a) /\ zlen (concat a) <> zlen (wire r) - 1.

Lemma be_val_bytes n z : be_val (be_bytes n z) = z mod 256 ^ Z.of_nat n.
Proof. unfold be_val, be_bytes. rewrite rev_involutive. apply le_val_le_bytes. Qed.
Lemma zlen_be n z : zlen (be_bytes n z) = Z.of_nat n.
Proof. unfold be_bytes, zlen. rewrite rev_length. f_equal. revert z. induction n; intros z; cbn; [reflexivity | rewrite IHn; reflexivity]. Qed.
Lemma zlen_wire r : zlen (wire r) = 8 + zlen (snd r).
Proof. unfold wire. rewrite !zlen_app, !zlen_be. lia. Qed.
Lemma slice_app1 (a b : list Z) k : zlen a = k -> slice 0 k (a ++ b) = a.
Proof. intros <-. unfold slice, zlen. rewrite Nat2Z.id. cbn [skipn Z.to_nat]. rewrite firstn_app, Nat.sub_diag, firstn_all. apply app_nil_r. Qed.
Lemma slice_app2 (a b : list Z) k n : zlen a = k -> slice k n (a ++ b) = slice 0 n b.
Proof. intros <-. unfold slice, zlen. rewrite Nat2Z.id. cbn [skipn Z.to_nat]. rewrite skipn_app, skipn_all, Nat.sub_diag. reflexivity. Qed.
Lemma wire_size r w : valid r -> zlen w >= 4 -> (exists t, w ++ t = wire r) -> be_val (slice 0 4 w) = 8 + zlen (snd r).
Proof.
  intros [_ V] L [t E]. replace (slice 0 4 w) with (slice 0 4 (wire r)).
  - unfold wire. rewrite slice_app1 by apply zlen_be. rewrite be_val_bytes. assert (A := zlen_nonneg (snd r)). apply Z.mod_small. change (256 ^ Z.of_nat 4) with 4294967296. lia.
  - rewrite <- E. unfold slice. cbn [skipn Z.to_nat]. rewrite firstn_app. replace (Pos.to_nat 4 - length w)%nat with O by (unfold zlen in L; lia). cbn [firstn]. apply app_nil_r.
Qed.
Lemma wire_cmd r : valid r -> be_val (slice 4 4 (wire r)) = fst r.
Proof. intros [V _]. unfold wire. rewrite slice_app2 by apply zlen_be. rewrite slice_app1 by apply zlen_be. rewrite be_val_bytes. apply Z.mod_small. change (256 ^ Z.of_nat 4) with 4294967296. lia. Qed.
Lemma wire_data r : slice 8 (zlen (snd r)) (wire r) = snd r.
Proof. unfold wire. rewrite app_assoc. rewrite slice_app2 by (rewrite zlen_app, !zlen_be; reflexivity). unfold slice. cbn [skipn Z.to_nat]. unfold zlen. rewrite Nat2Z.id. apply firstn_all. Qed.
Lemma reach_ok B bs : bufs_reach B bs -> bufs_ok bs.
Proof.
  intros (es & outs & F & H). assert (O := init_ok B). revert O F H. generalize (buff_initialize B) as b0. revert outs. induction es as [|e es IH]; intros outs b0 O F H; cbn in H; [injection H as <- _; exact O|].
  destruct (rx_step B b0 e) as [[b1 f1]|] eqn:S; cbn in H; [|discriminate]. destruct (rx_exec B b1 es) as [[b2 f2]|] eqn:X; cbn in H; [|discriminate]. injection H as <- _.
  eapply IH; [|exact (Forall_inv_tail F)|exact X]. eapply rx_step_ok; [exact O | exact (Forall_inv F) | exact S].
Qed.

Definition job := ((Z * list Z) * list (list Z))%type.
(** [received a todo]: the reads [a] of the first request have been seen *)
Definition reads_left (a : list (list Z)) (todo : list job) : list (list Z) :=
  match todo with [] => [] | (_, cs) :: r => skipn (length a) cs ++ concat (map snd r) end.
Lemma concat_nil_iff (cs : list (list Z)) : Forall (fun c => c <> []) cs -> cs <> [] -> concat cs <> [].
Proof. intros F N E. destruct cs as [|c cs]; [congruence|]. cbn in E. apply app_eq_nil in E as [E _]. apply Forall_inv in F. congruence. Qed.
Lemma receive B fd : fd <> 0 -> forall es bs a todo, bufs_ok bs -> pend bs fd (concat a) ->
  (todo = [] -> a = []) -> (match todo with (r, cs) :: _ => exists b, b <> [] /\ cs = a ++ b | [] => True end) ->
  Forall (fun j => valid (fst j) /\ cuts (fst j) (snd j)) todo ->
  Forall proper es -> from fd es = map (RxRead fd) (reads_left a todo) ->
  (forall bs' outs, rx_exec B bs es = Done (bs', outs) -> calls fd outs = map (fun j => Frame fd (fst (fst j)) (snd (fst j))) todo /\ bufs_ok bs' /\ pend bs' fd []) /\
  (Forall (fun e => rfd e = fd) es -> exists bs', rx_exec B bs es = Done (bs', map (fun j => Frame fd (fst (fst j)) (snd (fst j))) todo)).
Proof.
  intros NF. induction es as [|e es IH]; intros bs a todo O P TA TB V PR FR.
  - assert (T : todo = []). { destruct todo as [|[r cs] tl]; [reflexivity|]. destruct TB as (b & Nb & ->). cbn in FR. rewrite skipn_app, skipn_all, Nat.sub_diag in FR. destruct b; [congruence | discriminate]. }
    subst todo. rewrite (TA eq_refl) in P. cbn. split; [intros bs' outs H; injection H as <- <-; auto | intros _; eexists; reflexivity].
  - pose proof (Forall_inv PR) as Pe. apply Forall_inv_tail in PR. cbn [from filter] in FR. fold (from fd es) in FR. cbn [rx_exec]. destruct (rfd e =? fd) eqn:W.
    + destruct todo as [|[r cs] tl]; [discriminate|]. destruct TB as (b & Nb & ->). cbn [reads_left] in FR. rewrite skipn_app, skipn_all, Nat.sub_diag in FR. cbn [app skipn] in FR.
      destruct b as [|c b]; [congruence|]. cbn [app map] in FR. injection FR as -> FR. pose proof (Forall_inv V) as [Vr (F & CC & CUT)]. cbn [fst snd] in *.
      rewrite concat_app in CC. cbn [concat] in CC. rewrite app_assoc in CC.
      assert (Cn : c <> []) by (apply Forall_app in F as [_ F]; exact (Forall_inv F)).
      assert (Fb : Forall (fun c => c <> []) b) by (apply Forall_app in F as [_ F]; exact (Forall_inv_tail F)).
      assert (LW := zlen_wire r). assert (LT : zlen (concat a ++ c) + zlen (concat b) = zlen (wire r)) by (rewrite <- CC, !zlen_app; reflexivity).
      assert (Lb := zlen_nonneg (concat b)). assert (Ld := zlen_nonneg (snd r)). pose proof Vr as [V1 V2].
      destruct (own_read B bs fd (concat a) c O NF P Cn) as (kept & freed & buf & B1 & B2 & B3 & B4 & B5 & B6 & B7); [lia|]. rewrite B7. clear B7.
      destruct b as [|c2 b].
      * (* the last bytes *)
        cbn [concat] in CC. rewrite app_nil_r in CC. rewrite CC in *.
        assert (S1 : be_val (slice 0 4 buf) = 8 + zlen (snd r)). { rewrite (slice_prefix (wire r) buf 0 4) by (try exact B1; lia). apply wire_size; [exact Vr | lia | exists []; apply app_nil_r]. }
        assert (S2 : be_val (slice 4 4 buf) = fst r). { rewrite (slice_prefix (wire r) buf 4 4) by (try exact B1; lia). apply wire_cmd. exact Vr. }
        cbv zeta. rewrite S1, S2. replace (u32 (8 + zlen (snd r) - 1)) with (7 + zlen (snd r)) by (unfold u32; rewrite Z.mod_small by lia; lia).
        replace (u32 (8 + zlen (snd r) - 8)) with (zlen (snd r)) by (unfold u32; rewrite Z.mod_small by lia; lia).
        replace (zlen (wire r) <? 7 + zlen (snd r)) with false by lia. replace ((fst r =? 0) || (27 <? fst r)) with false by lia. replace (4088 <? zlen (snd r)) with false by lia.
        rewrite (slice_prefix (wire r) buf 8 (zlen (snd r))) by (try exact B1; lia). rewrite wire_data. cbn [rbind fst snd].
        destruct (IH freed [] tl B4) as [I1 I2]; [unfold pend; rewrite B6; reflexivity | reflexivity | | exact (Forall_inv_tail V) | exact PR | |].
        { destruct tl as [|[r2 cs2] tl]; [constructor|]. exists cs2. split; [|reflexivity]. apply Forall_inv_tail, Forall_inv in V as (_ & _ & C2 & _). cbn [fst snd] in C2. intros ->. cbn [concat] in C2.
          assert (Q := zlen_wire r2). rewrite <- C2 in Q. assert (Q2 := zlen_nonneg (snd r2)). change (zlen (@nil Z)) with 0 in Q. lia. }
        { cbn [app] in FR. destruct tl as [|[r2 cs2] tl]; exact FR. }
        split.
        { intros bs' outs H. destruct (rx_exec B freed es) as [[b2 o2]|] eqn:X; [|discriminate]. cbn in H. injection H as <- <-. destruct (I1 _ _ eq_refl) as (J1 & J2 & J3).
          split; [|split; assumption]. cbn [calls filter ffd]. rewrite Z.eqb_refl. cbn [map fst snd]. f_equal. exact J1. }
        { intros OW. destruct (I2 (Forall_inv_tail OW)) as [b2 X]. rewrite X. cbn. exists b2. reflexivity. }
      * (* more to come *)
        destruct (CUT (a ++ [c]) (c2 :: b)) as [C1 C2]; [rewrite <- app_assoc; reflexivity | destruct a; discriminate | discriminate |].
        rewrite concat_app in C1, C2. cbn [concat] in C1, C2. rewrite app_nil_r in C1, C2.
        assert (Lb2 : 0 < zlen (concat (c2 :: b))). { assert (Q := concat_nil_iff _ Fb). destruct (concat (c2 :: b)); [exfalso; apply Q; congruence|]. rewrite zlen_cons. assert (Q2 := zlen_nonneg l). lia. }
        assert (S1 : be_val (slice 0 4 buf) = 8 + zlen (snd r)). { rewrite (slice_prefix (concat a ++ c) buf 0 4) by (try exact B1; lia). apply wire_size; [exact Vr | lia | eexists; exact CC]. }
        cbv zeta. rewrite S1. replace (u32 (8 + zlen (snd r) - 1)) with (7 + zlen (snd r)) by (unfold u32; rewrite Z.mod_small by lia; lia).
        replace (zlen (concat a ++ c) <? 7 + zlen (snd r)) with true by lia. cbn [rbind fst snd].
        destruct (IH kept (a ++ [c]) ((r, a ++ c :: c2 :: b) :: tl) B3) as [I1 I2]; [| discriminate | | exact V | exact PR | |].
        { rewrite concat_app. cbn [concat]. rewrite app_nil_r. exact B5. }
        { exists (c2 :: b). split; [discriminate|]. rewrite <- app_assoc. reflexivity. }
        { cbn [reads_left]. replace (a ++ c :: c2 :: b) with ((a ++ [c]) ++ c2 :: b) by (rewrite <- app_assoc; reflexivity). rewrite skipn_app, skipn_all, Nat.sub_diag. exact FR. }
        split.
        { intros bs' outs H. destruct (rx_exec B kept es) as [[b2 o2]|] eqn:X; [|discriminate]. cbn in H. injection H as <- <-. exact (I1 _ _ eq_refl). }
        { intros OW. destruct (I2 (Forall_inv_tail OW)) as [b2 X]. rewrite X. cbn. exists b2. reflexivity. }
    + split; [|intros OW; apply Forall_inv in OW; lia]. intros bs' outs H. destruct (rx_step B bs e) as [[b1 f1]|] eqn:S; cbn [rbind] in H; [|discriminate].
      destruct (rx_other B bs e fd b1 f1 O (proj2 Pe)) as (O1 & V1 & Q1); [lia | exact NF | exact S |]. cbn [fst] in H.
      destruct (rx_exec B b1 es) as [[b2 o2]|] eqn:X; [|discriminate]. cbn in H. injection H as <- <-.
      destruct (IH b1 a todo O1) as [I1 _]; [unfold pend in *; rewrite V1; exact P | exact TA | exact TB | exact V | exact PR | exact FR |].
      destruct (I1 _ _ X) as (J1 & J2 & J3). split; [|split; assumption]. unfold calls in *. rewrite filter_app, J1.
      replace (filter _ f1) with (@nil frame); [reflexivity|]. clear -Q1. induction Q1; [reflexivity|]. cbn. replace (ffd x =? fd) with false by lia. exact IHQ1.
Qed.

(** ** C41 *)
(** C41 (partial): whatever other sockets do in between, the requests that a client sends are executed in order, each once and with exactly
    its own bytes, when every read delivers bytes of one request only ([cuts]), and the server is never idle for a second while a request is
    incomplete.  Missing: reads that end in the length field or one byte before the end, reads with bytes of two requests, idle seconds and
    read errors.  Each is refuted below. *)
Theorem C41_partial : forall B bs es bs' outs fd (todo : list ((Z * list Z) * list (list Z))),
  bufs_reach B bs -> fd <> 0 -> view bs fd = None ->
  Forall (fun j => valid (fst j) /\ cuts (fst j) (snd j)) todo ->
  Forall proper es -> from fd es = map (RxRead fd) (concat (map snd todo)) ->
  rx_exec B bs es = Done (bs', outs) ->
  calls fd outs = map (fun j => Frame fd (fst (fst j)) (snd (fst j))) todo.
Proof.
  intros B bs es bs' outs fd todo R N V F P W H. destruct (receive B fd N es bs [] todo) as [I _]; auto.
  - apply (reach_ok B). exact R.
  - unfold pend. rewrite V. reflexivity.
  - destruct todo as [|[r cs] tl]; [constructor|]. exists cs. split; [|reflexivity]. apply Forall_inv in F as (_ & _ & C2 & _). cbn [fst snd] in C2. intros ->. cbn [concat] in C2.
    assert (Q := zlen_wire r). rewrite <- C2 in Q. assert (Q2 := zlen_nonneg (snd r)). change (zlen (@nil Z)) with 0 in Q. lia.
  - destruct todo as [|[r cs] tl]; exact W.
  - exact (proj1 (I _ _ H)).
Qed.
(** with no other socket active nothing undefined happens either *)
Theorem C41_alone_partial : forall B bs fd (todo : list ((Z * list Z) * list (list Z))),
  bufs_reach B bs -> fd <> 0 -> view bs fd = None ->
  Forall (fun j => valid (fst j) /\ cuts (fst j) (snd j)) todo ->
  exists bs', rx_exec B bs (map (RxRead fd) (concat (map snd todo))) = Done (bs', map (fun j => Frame fd (fst (fst j)) (snd (fst j))) todo).
Proof.
  intros B bs fd todo R N V F. destruct (receive B fd N (map (RxRead fd) (concat (map snd todo))) bs [] todo) as [_ I]; auto.
  - apply (reach_ok B). exact R.
  - unfold pend. rewrite V. reflexivity.
  - destruct todo as [|[r cs] tl]; [constructor|]. exists cs. split; [|reflexivity]. apply Forall_inv in F as (_ & _ & C2 & _). cbn [fst snd] in C2. intros ->. cbn [concat] in C2.
    assert (Q := zlen_wire r). rewrite <- C2 in Q. assert (Q2 := zlen_nonneg (snd r)). change (zlen (@nil Z)) with 0 in Q. lia.
  - apply Forall_forall. intros e H. apply in_map_iff in H as (c & <- & _). split; [discriminate | exact N].
  - replace (from fd _) with (map (RxRead fd) (concat (map snd todo))); [destruct todo as [|[r cs] tl]; reflexivity|]. unfold from. induction (concat (map snd todo)) as [|c l IH]; [reflexivity|]. cbn. rewrite Z.eqb_refl, <- IH. reflexivity.
  - apply I. apply Forall_forall. intros e H. apply in_map_iff in H as (c & <- & _). reflexivity.
Qed.
(** the hypotheses can be met: two requests in four reads, with a second client in between *)
Definition be1 : benv := mk_be 5 (fun _ _ => 165).
Definition rq1 : Z * list Z := (6, [13;0;0;0; 0;0;0;0; 4;0;0;0; 0;0]).
Definition rq2 : Z * list Z := (5, []).
Definition rq1_reads : list (list Z) := [firstn 5 (wire rq1); firstn 9 (skipn 5 (wire rq1)); skipn 14 (wire rq1)].
Lemma cuts_check r cs : forallb (fun c => negb (is_nil c)) cs = true -> concat cs = wire r ->
  forallb (fun k => let n := zlen (concat (firstn k cs)) in (4 <=? n) && negb (n =? zlen (wire r) - 1)) (seq 1 (length cs - 1)) = true -> cuts r cs.
Proof.
  intros A B C. split; [|split; [exact B|]].
  - apply Forall_forall. intros c I. apply (proj1 (forallb_forall _ _) A) in I. intros ->. discriminate.
  - intros a b E Na Nb. assert (I : In (length a) (seq 1 (length cs - 1))). { apply in_seq. rewrite E, app_length. destruct a, b; try congruence; cbn; lia. }
    apply (proj1 (forallb_forall _ _) C) in I. cbv zeta in I. rewrite E in I. rewrite firstn_app, Nat.sub_diag, firstn_all in I. cbn [firstn] in I. rewrite app_nil_r in I. lia.
Qed.
Lemma valid_check r : (1 <=? fst r) && (fst r <=? 27) && (zlen (snd r) <=? 4088) = true -> valid r.
Proof. unfold valid. lia. Qed.
Definition frames_of (x : run (list bnode * list frame)) : option (list frame) := match x with Done y => Some (snd y) | Undef _ => None end.
Example C41_ex : Forall (fun j : (Z * list Z) * list (list Z) => valid (fst j) /\ cuts (fst j) (snd j)) [(rq1, rq1_reads); (rq2, [wire rq2])] /\
  view (buff_initialize be1) 5 = None /\ bufs_reach be1 (buff_initialize be1) /\
  frames_of (rx_exec be1 (buff_initialize be1) [RxRead 5 (firstn 5 (wire rq1)); RxRead 6 (wire rq2); RxRead 5 (firstn 9 (skipn 5 (wire rq1))); RxRead 5 (skipn 14 (wire rq1)); RxRead 6 []; RxRead 5 (wire rq2)])
  = Some [Frame 6 5 []; Frame 5 6 (snd rq1); Closed 6; Frame 5 5 []].
Proof.
  split. { constructor; [split; [apply valid_check; vm_compute; reflexivity | apply cuts_check; vm_compute; reflexivity]|]. constructor; [|constructor]. split; [apply valid_check; vm_compute; reflexivity | apply cuts_check; vm_compute; reflexivity]. }
  split; [vm_compute; reflexivity|]. split; [exists [], []; split; [constructor | reflexivity]|]. vm_compute. reflexivity.
Qed.

(** C41 is false for a cut one byte before the end: for every request with a payload the handler runs before the last byte has arrived,
    and the next read is taken for the beginning of a new message (buffer.c:158, the index is compared with the length minus one) *)
Theorem C41_last_byte_refuted : forall B bs fd r c x,
  bufs_reach B bs -> fd <> 0 -> view bs fd = None -> valid r -> snd r <> [] -> wire r = c ++ [x] ->
  exists bs' d y, rx_step B bs (RxRead fd c) = Done (bs', [Frame fd (fst r) (d ++ [y])]) /\ (exists z, snd r = d ++ [z]) /\ view bs' fd = None.
Proof.
  intros B bs fd r c x R N V Vr D W. assert (LW := zlen_wire r). pose proof Vr as [V1 V2]. rewrite W, zlen_app, zlen_cons in LW. change (zlen (@nil Z)) with 0 in LW.
  destruct (exists_last D) as (d & z & Ed). assert (Ld : zlen (snd r) = zlen d + 1) by (rewrite Ed, zlen_app, zlen_cons; reflexivity). assert (Ld0 := zlen_nonneg d).
  assert (Cn : c <> []) by (intros ->; change (zlen (@nil Z)) with 0 in LW; lia).
  destruct (own_read B bs fd [] c (reach_ok _ _ R) N) as (kept & freed & buf & B1 & B2 & B3 & B4 & B5 & B6 & B7); [unfold pend; rewrite V; reflexivity | exact Cn | cbn [app]; lia |].
  cbn [app] in *. assert (S1 : be_val (slice 0 4 buf) = 8 + zlen (snd r)). { rewrite (slice_prefix c buf 0 4) by (try exact B1; lia). apply wire_size; [exact Vr | lia | exists [x]; symmetry; exact W]. }
  assert (S2 : slice 4 4 buf = slice 4 4 (wire r)).
  { rewrite (slice_prefix c buf 4 4) by (try exact B1; lia). rewrite W. unfold slice. rewrite skipn_app, firstn_app. replace (_ - _)%nat with O; [cbn [firstn]; rewrite app_nil_r; reflexivity|]. rewrite skipn_length. unfold zlen in LW, Ld, Ld0. lia. }
  assert (S3 : slice 8 (zlen d) buf = d).
  { rewrite (slice_prefix c buf 8 (zlen d)) by (try exact B1; lia). unfold wire in W. rewrite Ed, app_assoc, app_assoc in W. apply app_inj_tail in W as [<- _]. rewrite slice_app2 by (rewrite zlen_app, !zlen_be; reflexivity). unfold slice, zlen. rewrite Nat2Z.id. apply firstn_all. }
  cbv zeta in B7. rewrite S1, S2, (wire_cmd _ Vr) in B7. replace (u32 (8 + zlen (snd r) - 1)) with (7 + zlen (snd r)) in B7 by (unfold u32; rewrite Z.mod_small by lia; lia).
  replace (u32 (8 + zlen (snd r) - 8)) with (zlen (snd r)) in B7 by (unfold u32; rewrite Z.mod_small by lia; lia).
  replace (zlen c <? 7 + zlen (snd r)) with false in B7 by lia. replace ((fst r =? 0) || (27 <? fst r)) with false in B7 by lia. replace (4088 <? zlen (snd r)) with false in B7 by lia.
  assert (S4 : exists y, slice 8 (zlen (snd r)) buf = d ++ [y]).
  { destruct (znth buf (8 + zlen d)) as [y|] eqn:Y; [|apply znth_none in Y; lia]. exists y. apply znth_ext; intros i L.
    destruct (Z_lt_dec i (zlen d)) as [L1|L1].
    - rewrite znth_slice, znth_app1 by lia. rewrite <- S3 at 1. rewrite znth_slice by lia. reflexivity.
    - destruct (Z.eq_dec i (zlen d)) as [->|L2]; [rewrite znth_slice, znth_app2 by lia; rewrite Z.sub_diag, znth_0; exact Y|].
      rewrite (proj2 (znth_none _ _)), (proj2 (znth_none _ _)); [reflexivity | rewrite zlen_app, zlen_cons; change (zlen (@nil Z)) with 0; lia |]. rewrite zlen_slice by (unfold in_bounds; lia). lia. }
  destruct S4 as [y S4]. rewrite S4 in B7. exists freed, d, y. split; [exact B7|]. split; [exists z; exact Ed | exact B6].
Qed.
Lemma boot_reach B : bufs_reach B (buff_initialize B).
Proof. exists [], []. split; [constructor | reflexivity]. Qed.
(** the stale byte is executed: a one byte write of 7 is executed with the byte that the previous request left in the buffer *)
Definition wr (x : Z) : Z * list Z := (7, [13;0;0;0; 0;0;0;0; x]).
Theorem C41_stale_byte_refuted : exists B es, es = [RxRead 5 (wire (wr 99)); RxRead 5 (firstn 16 (wire (wr 7))); RxRead 5 (skipn 16 (wire (wr 7)))] /\
  frames_of (rx_exec B (buff_initialize B) es) = Some [Frame 5 7 (snd (wr 99)); Frame 5 7 (snd (wr 99))].
Proof. exists be1. eexists. split; [reflexivity|]. vm_compute. reflexivity. Qed.
(** a read that ends inside the length field: the server copies about 4 GiB *)
Theorem C41_length_cut_refuted : exists B bs r c1 c2, bufs_reach B bs /\ valid r /\ wire r = c1 ++ c2 /\ c1 <> [] /\ c2 <> [] /\ view bs 6 = None /\
  exists u, rx_step B bs (RxRead 6 c1) = Undef u.
Proof.
  destruct (rx_exec be1 (buff_initialize be1) [RxRead 5 (wire (7, repeat 1 251))]) as [[bs fs]|] eqn:X; [|exfalso; revert X; vm_compute; discriminate].
  exists be1, bs, rq2, [0;0;0], [8;0;0;0;5]. split. { eexists. exists fs. split; [|exact X]. constructor; [right; discriminate | constructor]. }
  split; [apply valid_check; reflexivity|]. split; [reflexivity|]. split; [discriminate|]. split; [discriminate|].
  assert (Q : (match rx_exec be1 (buff_initialize be1) [RxRead 5 (wire (7, repeat 1 251))] with Done (b, _) => match view b 6 with None => match rx_step be1 b (RxRead 6 [0;0;0]) with Undef _ => true | Done _ => false end | _ => false end | _ => false end) = true) by (vm_compute; reflexivity).
  rewrite X in Q. destruct (view bs 6); [discriminate|]. split; [reflexivity|]. destruct (rx_step be1 bs (RxRead 6 [0;0;0])); [discriminate|]. eexists. reflexivity.
Qed.
(** an idle second in the middle of a request: its first part is forgotten and the request is never executed *)
Theorem C41_idle_refuted : exists B r c1 c2, valid r /\ cuts r [c1; c2] /\
  frames_of (rx_exec B (buff_initialize B) [RxRead 5 c1; RxRead 5 c2]) = Some [Frame 5 (fst r) (snd r)] /\
  frames_of (rx_exec B (buff_initialize B) [RxRead 5 c1; RxIdle; RxRead 5 c2]) = Some [].
Proof.
  exists be1, rq1, (firstn 12 (wire rq1)), (skipn 12 (wire rq1)). split; [apply valid_check; vm_compute; reflexivity|]. split; [apply cuts_check; vm_compute; reflexivity|].
  split; vm_compute; reflexivity.
Qed.
(** a read error: the request of another client is executed again, in the name of the failed connection (buffer.c:143, a size_t is never -1) *)
Theorem C41_error_refuted : exists B r, valid r /\ frames_of (rx_exec B (buff_initialize B) [RxRead 5 (wire r); RxErr 6]) = Some [Frame 5 (fst r) (snd r); Frame 6 (fst r) (snd r)].
Proof. exists be1, (wr 7). split; [apply valid_check; vm_compute; reflexivity|]. vm_compute. reflexivity. Qed.

(** ** C42 *)
(** C42 is false for all pairs: of two requests that arrive in one read only the first is executed, the second is dropped *)
Theorem C42_refuted : forall B bs fd r1 r2, bufs_reach B bs -> fd <> 0 -> view bs fd = None -> valid r1 -> zlen (wire r1 ++ wire r2) <= 4096 ->
  exists bs', rx_step B bs (RxRead fd (wire r1 ++ wire r2)) = Done (bs', [Frame fd (fst r1) (snd r1)]) /\ view bs' fd = None.
Proof.
  intros B bs fd r1 r2 R N V Vr L. assert (LW := zlen_wire r1). pose proof Vr as [V1 V2]. assert (Ld := zlen_nonneg (snd r1)).
  assert (Cn : wire r1 ++ wire r2 <> []). { intros Q. apply app_eq_nil in Q as [Q _]. rewrite Q in LW. change (zlen (@nil Z)) with 0 in LW. lia. }
  destruct (own_read B bs fd [] (wire r1 ++ wire r2) (reach_ok _ _ R) N) as (kept & freed & buf & B1 & B2 & B3 & B4 & B5 & B6 & B7); [unfold pend; rewrite V; reflexivity | exact Cn | exact L |].
  cbn [app] in *. rewrite zlen_app in L.
  assert (B1' : slice 0 (zlen (wire r1)) buf = wire r1). { rewrite (slice_prefix (wire r1 ++ wire r2) buf 0 (zlen (wire r1))); [apply slice_app1; reflexivity | exact B1 | lia | lia | rewrite zlen_app; assert (Q := zlen_nonneg (wire r2)); lia]. }
  assert (S1 : be_val (slice 0 4 buf) = 8 + zlen (snd r1)). { rewrite (slice_prefix (wire r1) buf 0 4) by (try exact B1'; lia). apply wire_size; [exact Vr | lia | exists []; apply app_nil_r]. }
  assert (S2 : be_val (slice 4 4 buf) = fst r1). { rewrite (slice_prefix (wire r1) buf 4 4) by (try exact B1'; lia). apply wire_cmd. exact Vr. }
  cbv zeta in B7. rewrite S1, S2 in B7. replace (u32 (8 + zlen (snd r1) - 1)) with (7 + zlen (snd r1)) in B7 by (unfold u32; rewrite Z.mod_small by lia; lia).
  replace (u32 (8 + zlen (snd r1) - 8)) with (zlen (snd r1)) in B7 by (unfold u32; rewrite Z.mod_small by lia; lia).
  rewrite zlen_app in B7. assert (Q2 := zlen_nonneg (wire r2)).
  replace (_ <? 7 + zlen (snd r1)) with false in B7 by lia. replace ((fst r1 =? 0) || (27 <? fst r1)) with false in B7 by lia. replace (4088 <? zlen (snd r1)) with false in B7 by lia.
  rewrite (slice_prefix (wire r1) buf 8 (zlen (snd r1))) in B7 by (try exact B1'; lia). rewrite wire_data in B7. exists freed. split; [exact B7 | exact B6].
Qed.
Example C42_ex : zlen (wire rq1 ++ wire rq2) <= 4096 /\ frames_of (rx_exec be1 (buff_initialize be1) [RxRead 5 (wire rq1 ++ wire rq2); RxRead 5 (wire rq2)]) = Some [Frame 5 6 (snd rq1); Frame 5 5 []].
Proof. split; vm_compute; [discriminate | reflexivity]. Qed.
(** what does hold: requests that arrive in separate reads are all executed ([C41_partial] with several requests), for instance any number of
    requests, each in one read *)
Theorem C42_separate_partial : forall B bs fd rs, bufs_reach B bs -> fd <> 0 -> view bs fd = None -> Forall valid rs ->
  exists bs', rx_exec B bs (map (fun r => RxRead fd (wire r)) rs) = Done (bs', map (fun r => Frame fd (fst r) (snd r)) rs).
Proof.
  intros B bs fd rs R N V F. destruct (C41_alone_partial B bs fd (map (fun r => (r, [wire r])) rs) R N V) as [bs' H].
  - apply Forall_forall. intros j I. apply in_map_iff in I as (r & <- & I). split; [exact (proj1 (Forall_forall _ _) F r I)|]. cbn [fst snd]. split; [|split].
    + constructor; [|constructor]. intros Q. assert (LW := zlen_wire r). rewrite Q in LW. change (zlen (@nil Z)) with 0 in LW. assert (Q2 := zlen_nonneg (snd r)). lia.
    + apply app_nil_r.
    + intros a b E A1 A2. destruct a as [|x [|y a]]; [congruence | destruct b; [congruence | discriminate] | discriminate].
  - exists bs'. rewrite map_map in H. cbn [fst snd] in H. rewrite map_map in H. cbn [fst snd] in H. rewrite <- H. f_equal.
    clear. induction rs as [|r rs IH]; [reflexivity|]. cbn [map concat snd app]. f_equal. exact IH.
Qed.

(** ** C43 *)
(** C43 (partial, the framing layer): as long as the length a message declares is not one of 1..7 or 4097, and the length field has arrived, a
    read does nothing undefined.  [acc]: the bytes of this message that have been read before. *)
Theorem C43_framing_partial : forall B bs fd acc c, bufs_reach B bs -> fd <> 0 -> pend bs fd acc -> zlen (acc ++ c) <= 4096 ->
  bytes_ok (acc ++ c) -> 4 <= zlen (acc ++ c) -> ~ 1 <= be_val (slice 0 4 (acc ++ c)) <= 7 -> be_val (slice 0 4 (acc ++ c)) <> 4097 ->
  exists bs' fs, rx_step B bs (RxRead fd c) = Done (bs', fs) /\ bufs_ok bs'.
Proof.
  intros B bs fd acc c R N P L Bk L4 N1 N2. assert (O := reach_ok _ _ R). destruct (list_eq_dec Z.eq_dec c []) as [->|Cn].
  - cbn [rx_step]. destruct (find_buff_slot B bs fd) as [bs1 i] eqn:S. destruct (slot_spec _ _ _ _ _ O N S) as (l1 & n & l2 & -> & L1 & E & O1 & F1 & W & _).
    rewrite (znth_mid _ _ _ _ L1). rewrite firstn_nil. cbn [is_nil]. rewrite (free_spec _ _ _ _ F1 E). eexists. eexists. split; [reflexivity|].
    destruct (proj1 (Forall_app _ _ _) (bo_len _ O1)) as [_ Fn]. apply Forall_inv in Fn as (A3 & A4 & A5). eapply ok_mid; [exact O1 | exact A3 | cbn; lia | reflexivity | left; reflexivity].
  - destruct (own_read B bs fd acc c O N P Cn L) as (kept & freed & buf & B1 & B2 & B3 & B4 & B5 & B6 & B7). rewrite B7. clear B7. cbv zeta.
    rewrite (slice_prefix (acc ++ c) buf 0 4) by (try exact B1; lia). set (size := be_val (slice 0 4 (acc ++ c))) in *.
    assert (S : 0 <= size < 4294967296).
    { unfold size, be_val. assert (Q := le_val_range (rev (slice 0 4 (acc ++ c)))). replace (zlen (rev (slice 0 4 (acc ++ c)))) with 4 in Q; [apply Q|].
      - apply Forall_rev. apply bytes_ok_slice. exact Bk.
      - unfold zlen. rewrite rev_length. fold (zlen (slice 0 4 (acc ++ c))). rewrite zlen_slice by (unfold in_bounds; lia). reflexivity. }
    destruct (zlen (acc ++ c) <? u32 (size - 1)) eqn:W; [exists kept, []; auto|]. destruct (_ || _); [exists kept, []; auto|].
    replace (4088 <? u32 (size - 8)) with false; [eexists; eexists; split; [reflexivity | exact B4]|].
    assert (C : size = 0 \/ 8 <= size <= 4096 \/ 4098 <= size) by lia. unfold u32 in *. destruct C as [C|[C|C]].
    + rewrite C in W. change ((0 - 1) mod 4294967296) with 4294967295 in W. lia.
    + rewrite Z.mod_small by lia. lia.
    + rewrite Z.mod_small in W by lia. lia.
Qed.
Example C43_ex : pend (buff_initialize be1) 5 [] /\ be_val (slice 0 4 (wire rq1)) = 22 /\ bytes_ok (wire rq1).
Proof. split; [vm_compute; reflexivity|]. split; [vm_compute; reflexivity|]. vm_compute. repeat constructor; discriminate. Qed.
(** C43 is false: every declared length from 1 to 7 with a known command makes the server copy about 4 GiB over its stack *)
Theorem C43_small_refuted : forall B bs fd n cmd, bufs_reach B bs -> fd <> 0 -> view bs fd = None -> 1 <= n <= 7 -> 1 <= cmd <= 27 ->
  rx_step B bs (RxRead fd (be_bytes 4 n ++ be_bytes 4 cmd)) = Undef UOob.
Proof.
  intros B bs fd n cmd R N V Rn Rc. assert (L : zlen (be_bytes 4 n ++ be_bytes 4 cmd) = 8) by (rewrite zlen_app, !zlen_be; reflexivity).
  destruct (own_read B bs fd [] (be_bytes 4 n ++ be_bytes 4 cmd) (reach_ok _ _ R) N) as (kept & freed & buf & B1 & B2 & B3 & B4 & B5 & B6 & B7); [unfold pend; rewrite V; reflexivity | intros Q; rewrite Q in L; discriminate | cbn [app]; lia |].
  cbn [app] in *. rewrite B7. clear B7. cbv zeta. rewrite L in *.
  rewrite (slice_prefix (be_bytes 4 n ++ be_bytes 4 cmd) buf 0 4), (slice_prefix (be_bytes 4 n ++ be_bytes 4 cmd) buf 4 4) by (rewrite ?L; try exact B1; lia).
  rewrite slice_app1 by apply zlen_be. rewrite slice_app2 by apply zlen_be. replace (slice 0 4 (be_bytes 4 cmd)) with (be_bytes 4 cmd) by reflexivity.
  rewrite !be_val_bytes. change (256 ^ Z.of_nat 4) with 4294967296. rewrite !Z.mod_small by lia. unfold u32. rewrite (Z.mod_small (n - 1)) by lia.
  replace (8 <? n - 1) with false by lia. replace ((cmd =? 0) || (27 <? cmd)) with false by lia.
  replace ((n - 8) mod 4294967296) with (n - 8 + 4294967296); [replace (4088 <? _) with true by lia; reflexivity|]. apply Z.mod_unique with (q := -1); lia.
Qed.
(** and a message that declares 4097 bytes overflows the 4088 bytes of message.data by one *)
Theorem C43_4097_refuted : exists B c u, zlen c = 4096 /\ bytes_ok c /\ rx_step B (buff_initialize B) (RxRead 5 c) = Undef u.
Proof.
  exists be1, (be_bytes 4 4097 ++ be_bytes 4 7 ++ repeat 1 4088), UOob. split; [vm_compute; reflexivity|]. split.
  - rewrite app_assoc. apply bytes_ok_app; [vm_compute; repeat constructor; discriminate|]. apply bytes_ok_znth. intros i b Q. apply znth_In, repeat_spec in Q as ->. lia.
  - vm_compute. reflexivity.
Qed.
