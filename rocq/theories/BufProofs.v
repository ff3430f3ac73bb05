(** * BufProofs: the message buffers *)
From Verif Require Import Base Const Buffer Lib.

Definition view (bs : list bnode) (fd : Z) : option bnode := find (fun n => bn_fd n =? fd) bs.
Lemma first_pos_some p : forall bs k i, first_pos p bs k = Some i ->
  exists l1 n l2, bs = l1 ++ n :: l2 /\ zlen l1 = i - k /\ p n = true /\ find p bs = Some n /\ find p l1 = None.
Proof.
  induction bs as [|x bs IH]; intros k i H; cbn in H; [discriminate|]. destruct (p x) eqn:P.
  - injection H as <-. exists [], x, bs. cbn. rewrite P. repeat split. change (zlen (@nil bnode)) with 0. lia.
  - destruct (IH _ _ H) as (l1 & n & l2 & -> & L & Pn & F & F1). exists (x :: l1), n, l2. rewrite zlen_cons. cbn [app find]. rewrite P. repeat split; auto. lia.
Qed.
Lemma first_pos_none p : forall bs k, first_pos p bs k = None -> find p bs = None.
Proof. induction bs as [|x bs IH]; intros k H; cbn in *; [reflexivity|]. destruct (p x); [discriminate | eauto]. Qed.
Lemma znth_mid (l1 : list bnode) n l2 i : zlen l1 = i -> znth (l1 ++ n :: l2) i = Some n.
Proof. intros <-. rewrite znth_app2 by lia. rewrite Z.sub_diag. apply znth_0. Qed.
Lemma zset_mid (l1 : list bnode) n l2 i n' : zlen l1 = i -> zset (l1 ++ n :: l2) i n' = l1 ++ n' :: l2.
Proof.
  intros <-. unfold zset. rewrite zlen_app, zlen_cons. assert (A := zlen_nonneg l1). assert (B := zlen_nonneg l2).
  replace ((0 <=? zlen l1) && (zlen l1 <? zlen l1 + _)) with true by lia. unfold upd, zlen. rewrite Nat2Z.id.
  rewrite firstn_app, firstn_all, Nat.sub_diag. cbn [firstn]. rewrite app_nil_r. f_equal. rewrite skipn_app, skipn_all, Nat.sub_diag. reflexivity.
Qed.
Lemma find_mid {A} (p : A -> bool) l1 x l2 : find p (l1 ++ x :: l2) = match find p l1 with Some y => Some y | None => if p x then Some x else find p l2 end.
Proof. induction l1 as [|y l1 IH]; cbn; [reflexivity|]. destruct (p y); [reflexivity | exact IH]. Qed.
Lemma view_swap l1 n n' l2 fd : bn_fd n <> fd -> bn_fd n' <> fd -> view (l1 ++ n' :: l2) fd = view (l1 ++ n :: l2) fd.
Proof. intros A B. unfold view. rewrite !find_mid. replace (bn_fd n =? fd) with false by lia. replace (bn_fd n' =? fd) with false by lia. reflexivity. Qed.

(** ** Invariant *)
Definition fds (bs : list bnode) : list Z := filter (fun z => negb (z =? 0)) (map bn_fd bs).
Lemma fds_app a b : fds (a ++ b) = fds a ++ fds b.
Proof. unfold fds. rewrite map_app, filter_app. reflexivity. Qed.
Record bufs_ok (bs : list bnode) : Prop := {
  bo_len : Forall (fun n => zlen (bn_buf n) = 4096 /\ bn_idx n <= 4096 /\ (bn_fd n = 0 -> bn_idx n = 0)) bs;
  bo_nodup : NoDup (fds bs) }.
Lemma fds_in bs fd : In fd (fds bs) <-> fd <> 0 /\ view bs fd <> None.
Proof.
  unfold fds. rewrite filter_In, in_map_iff. split.
  - intros [(n & E & I) N]. split; [lia|]. intros V. unfold view in V. apply (find_none _ _ V) in I. lia.
  - intros [N V]. destruct (view bs fd) as [n|] eqn:Q; [|congruence]. apply find_some in Q as [I E]. split; [exists n; split; [lia | exact I] | lia].
Qed.
Lemma nodup_mid l1 n n' l2 : NoDup (fds (l1 ++ n :: l2)) -> (bn_fd n' = 0 \/ bn_fd n' = bn_fd n \/ ~ In (bn_fd n') (fds (l1 ++ n :: l2))) -> NoDup (fds (l1 ++ n' :: l2)).
Proof.
  change (n :: l2) with ([n] ++ l2). change (n' :: l2) with ([n'] ++ l2). rewrite !fds_app. intros N H.
  assert (B : NoDup (fds l1 ++ fds l2)). { unfold fds at 2 in N. cbn in N. destruct (negb (bn_fd n =? 0)); cbn [app] in N; [apply NoDup_remove_1 in N|]; exact N. }
  destruct H as [H|[H|H]].
  - unfold fds at 2. cbn. rewrite H. exact B.
  - unfold fds at 2. unfold fds at 2 in N. cbn in *. rewrite H. exact N.
  - unfold fds at 2. cbn. destruct (negb (bn_fd n' =? 0)) eqn:Q; [|exact B]. cbn [app]. apply NoDup_Add with (a := bn_fd n') (l := fds l1 ++ fds l2); [apply Add_app|].
    split; [exact B|]. intros I. apply H. rewrite !in_app_iff in *. tauto.
Qed.
Lemma ok_mid l1 n n' l2 : bufs_ok (l1 ++ n :: l2) -> zlen (bn_buf n') = 4096 -> bn_idx n' <= 4096 -> (bn_fd n' = 0 -> bn_idx n' = 0) ->
  (bn_fd n' = 0 \/ bn_fd n' = bn_fd n \/ ~ In (bn_fd n') (fds (l1 ++ n :: l2))) -> bufs_ok (l1 ++ n' :: l2).
Proof.
  intros [F N] A B C D. constructor; [|eapply nodup_mid; eassumption]. apply Forall_app in F as [F1 F2]. apply Forall_app. split; [exact F1|]. constructor; [auto | exact (Forall_inv_tail F2)].
Qed.
Lemma fresh_len B k : zlen (bn_buf (fresh_node B k)) = 4096.
Proof. unfold fresh_node. cbn [bn_buf]. rewrite zlen_map. unfold zlen. rewrite seq_length. reflexivity. Qed.
Lemma fresh_idx B k : bn_idx (fresh_node B k) = 0 /\ bn_fd (fresh_node B k) = 0.
Proof. split; reflexivity. Qed.
#[global] Opaque fresh_node.

(** the node that a read goes to *)
Lemma slot_spec B bs fd bs' i : bufs_ok bs -> fd <> 0 -> find_buff_slot B bs fd = (bs', i) ->
  exists l1 n l2, bs' = l1 ++ n :: l2 /\ zlen l1 = i /\ bn_fd n = fd /\ bufs_ok bs' /\ find (fun n => bn_fd n =? fd) l1 = None /\
    match view bs fd with Some m => n = m | None => bn_idx n = 0 end /\ forall fd', fd' <> 0 -> fd' <> fd -> view bs' fd' = view bs fd'.
Proof.
  intros O N H. unfold find_buff_slot in H. destruct (first_pos (fun n => bn_fd n =? fd) bs 0) as [k|] eqn:P1.
  - injection H as <- <-. destruct (first_pos_some _ _ _ _ P1) as (l1 & n & l2 & -> & L & Pn & F & F1). exists l1, n, l2. unfold view at 1. rewrite F.
    repeat split; auto; try lia; apply O.
  - apply first_pos_none in P1. assert (V : view bs fd = None) by exact P1. destruct (first_pos (fun n => bn_fd n =? 0) bs 0) as [k|] eqn:P2.
    + destruct (first_pos_some _ _ _ _ P2) as (l1 & n & l2 & -> & L & Pn & F & F1). rewrite Z.sub_0_r in L. rewrite (znth_mid _ _ _ _ L) in H. rewrite (zset_mid _ _ _ _ _ L) in H. injection H as <- <-.
      assert (Z0 : bn_fd n = 0) by lia. destruct (proj1 (Forall_app _ _ _) (bo_len _ O)) as [_ Fn]. apply Forall_inv in Fn as (A1 & A2 & A3).
      exists l1, (mk_bn fd (bn_idx n) (bn_buf n)), l2. split; [reflexivity|]. split; [exact L|]. split; [reflexivity|]. split.
      { eapply ok_mid; [exact O | exact A1 | exact A2 | cbn; congruence |]. right. right. cbn. rewrite fds_in. tauto. }
      split; [unfold view in V; rewrite find_mid in V; destruct (find _ l1); [discriminate | reflexivity]|]. rewrite V. split; [cbn; auto|]. intros fd' B1 B2. apply view_swap; cbn; congruence.
    + injection H as <- <-. exists bs, (mk_bn fd (bn_idx (fresh_node B (zlen bs))) (bn_buf (fresh_node B (zlen bs)))), []. split; [reflexivity|]. split; [reflexivity|]. split; [reflexivity|]. split.
      { constructor.
        - apply Forall_app. split; [apply O|]. constructor; [|constructor]. cbn [bn_buf bn_idx bn_fd]. rewrite fresh_len. rewrite (proj1 (fresh_idx B (zlen bs))). repeat split; lia. 
        - rewrite fds_app. unfold fds at 2. cbn. replace (negb (fd =? 0)) with true by lia. apply NoDup_Add with (a := fd) (l := fds bs ++ []); [apply Add_app|]. rewrite app_nil_r.
          split; [apply O|]. rewrite fds_in. tauto. }
      split; [exact V|]. rewrite V. split; [apply fresh_idx|]. intros fd' B1 B2. unfold view. rewrite find_mid. cbn. replace (fd =? fd') with false by lia.
      destruct (find (fun n => bn_fd n =? fd') bs); reflexivity.
Qed.
Lemma free_spec l1 n l2 fd : find (fun n => bn_fd n =? fd) l1 = None -> bn_fd n = fd -> buff_free (l1 ++ n :: l2) fd = l1 ++ mk_bn 0 0 (bn_buf n) :: l2.
Proof.
  intros F E. unfold buff_free. destruct (first_pos (fun n => bn_fd n =? fd) (l1 ++ n :: l2) 0) as [k|] eqn:P.
  - destruct (first_pos_some _ _ _ _ P) as (a & m & b & Q & L & Pm & Fm & Fa). rewrite Z.sub_0_r in L.
    assert (K : a = l1 /\ m = n /\ b = l2).
    { clear L Fm P. revert a Q Fa. induction l1 as [|x l1 IH]; intros [|y a] Q Fa; cbn in *.
      - injection Q as -> ->. auto.
      - injection Q as -> Q. replace (bn_fd y =? bn_fd y) with true in * by lia. replace (bn_fd y =? fd) with true in Fa by lia. discriminate.
      - injection Q as -> Q. rewrite Pm in F. discriminate.
      - injection Q as -> Q. destruct (bn_fd y =? fd); [discriminate|]. destruct (IH F a Q Fa) as (-> & -> & ->). auto. }
    destruct K as (-> & -> & ->). rewrite (znth_mid _ _ _ _ L). apply zset_mid. exact L.
  - apply first_pos_none in P. rewrite find_mid, F in P. replace (bn_fd n =? fd) with true in P by lia. discriminate.
Qed.
Lemma view_freed l1 n l2 fd : bufs_ok (l1 ++ n :: l2) -> bn_fd n = fd -> fd <> 0 -> view (l1 ++ mk_bn 0 0 (bn_buf n) :: l2) fd = None.
Proof.
  intros [_ N] E Z. change (n :: l2) with ([n] ++ l2) in N. rewrite !fds_app in N. unfold fds at 2 in N. cbn in N. replace (negb (bn_fd n =? 0)) with true in N by lia. cbn [app] in N.
  apply NoDup_remove_2 in N. rewrite in_app_iff, !fds_in in N. unfold view. rewrite find_mid. cbn [bn_fd]. replace (0 =? fd) with false by lia.
  rewrite E in N. unfold view in N. destruct (find (fun n => bn_fd n =? fd) l1); [exfalso; apply N; left; split; congruence|]. destruct (find (fun n => bn_fd n =? fd) l2); [exfalso; apply N; right; split; congruence | reflexivity].
Qed.
Definition ffd (f : frame) : Z := match f with Frame fd _ _ => fd | Closed fd => fd end.

(** what [buff_check] does *)
Lemma check_cases l1 n l2 i fd n' : bufs_ok (l1 ++ n :: l2) -> zlen l1 = i -> bn_fd n = fd -> fd <> 0 -> find (fun n => bn_fd n =? fd) l1 = None ->
  bn_fd n' = fd -> zlen (bn_buf n') = 4096 -> bn_idx n' <= 4096 ->
  let size := be_val (slice 0 4 (bn_buf n')) in let cmd := be_val (slice 4 4 (bn_buf n')) in
  let kept := l1 ++ n' :: l2 in let freed := l1 ++ mk_bn 0 0 (bn_buf n') :: l2 in
  bufs_ok kept /\ bufs_ok freed /\ view kept fd = Some n' /\ view freed fd = None /\
  (forall fd', fd' <> fd -> fd' <> 0 -> view kept fd' = view (l1 ++ n :: l2) fd' /\ view freed fd' = view (l1 ++ n :: l2) fd') /\
  buff_check (l1 ++ n :: l2) i n' =
    if u32 (bn_idx n') <? u32 (size - 1) then Done (kept, [])
    else if (cmd =? 0) || (27 <? cmd) then Done (kept, [])
    else if 4088 <? u32 (size - 8) then Undef UOob
    else Done (freed, [Frame fd cmd (slice 8 (u32 (size - 8)) (bn_buf n'))]).
Proof.
  intros O L E Z F E' Lb Ix size cmd kept freed.
  assert (K : bufs_ok kept) by (eapply ok_mid; [exact O | exact Lb | exact Ix | congruence | right; left; congruence]).
  assert (Fr : bufs_ok freed) by (eapply ok_mid; [exact O | exact Lb | cbn; lia | reflexivity | left; reflexivity]).
  split; [exact K|]. split; [exact Fr|]. split.
  { unfold kept, view. rewrite find_mid, F. replace (bn_fd n' =? fd) with true by lia. reflexivity. }
  split; [apply (view_freed l1 n' l2 fd); auto|]. split; [intros fd' A B; split; apply view_swap; cbn; congruence|].
  unfold buff_check. rewrite (zset_mid _ _ _ _ _ L). destruct (_ <? _); [reflexivity|]. unfold msg_dispatcher. fold cmd. fold size. destruct (_ || _); [reflexivity|]. destruct (_ <? _); [reflexivity|].
  rewrite E'. rewrite (free_spec _ _ _ _ F E'). reflexivity.
Qed.

(** ** Events of other sockets *)
Ltac dif H := match type of H with (if ?b then _ else _) = _ => destruct b end.
Definition rfd (e : rx) : Z := match e with RxRead fd _ => fd | RxErr fd => fd | RxIdle => 0 end.
Lemma zlen_got n (c : list Z) : zlen (firstn (Z.to_nat n) c) <= Z.max 0 n.
Proof. rewrite zlen_firstn. lia. Qed.
Lemma zlen_splice_in k (a b : list Z) : 0 <= k -> k + zlen a <= zlen b -> zlen (splice k a b) = zlen b.
Proof. intros A B. apply zlen_splice. unfold in_bounds. assert (C := zlen_nonneg a). lia. Qed.
Lemma rx_other B bs e fd bs' fs : bufs_ok bs -> rfd e <> 0 -> rfd e <> fd -> fd <> 0 -> rx_step B bs e = Done (bs', fs) ->
  bufs_ok bs' /\ view bs' fd = view bs fd /\ Forall (fun f => ffd f <> fd) fs.
Proof.
  intros O N NE NF H. destruct e as [f c|f|]; cbn [rfd] in *; [| |congruence].
  - cbn [rx_step] in H. destruct (find_buff_slot B bs f) as [bs1 i] eqn:S. destruct (slot_spec _ _ _ _ _ O N S) as (l1 & n & l2 & -> & L & E & O1 & F1 & _ & V).
    rewrite (znth_mid _ _ _ _ L) in H. rewrite <- (V fd NF) by congruence.
    destruct (proj1 (Forall_app _ _ _) (bo_len _ O1)) as [_ Fn]. apply Forall_inv in Fn as (A1 & A2 & A3).
    set (got := firstn (Z.to_nat (DAX_MSGMAX - bn_idx n)) c) in *. destruct (is_nil got) eqn:G.
    { injection H as <- <-. rewrite (free_spec _ _ _ _ F1 E). split; [eapply ok_mid; [exact O1 | exact A1 | cbn; lia | reflexivity | left; reflexivity]|].
      split; [apply view_swap; cbn; congruence|]. constructor; [cbn; congruence | constructor]. }
    destruct (bn_idx n <? 0) eqn:X; [discriminate|].
    assert (G1 : zlen got <= 4096 - bn_idx n) by (assert (Q := zlen_got (DAX_MSGMAX - bn_idx n) c); unfold DAX_MSGMAX in *; fold got in Q; lia).
    destruct (check_cases l1 n l2 i f (mk_bn (bn_fd n) (bn_idx n + zlen got) (splice (bn_idx n) got (bn_buf n))) O1 L E N F1) as (K1 & K2 & K3 & K4 & K5 & K6).
    { exact E. } { cbn [bn_buf]. rewrite zlen_splice_in; lia. } { cbn [bn_idx]. lia. }
    rewrite K6 in H. clear K6. destruct (K5 fd) as [Q1 Q2]; [congruence | exact NF|].
    dif H; [injection H as <- <-; split; [exact K1|]; split; [exact Q1 | constructor]|].
    dif H; [injection H as <- <-; split; [exact K1|]; split; [exact Q1 | constructor]|].
    dif H; [discriminate|]. injection H as <- <-. split; [exact K2|]. split; [exact Q2|]. constructor; [cbn; congruence | constructor].
  - cbn [rx_step] in H. destruct (find_buff_slot B bs f) as [bs1 i] eqn:S. destruct (slot_spec _ _ _ _ _ O N S) as (l1 & n & l2 & -> & L & E & O1 & F1 & _ & V).
    rewrite (znth_mid _ _ _ _ L) in H. rewrite <- (V fd NF) by congruence.
    destruct (proj1 (Forall_app _ _ _) (bo_len _ O1)) as [_ Fn]. apply Forall_inv in Fn as (A1 & A2 & A3).
    destruct (check_cases l1 n l2 i f (mk_bn (bn_fd n) (bn_idx n - 1) (bn_buf n)) O1 L E N F1) as (K1 & K2 & K3 & K4 & K5 & K6).
    { exact E. } { exact A1. } { cbn [bn_idx]. lia. }
    rewrite K6 in H. clear K6. destruct (K5 fd) as [Q1 Q2]; [congruence | exact NF|].
    dif H; [injection H as <- <-; split; [exact K1|]; split; [exact Q1 | constructor]|].
    dif H; [injection H as <- <-; split; [exact K1|]; split; [exact Q1 | constructor]|].
    dif H; [discriminate|]. injection H as <- <-. split; [exact K2|]. split; [exact Q2|]. constructor; [cbn; congruence | constructor].
Qed.
(** every event keeps the invariant *)
Lemma map_free_fds bs : fds (map (fun n => mk_bn 0 0 (bn_buf n)) bs) = [].
Proof. induction bs as [|x l IH]; [reflexivity | exact IH]. Qed.
Lemma removelast_In {A} (l : list A) x : In x (removelast l) -> In x l.
Proof. induction l as [|y l IH]; cbn; [tauto|]. destruct l; [intros []|]. intros [->|H]; [left; reflexivity | right; apply IH; exact H]. Qed.
Lemma freeall_ok B bs : bufs_ok bs -> bufs_ok (buff_freeall B bs).
Proof.
  intros O. set (m := map (fun n => mk_bn 0 0 (bn_buf n)) bs). assert (M : forall n, In n (buff_freeall B bs) -> In n m).
  { unfold buff_freeall. intros n H. destruct (_ && _) in H; [apply removelast_In in H|]; exact H. }
  assert (Z0 : forall n, In n (buff_freeall B bs) -> bn_fd n = 0). { intros n H. apply M, in_map_iff in H as (x & <- & _). reflexivity. }
  constructor.
  - apply Forall_forall. intros n H. apply M, in_map_iff in H as (x & <- & I). assert (Q := proj1 (Forall_forall _ _) (bo_len _ O) x I). cbn in *. split; [apply Q|]. split; [lia | reflexivity].
  - assert (E : fds (buff_freeall B bs) = []); [|rewrite E; constructor]. unfold fds. revert Z0. clear. induction (buff_freeall B bs) as [|x l IH]; intros Z0; [reflexivity|]. cbn.
    rewrite (Z0 x) by (left; reflexivity). cbn. apply IH. intros n H. apply Z0. right. exact H.
Qed.
Lemma rx_step_ok B bs e bs' fs : bufs_ok bs -> (e = RxIdle \/ rfd e <> 0) -> rx_step B bs e = Done (bs', fs) -> bufs_ok bs'.
Proof.
  intros O [->|N] H; [cbn in H; injection H as <- _; apply freeall_ok; exact O|].
  destruct (Z.eq_dec (rfd e) 1) as [E|E]; [apply (rx_other B bs e 2 bs' fs O N) in H | apply (rx_other B bs e 1 bs' fs O N) in H]; try lia; apply H.
Qed.
Lemma init_ok B : bufs_ok (buff_initialize B).
Proof.
  unfold buff_initialize. constructor.
  - apply Forall_forall. intros n H. apply in_map_iff in H as (k & <- & _). rewrite fresh_len. destruct (fresh_idx B (Z.of_nat k)) as [-> _]. repeat split; lia.
  - set (l := seq _ _). clearbody l. assert (E : fds (map (fun k => fresh_node B (Z.of_nat k)) l) = []); [|rewrite E; constructor]. induction l as [|x l IH]; [reflexivity|]. unfold fds in *. cbn [map filter].
    rewrite (proj2 (fresh_idx B (Z.of_nat x))). exact IH.
Qed.

(** ** Events of one socket *)
Definition pend (bs : list bnode) (fd : Z) (acc : list Z) : Prop :=
  match view bs fd with Some n => bn_idx n = zlen acc /\ slice 0 (zlen acc) (bn_buf n) = acc | None => acc = [] end.
Lemma slice_prefix w buf a k : slice 0 (zlen w) buf = w -> 0 <= a -> 0 <= k -> a + k <= zlen w -> slice a k buf = slice a k w.
Proof.
  intros H A K L. rewrite <- H at 1. unfold slice. cbn [skipn Z.to_nat]. rewrite skipn_firstn_comm, firstn_firstn. f_equal.
  unfold zlen in *. lia.
Qed.
Lemma splice_prefix acc c buf : slice 0 (zlen acc) buf = acc -> slice 0 (zlen (acc ++ c)) (splice (zlen acc) c buf) = acc ++ c.
Proof.
  intros H. unfold splice. unfold slice in H. cbn [skipn Z.to_nat] in H. rewrite H. unfold slice, zlen. rewrite Nat2Z.id. cbn [skipn Z.to_nat].
  rewrite app_assoc, firstn_app, Nat.sub_diag, firstn_all. cbn [firstn]. apply app_nil_r.
Qed.
Lemma own_read B bs fd acc c : bufs_ok bs -> fd <> 0 -> pend bs fd acc -> c <> [] -> zlen (acc ++ c) <= 4096 ->
  exists kept freed buf, slice 0 (zlen (acc ++ c)) buf = acc ++ c /\ zlen buf = 4096 /\ bufs_ok kept /\ bufs_ok freed /\ pend kept fd (acc ++ c) /\ view freed fd = None /\
    rx_step B bs (RxRead fd c) =
      (let size := be_val (slice 0 4 buf) in let cmd := be_val (slice 4 4 buf) in
       if zlen (acc ++ c) <? u32 (size - 1) then Done (kept, [])
       else if (cmd =? 0) || (27 <? cmd) then Done (kept, [])
       else if 4088 <? u32 (size - 8) then Undef UOob
       else Done (freed, [Frame fd cmd (slice 8 (u32 (size - 8)) buf)])).
Proof.
  intros O N P C L. cbn [rx_step]. destruct (find_buff_slot B bs fd) as [bs1 i] eqn:S. destruct (slot_spec _ _ _ _ _ O N S) as (l1 & n & l2 & -> & L1 & E & O1 & F1 & W & _).
  rewrite (znth_mid _ _ _ _ L1).
  assert (Q : bn_idx n = zlen acc /\ slice 0 (zlen acc) (bn_buf n) = acc). { unfold pend in P. destruct (view bs fd); [subst n; exact P|]. rewrite P. split; [exact W | reflexivity]. }
  destruct Q as [Q1 Q2]. assert (A := zlen_nonneg acc). assert (A2 := zlen_nonneg c). rewrite zlen_app in L.
  assert (G : firstn (Z.to_nat (DAX_MSGMAX - bn_idx n)) c = c). { apply firstn_all2. unfold DAX_MSGMAX. rewrite Q1. unfold zlen in *. lia. }
  rewrite G. destruct (is_nil c) eqn:X; [destruct c; [congruence | discriminate]|]. replace (bn_idx n <? 0) with false by lia.
  destruct (proj1 (Forall_app _ _ _) (bo_len _ O1)) as [_ Fn]. apply Forall_inv in Fn as (A3 & A4 & A5). rewrite Q1.
  set (buf := splice (zlen acc) c (bn_buf n)). set (n' := mk_bn (bn_fd n) (zlen acc + zlen c) buf).
  assert (Lb : zlen buf = 4096). { unfold buf. rewrite zlen_splice_in; lia. }
  destruct (check_cases l1 n l2 i fd n' O1 L1 E N F1 E Lb) as (K1 & K2 & K3 & K4 & K5 & K6); [cbn; lia|].
  exists (l1 ++ n' :: l2), (l1 ++ mk_bn 0 0 (bn_buf n') :: l2), buf. assert (SP : slice 0 (zlen (acc ++ c)) buf = acc ++ c) by (apply splice_prefix; exact Q2).
  split; [exact SP|]. split; [exact Lb|]. split; [exact K1|]. split; [exact K2|]. split; [unfold pend; rewrite K3; split; [cbn; rewrite zlen_app; reflexivity | exact SP]|]. split; [exact K4|].
  rewrite K6. cbn [n' bn_idx bn_buf]. replace (u32 (zlen acc + zlen c)) with (zlen (acc ++ c)); [reflexivity|]. rewrite zlen_app. unfold u32. rewrite Z.mod_small by lia. reflexivity.
Qed.
