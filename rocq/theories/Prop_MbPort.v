(** * C110, C111: the connections of a Modbus TCP master *)
From Verif Require Import Base Const Lib Modbus MbPort MbPortProofs.

(** ** C110: requests go to the device they are for *)
(** [dev id]: address and port of the device of command [id] *)
Definition about (dev : Z -> Z * Z) (os : list mop) : Prop :=
  Forall (fun o => match o with MSend c _ _ => dev (c_id c) = (c_addr c, c_port c) | _ => True end) os.
(** every request was written to a connection to the device of its command *)
Definition routed (dev : Z -> Z * Z) (l : list act) : Prop :=
  forall id fd f, In (Sent id fd f) l -> exists alive, f = Some (Conn (fst (dev id)) (snd (dev id)) alive).
(** only own connections were closed *)
Definition closed_own (l : list act) : Prop :=
  forall fd f, In (Closed fd f) l -> exists a q alive, f = Some (Conn a q alive).
(** no command is sent while the port of a non-persistent master is idle: [b] says whether it is scanning *)
Fixpoint while_scanning (b : bool) (os : list mop) : Prop :=
  match os with
  | [] => True
  | MSend _ _ _ :: os => b = true /\ while_scanning b os
  | MIdle :: os => while_scanning false os
  | MScan :: os => while_scanning true os
  | _ :: os => while_scanning b os
  end.

Definition pool_ok (p : port) (w : world) : Prop :=
  Forall (fun c => exists alive, w_fds w (cn_fd c) = Some (Conn (cn_addr c) (cn_port c) alive)) (p_pool p).
Definition fds_nodup (p : port) : Prop := NoDup (map cn_fd (p_pool p)).

Lemma find_conn_in l a q fd : find_conn l a q = Some fd -> In (mkC a q fd) l.
Proof.
  induction l as [|c l IH]; cbn [find_conn]; [discriminate|]. destruct ((cn_addr c =? a) && (cn_port c =? q)) eqn:E.
  - intros [= <-]. left. destruct c as [x y z]. cbn in *. f_equal; lia.
  - intros H. right. apply IH. exact H.
Qed.
Lemma put_conn_cases l n c l' : put_conn l n c = Done l' -> (0 <= n < zlen l /\ l' = zset l n c) \/ (n = zlen l /\ l' = l ++ [c]).
Proof.
  unfold put_conn. destruct ((0 <=? n) && (n <? zlen l)) eqn:E; [intros [= <-]; left; split; [lia|reflexivity]|].
  destruct (n =? zlen l) eqn:E2; [intros [= <-]; right; split; [lia|reflexivity]|discriminate].
Qed.
Lemma in_zset {A} (l : list A) n x y : In y (zset l n x) -> y = x \/ In y l.
Proof.
  intros H. apply In_nth_error in H. destruct H as (k & H). assert (Hz : znth (zset l n x) (Z.of_nat k) = Some y) by (apply znth_iff; split; [lia|rewrite Nat2Z.id; exact H]).
  rewrite znth_zset in Hz. destruct (_ && _) in Hz; [left; congruence|right]. eapply znth_In; exact Hz.
Qed.
(** the connection used is one to the device; the pool stays sound *)
Lemma get_conn_ok p a q r w p0 w1 fd : pool_ok p w -> get_connection p a q r w = Done (p0, w1, fd) ->
  pool_ok p0 w1 /\ (0 <= fd -> exists alive, w_fds w1 fd = Some (Conn a q alive)) /\
  (forall x, w_fds w x <> None -> w_fds w1 x = w_fds w x).
Proof.
  unfold get_connection. intros P H. destruct (find_conn (p_pool p) a q) as [fd0|] eqn:F.
  - injection H as <- <- <-. apply find_conn_in in F. unfold pool_ok in P. rewrite Forall_forall in P. split; [apply Forall_forall; exact P|].
    split; [|reflexivity]. intros _. apply P in F. exact F.
  - destruct r as [|f|f].
    + injection H as <- <- <-. split; [exact P|split; [lia|reflexivity]].
    + injection H as <- <- <-. destruct (free_fd w f) eqn:Fr; [|split; [exact P|split; [lia|reflexivity]]].
      apply free_spec in Fr. assert (K : forall x, w_fds w x <> None -> upd (w_fds w) f (Some Refused) x = w_fds w x) by (intros x Hx; apply upd_other; intros ->; tauto).
      split; [|split; [lia|exact K]]. eapply Forall_impl; [|exact P]. intros c (al & Hc). exists al. cbn [w_fds set_fd]. rewrite K; congruence.
    + destruct (free_fd w f) eqn:Fr; [|injection H as <- <- <-; split; [exact P|split; [lia|reflexivity]]].
      apply free_spec in Fr. assert (K : forall x, w_fds w x <> None -> upd (w_fds w) f (Some (Conn a q true)) x = w_fds w x) by (intros x Hx; apply upd_other; intros ->; tauto).
      destruct (unused_connection p) as [n size]. destruct (put_conn (p_pool p) n _) as [l|] eqn:Pc; cbn [rbind] in H; [|discriminate]. injection H as <- <- <-.
      split; [|split; [|exact K]].
      * unfold pool_ok in *. cbn [p_pool with_pool w_fds set_fd]. rewrite Forall_forall in *. intros c Hc.
        assert (Hc' : c = mkC a q f \/ In c (p_pool p)).
        { apply put_conn_cases in Pc. destruct Pc as [(_ & ->)|(_ & ->)]; [apply in_zset in Hc; exact Hc|].
          apply in_app_or in Hc. destruct Hc as [Hc|[<-|[]]]; tauto. }
        destruct Hc' as [-> | Hc']; [exists true; cbn; apply upd_same|]. destruct (P c Hc') as (al & E). exists al. rewrite K; congruence.
      * intros _. exists true. cbn. apply upd_same.
Qed.

Lemma close_all_own l : forall w, NoDup (map cn_fd l) -> Forall (fun c => exists alive, w_fds w (cn_fd c) = Some (Conn (cn_addr c) (cn_port c) alive)) l ->
  let w' := fold_left (fun w c => k_close w (cn_fd c)) l w in
  exists k, w_log w' = w_log w ++ k /\ Forall (fun a => exists fd x y alive, a = Closed fd (Some (Conn x y alive))) k /\
    (forall x, ~ In x (map cn_fd l) -> w_fds w' x = w_fds w x).
Proof.
  induction l as [|c l IH]; intros w N F; cbn [fold_left].
  - exists []. split; [symmetry; apply app_nil_r|]. split; [constructor|reflexivity].
  - cbn [map] in N. inversion N as [|? ? Nn N']; subst. inversion F as [|? ? (al & Fc) F']; subst.
    destruct (IH (k_close w (cn_fd c)) N') as (k & L & O & K).
    { eapply Forall_impl; [|apply Forall_and; [exact F'|apply Forall_forall; intros x Hx; exact Hx]].
      intros d ((ald & Hd) & Hin). exists ald. cbn. rewrite upd_other; [exact Hd|]. intros E. apply Nn. rewrite <- E. apply in_map. exact Hin. }
    cbv zeta in *. eexists. split; [rewrite L; cbn [k_close set_fd say w_log]; rewrite <- app_assoc; reflexivity|]. split.
    + constructor; [exists (cn_fd c), (cn_addr c), (cn_port c), al; rewrite Fc; reflexivity|exact O].
    + intros x Hx. cbn [map In] in Hx. rewrite K by tauto. cbn. apply upd_other. intros ->. tauto.
Qed.

Lemma nodup_snoc {A} (l : list A) x : NoDup l -> ~ In x l -> NoDup (l ++ [x]).
Proof.
  induction l as [|y t IH]; cbn; intros N Nf; [constructor; [intros []|constructor]|].
  inversion N as [|? ? Nx Nt]; subst. constructor; [|apply IH; tauto]. intros Hx. apply in_app_or in Hx. destruct Hx as [Hx|[<-|[]]]; tauto.
Qed.
Lemma nodup_zset {A B} (f : A -> B) l n x : 0 <= n < zlen l -> NoDup (map f l) -> ~ In (f x) (map f l) -> NoDup (map f (zset l n x)).
Proof.
  intros R N Nf. apply NoDup_nth_error. intros i j Hi E. rewrite NoDup_nth_error in N.
  rewrite !nth_error_map in E. rewrite map_length, zset_length in Hi.
  assert (Q : forall k, nth_error (zset l n x) k = if (Z.of_nat k =? n) then Some x else nth_error l k).
  { intros k. destruct (Nat.lt_ge_cases k (length l)) as [L|L].
    - assert (Hz : znth (zset l n x) (Z.of_nat k) = if (Z.of_nat k =? n) then Some x else znth l (Z.of_nat k)).
      { rewrite znth_zset. destruct (Z.of_nat k =? n) eqn:Ek; [replace (n =? Z.of_nat k) with true by lia|replace (n =? Z.of_nat k) with false by lia; reflexivity].
        unfold zlen in *. replace ((true && (0 <=? n)) && (n <? Z.of_nat (length l))) with true by lia. reflexivity. }
      unfold znth in Hz. rewrite zset_zlen in Hz. unfold zlen in Hz. replace ((0 <=? Z.of_nat k) && (Z.of_nat k <? Z.of_nat (length l))) with true in Hz by lia.
      rewrite Nat2Z.id in Hz. exact Hz.
    - rewrite (proj2 (nth_error_None _ _)) by (rewrite zset_length; exact L). unfold zlen in R. replace (Z.of_nat k =? n) with false by lia.
      symmetry. apply nth_error_None. exact L. }
  rewrite !Q in E. destruct (Z.of_nat i =? n) eqn:Ei; destruct (Z.of_nat j =? n) eqn:Ej.
  + lia.
  + exfalso. apply Nf. destruct (nth_error l j) as [c|] eqn:Ec; cbn in E; [|discriminate]. injection E as E. rewrite E. apply in_map. eapply nth_error_In; exact Ec.
  + exfalso. apply Nf. destruct (nth_error l i) as [c|] eqn:Ec; cbn in E; [|discriminate]. injection E as E. rewrite <- E. apply in_map. eapply nth_error_In; exact Ec.
  + apply N; [rewrite map_length; exact Hi|]. rewrite !nth_error_map. exact E.
Qed.
(** the pool has no descriptor twice *)
Lemma get_conn_nodup p a q r w p0 w1 fd : pool_ok p w -> fds_nodup p -> get_connection p a q r w = Done (p0, w1, fd) -> fds_nodup p0.
Proof.
  unfold get_connection. intros P N H. destruct (find_conn (p_pool p) a q) as [fd0|] eqn:F; [injection H as <- <- <-; exact N|].
  destruct r as [|f|f]; [injection H as <- <- <-; exact N|injection H as <- <- <-; exact N|].
  destruct (free_fd w f) eqn:Fr; [|injection H as <- <- <-; exact N]. apply free_spec in Fr.
  destruct (unused_connection p) as [n size] eqn:U. destruct (put_conn (p_pool p) n _) as [l|] eqn:Pc; cbn [rbind] in H; [|discriminate]. injection H as <- <- <-.
  unfold fds_nodup in *. cbn [p_pool with_pool].
  assert (Nf : ~ In f (map cn_fd (p_pool p))).
  { intros Hf. apply in_map_iff in Hf. destruct Hf as (c & <- & Hc). unfold pool_ok in P. rewrite Forall_forall in P. destruct (P c Hc) as (al & E). destruct Fr. congruence. }
  apply put_conn_cases in Pc. destruct Pc as [(B & ->)|(_ & ->)].
  - apply nodup_zset; [exact B|exact N|exact Nf].
  - rewrite map_app. cbn. apply nodup_snoc; assumption.
Qed.

Definition sound (dev : Z -> Z * Z) (p : port) (w : world) : Prop :=
  p_tcp p = true /\ pool_ok p w /\ fds_nodup p /\ routed dev (w_log w) /\ closed_own (w_log w).
Lemma sound_send dev p c r ts w p' c' w' res : sound dev p w -> dev (c_id c) = (c_addr c, c_port c) -> closes p = false ->
  send_command p c r ts w = Done (p', c', w', res) -> sound dev p' w'.
Proof.
  intros (T & P & N & R & O) D Cl H.
  assert (TP := send_frame _ _ _ _ _ _ _ _ _ H). destruct TP as (_ & Et & Ep & Es & _).
  assert (Cl' : closes p' = false) by (unfold closes in *; rewrite Ep, Es; exact Cl).
  apply send_cases in H. destruct H as [(_ & -> & -> & -> & _)|(En & w1 & G & H)].
  { split; [exact T|]. split; [exact P|]. split; [exact N|].
    split; intros i fd; [intros f Hf|intros Hf]; apply in_app_or in Hf; destruct Hf as [Hf|[Hf|[]]]; try discriminate; eauto. }
  destruct G as [(_ & p0 & fd & G & ->)|(T' & _)]; [|congruence].
  assert (GL := get_conn_port _ _ _ _ _ _ _ _ G). destruct GL as (_ & _ & _ & _ & _ & _ & _ & _ & _ & GL).
  assert (P1 : pool_ok p (say w (Called (c_id c)))) by exact P.
  assert (GN := get_conn_nodup p _ _ _ _ _ _ _ P1 N G). apply (get_conn_ok p) in G; [|exact P1]. destruct G as (P0 & F & _).
  assert (R1 : routed dev (w_log w1)). { rewrite GL. intros i f fl Hf. apply in_app_or in Hf. destruct Hf as [Hf|[Hf|[]]]; [eauto|discriminate]. }
  assert (O1 : closed_own (w_log w1)). { rewrite GL. intros f fl Hf. apply in_app_or in Hf. destruct Hf as [Hf|[Hf|[]]]; [eauto|discriminate]. }
  destruct H as [(_ & -> & -> & _)|(Eb & w2 & Rt & ->)].
  - split; [congruence|]. split; [exact P0|]. split; [exact GN|].
    split; intros i fdd; [intros f Hf|intros Hf]; apply in_app_or in Hf; destruct Hf as [Hf|[Hf|[]]]; try discriminate; eauto.
  - apply retry_log in Rt. destruct Rt as (_ & Ff & n & _ & L). rewrite Cl' in Ff, L. rewrite app_nil_r in L.
    cbn [p_tcp p_fd with_pfd] in *. assert (Fd : 0 <= fd) by (rewrite Et, T in Eb; cbn in Eb; lia). destruct (F Fd) as (al & Fc).
    split; [cbn; congruence|]. split; [|split; [exact GN|]].
    + unfold pool_ok in *. cbn [p_pool with_pfd w_fds say]. rewrite Ff. exact P0.
    + split; intros i fdd; [intros f Hf|intros Hf]; cbn [w_log say] in Hf; apply in_app_or in Hf; destruct Hf as [Hf|[Hf|[]]]; try discriminate.
      * rewrite L in Hf. apply in_app_or in Hf. destruct Hf as [Hf|Hf]; [eauto|]. apply repeat_spec in Hf. injection Hf as -> _ ->. rewrite D. exists al. exact Fc.
      * rewrite L in Hf. apply in_app_or in Hf. destruct Hf as [Hf|Hf]; [eauto|]. apply repeat_spec in Hf. discriminate.
Qed.
Lemma sound_other dev p w w' : sound dev p w -> w_log w' = w_log w ->
  (forall fd a q al, w_fds w fd = Some (Conn a q al) -> exists al', w_fds w' fd = Some (Conn a q al')) -> sound dev p w'.
Proof.
  intros (T & P & N & R & O) L K. split; [exact T|]. split; [|split; [exact N|rewrite L; split; assumption]].
  eapply Forall_impl; [|exact P]. intros c (al & Hc). eapply K. exact Hc.
Qed.
Lemma sound_step dev p w o p' w' : sound dev p w ->
  (match o with MSend c _ _ => dev (c_id c) = (c_addr c, c_port c) /\ closes p = false | _ => True end) ->
  m_step (p, w) o = Done (p', w') -> sound dev p' w'.
Proof.
  intros S Ho H. destruct o as [c r ts| | |a q|fd|fd]; cbn [m_step] in H.
  - destruct (send_command p c r ts w) as [[[[p1 c1] w1] res]|] eqn:E; cbn [rbind] in H; [|discriminate]. injection H as <- <-.
    destruct Ho. eapply sound_send; eassumption.
  - unfold idle in H. destruct S as (T & P & N & R & O). destruct (p_persist p); [injection H as <- <-; repeat split; assumption|].
    unfold close_port in H. rewrite T in H. injection H as <- <-. destruct (close_all_own _ w N P) as (k & L & Ok & K).
    split; [exact T|]. split; [constructor|]. split; [constructor|]. cbv zeta in L. rewrite Forall_forall in Ok.
    split; intros i fdd; [intros f Hf|intros Hf]; rewrite L in Hf; apply in_app_or in Hf; destruct Hf as [Hf|Hf]; try (first [solve [eapply R; exact Hf]|solve [eapply O; exact Hf]]).
    + apply Ok in Hf. destruct Hf as (? & ? & ? & ? & Hf). discriminate.
    + apply Ok in Hf. destruct Hf as (? & x & y & al & Hf). injection Hf as _ ->. eauto.
  - injection H as <- <-. exact S.
  - injection H as <- <-. eapply sound_other; [exact S|reflexivity|]. intros fd x y al E. cbn [w_fds]. rewrite E. cbn.
    destruct (_ && _); eauto.
  - injection H as <- <-. destruct (free_fd w fd) eqn:F; [|exact S]. apply free_spec in F. eapply sound_other; [exact S|reflexivity|].
    intros x a q al E. cbn. exists al. rewrite upd_other; [exact E|]. intros ->. destruct F. congruence.
  - injection H as <- <-. destruct (w_fds w fd) as [[]|] eqn:F; try exact S. eapply sound_other; [exact S|reflexivity|].
    intros x a q al E. cbn. exists al. rewrite upd_other; [exact E|]. intros ->. congruence.
Qed.
Lemma step_flags p w o p' w' : m_step (p, w) o = Done (p', w') ->
  p_persist p' = p_persist p /\ p_scanning p' = (match o with MIdle => false | MScan => true | _ => p_scanning p end).
Proof.
  intros H. destruct o as [c r ts| | |a q|fd|fd]; cbn [m_step] in H.
  - destruct (send_command p c r ts w) as [[[[p1 c1] w1] res]|] eqn:E; cbn [rbind] in H; [|discriminate]. injection H as <- <-.
    apply send_frame in E. tauto.
  - unfold idle in H. destruct (p_persist p) eqn:Pp; [injection H as <- <-; split; [exact Pp|reflexivity]|].
    pose proof (close_port_persist p w) as C. destruct (close_port p w) as [p1 w1]. injection H as <- <-. split; [cbn in *; congruence|reflexivity].
  - injection H as <- <-. split; reflexivity.
  - injection H as <- <-. split; reflexivity.
  - injection H as <- <-. split; reflexivity.
  - injection H as <- <-. split; reflexivity.
Qed.
Lemma sound_run dev os : forall p w p' w', sound dev p w -> about dev os -> p_persist p = true \/ while_scanning (p_scanning p) os ->
  m_run (p, w) os = Done (p', w') -> sound dev p' w'.
Proof.
  induction os as [|o os IH]; intros p w p' w' S A W H; cbn [m_run] in H; [injection H as <- <-; exact S|].
  destruct (m_step (p, w) o) as [[p1 w1]|] eqn:E; cbn [rbind] in H; [|discriminate]. inversion A as [|? ? Ao A']; subst.
  assert (S1 : sound dev p1 w1).
  { eapply sound_step; [exact S| |exact E]. destruct o as [c r ts| | |a q|fd|fd]; try exact I. split; [exact Ao|].
    unfold closes. destruct W as [-> | W]; [rewrite andb_false_r; reflexivity|]. cbn in W. destruct W as (-> & _). reflexivity. }
  apply (IH p1 w1 p' w' S1 A'); [|exact H]. apply step_flags in E. destruct E as (-> & ->).
  destruct W as [W|W]; [left; exact W|right]. destruct o; cbn [while_scanning] in W; tauto.
Qed.

(** Whatever the devices, the network and the rest of the process do: the requests of a persistent master go to the device
    they are for, over a connection of its own, and it closes nothing but its own connections.  The same holds for a
    non-persistent one whose commands are all sent while it is scanning. *)
Theorem C110_routed_partial : forall dev persist retries maxatt junk w os p' w',
  w_log w = [] -> about dev os -> persist = true \/ while_scanning junk os ->
  m_run (new_tcp persist retries maxatt junk, w) os = Done (p', w') ->
  routed dev (w_log w') /\ closed_own (w_log w').
Proof.
  intros dev persist retries maxatt junk w os p' w' L A W H.
  assert (S : sound dev p' w').
  { eapply sound_run; [|exact A| |exact H]; [|exact W]. repeat split; try constructor; rewrite L; intros ? ?; cbn; tauto. }
  destruct S as (_ & _ & _ & R & O). split; assumption.
Qed.

(** *** one connection per device *)
(** the other parts of the process leave descriptor 0 open *)
Definition keeps_stdin (os : list mop) : Prop := ~ In (MCloses 0) os.
Lemma find_conn_app l c a q fd : find_conn l a q = Some fd -> find_conn (l ++ [c]) a q = Some fd.
Proof. induction l as [|d l IH]; cbn; [discriminate|]. destruct (_ && _); [tauto|exact IH]. Qed.
Lemma find_conn_end l a q fd : find_conn l a q = None -> find_conn (l ++ [mkC a q fd]) a q = Some fd.
Proof. induction l as [|d l IH]; cbn; [rewrite !Z.eqb_refl; reflexivity|]. destruct (_ && _); [discriminate|exact IH]. Qed.
Lemma find_zero_none l : Forall (fun c => cn_fd c <> 0) l -> forall n, find_zero l n = None.
Proof. induction 1 as [|c l Hc H IH]; intros n; cbn; [reflexivity|]. replace (cn_fd c =? 0) with false by lia. apply IH. Qed.
Lemma unused_end p : Forall (fun c => cn_fd c <> 0) (p_pool p) -> fst (unused_connection p) = zlen (p_pool p) \/ fst (unused_connection p) = E_2BIG.
Proof.
  intros H. unfold unused_connection. rewrite (find_zero_none _ H). destruct (_ =? _); [|left; reflexivity]. destruct (_ <=? _); [right; reflexivity|left; reflexivity].
Qed.
Definition fixed (dev : Z -> Z * Z) (p : port) (w : world) : Prop :=
  p_persist p = true /\ p_tcp p = true /\ w_fds w 0 <> None /\ Forall (fun c => cn_fd c <> 0) (p_pool p) /\
  (forall id fd f, In (Sent id fd f) (w_log w) -> find_conn (p_pool p) (fst (dev id)) (snd (dev id)) = Some fd).
Lemma get_conn_fixed p a q r w p0 w1 fd : w_fds w 0 <> None -> Forall (fun c => cn_fd c <> 0) (p_pool p) ->
  get_connection p a q r w = Done (p0, w1, fd) ->
  w_fds w1 0 <> None /\ Forall (fun c => cn_fd c <> 0) (p_pool p0) /\
  (forall a q x, find_conn (p_pool p) a q = Some x -> find_conn (p_pool p0) a q = Some x) /\ (0 <= fd -> find_conn (p_pool p0) a q = Some fd) /\
  (forall x, w_fds w x <> None -> w_fds w1 x = w_fds w x).
Proof.
  intros Z0 NZ G. unfold get_connection in G. destruct (find_conn (p_pool p) a q) as [x|] eqn:F; [injection G as <- <- <-; repeat split; tauto|].
  destruct r as [|f|f].
  - injection G as <- <- <-. repeat split; try tauto; intros; lia.
  - injection G as <- <- <-. destruct (free_fd _ f) eqn:Fr; repeat split; try tauto; try (intros; lia).
    + apply free_spec in Fr. cbn in *. destruct (Z.eq_dec 0 f) as [<-|E]; [tauto|rewrite upd_other by exact E; exact Z0].
    + apply free_spec in Fr. cbn in *. intros x Hx. apply upd_other. intros ->. tauto.
  - destruct (free_fd _ f) eqn:Fr; [|injection G as <- <- <-; repeat split; try tauto; intros; lia].
    apply free_spec in Fr. cbn in Fr. assert (E : f <> 0) by (intros ->; tauto).
    pose proof (unused_end p NZ) as U. destruct (unused_connection p) as [n size]. cbn in U.
    destruct (put_conn (p_pool p) n _) as [l|] eqn:Pc; cbn [rbind] in G; [|discriminate]. injection G as <- <- <-.
    apply put_conn_cases in Pc. pose proof (zlen_nonneg (p_pool p)).
    destruct Pc as [(B & _)|(_ & ->)]; [destruct U; [lia|unfold E_2BIG in *; lia]|].
    cbn [p_pool with_pool w_fds set_fd say]. split; [rewrite upd_other by congruence; exact Z0|]. split; [apply Forall_app; split; [exact NZ|constructor; [exact E|constructor]]|].
    split; [intros; apply find_conn_app; assumption|]. split; [intros _; apply find_conn_end; exact F|]. intros x Hx. apply upd_other. intros ->. tauto.
Qed.
Lemma fixed_send dev p c r ts w p' c' w' res : fixed dev p w -> dev (c_id c) = (c_addr c, c_port c) ->
  send_command p c r ts w = Done (p', c', w', res) -> fixed dev p' w'.
Proof.
  intros (Pp & T & Z0 & NZ & L) D H.
  apply send_cases in H. destruct H as [(_ & -> & -> & -> & _)|(En & w1 & G & H)].
  { repeat split; try assumption. intros id fd f Hf. apply in_app_or in Hf. destruct Hf as [Hf|[Hf|[]]]; [eauto|discriminate]. }
  destruct G as [(_ & p0 & fd & G & ->)|(T' & _)]; [|congruence].
  assert (GP := get_conn_port _ _ _ _ _ _ _ _ G). destruct GP as (GT & GPp & _ & _ & _ & _ & _ & _ & _ & GL).
  assert (X := get_conn_fixed p _ _ _ (say w (Called (c_id c))) _ _ _ Z0 NZ G).
  destruct X as (X0 & XN & XF & XC & _).
  assert (L1 : forall id x f, In (Sent id x f) (w_log w1) -> find_conn (p_pool p0) (fst (dev id)) (snd (dev id)) = Some x).
  { rewrite GL. intros id x f Hf. apply in_app_or in Hf. destruct Hf as [Hf|[Hf|[]]]; [apply XF; eauto|discriminate]. }
  destruct H as [(_ & -> & -> & _)|(Eb & w2 & Rt & ->)].
  - repeat split; cbn; try assumption; try congruence. intros id x f Hf. apply in_app_or in Hf. destruct Hf as [Hf|[Hf|[]]]; [eauto|discriminate].
  - apply retry_log in Rt. cbn [p_tcp p_fd with_pfd p_pool p_persist] in *.
    assert (Cl : closes (with_pfd p0 fd) = false) by (unfold closes; cbn; rewrite GPp, Pp, andb_false_r; reflexivity).
    destruct Rt as (_ & Ff & n & _ & Lg). rewrite Cl in *. rewrite app_nil_r in Lg.
    assert (Fd : 0 <= fd) by (rewrite GT, T in Eb; cbn in Eb; lia).
    split; [cbn; congruence|]. split; [cbn; congruence|]. split; [cbn; rewrite Ff; exact X0|]. split; [exact XN|].
    intros id x f Hf. cbn [w_log say] in Hf. rewrite Lg, <- app_assoc in Hf. apply in_app_or in Hf. destruct Hf as [Hf|Hf]; [eauto|].
    apply in_app_or in Hf. destruct Hf as [Hf|[Hf|[]]]; [|discriminate]. apply repeat_spec in Hf. injection Hf as -> -> _. rewrite D. apply XC. exact Fd.
Qed.
Lemma fixed_step dev p w o p' w' : fixed dev p w -> about dev [o] -> keeps_stdin [o] -> m_step (p, w) o = Done (p', w') -> fixed dev p' w'.
Proof.
  intros S A K E. apply Forall_inv in A. destruct o as [c r ts| | |a q|fd|fd]; cbn [m_step] in E.
  - destruct (send_command p c r ts w) as [[[[p2 c2] w2] res]|] eqn:E2; cbn [rbind] in E; [|discriminate]. injection E as <- <-. eapply fixed_send; eassumption.
  - unfold idle in E. destruct S as (Pp & S). rewrite Pp in E. injection E as <- <-. split; [exact Pp|exact S].
  - injection E as <- <-. exact S.
  - injection E as <- <-. destruct S as (? & ? & Z0 & ?). repeat split; try tauto. cbn. destruct (w_fds w 0) as [[]|]; cbn; try congruence. destruct (_ && _); congruence.
  - injection E as <- <-. destruct (free_fd w fd) eqn:F; [|exact S]. apply free_spec in F. destruct S as (? & ? & Z0 & ?). repeat split; try tauto.
    cbn. rewrite upd_other; [exact Z0|]. intros <-. tauto.
  - injection E as <- <-. destruct (w_fds w fd) as [[]|] eqn:F; try exact S. destruct S as (? & ? & Z0 & ?). repeat split; try tauto.
    cbn. rewrite upd_other; [exact Z0|]. intros <-. apply K. left. reflexivity.
Qed.
Lemma fixed_run dev os : forall p w p' w', fixed dev p w -> about dev os -> keeps_stdin os -> m_run (p, w) os = Done (p', w') -> fixed dev p' w'.
Proof.
  induction os as [|o os IH]; intros p w p' w' S A K H; cbn [m_run] in H; [injection H as <- <-; exact S|].
  destruct (m_step (p, w) o) as [[p1 w1]|] eqn:E; cbn [rbind] in H; [|discriminate]. inversion A as [|? ? Ao A']; subst.
  apply (IH p1 w1 p' w'); [|exact A'|intros Hin; apply K; right; exact Hin|exact H].
  eapply fixed_step; [exact S|constructor; [exact Ao|constructor]| |exact E]. intros [->|[]]. apply K. left. reflexivity.
Qed.

(** A persistent master keeps to one connection for each device. *)
Theorem C110_reused_partial : forall dev retries maxatt junk w os p' w',
  w_log w = [] -> w_fds w 0 <> None -> about dev os -> keeps_stdin os ->
  m_run (new_tcp true retries maxatt junk, w) os = Done (p', w') ->
  forall i j fd fd' f f', In (Sent i fd f) (w_log w') -> In (Sent j fd' f') (w_log w') -> dev i = dev j -> fd = fd'.
Proof.
  intros dev retries maxatt junk w os p' w' L Z0 A K H i j fd fd' f f' Hi Hj E.
  assert (F : fixed dev p' w').
  { eapply fixed_run; [|exact A|exact K|exact H]. repeat split; try constructor; [exact Z0|]. rewrite L. intros ? ? ? []. }
  destruct F as (_ & _ & _ & _ & F). apply F in Hi. apply F in Hj. rewrite E in Hi. congruence.
Qed.

(** *** the pool holds 2048 devices *)
Definition key (c : conn) : Z * Z := (cn_addr c, cn_port c).
Definition fits (D : list (Z * Z)) (p : port) : Prop :=
  p_tcp p = true /\ NoDup (map key (p_pool p)) /\ incl (map key (p_pool p)) D /\ zlen (p_pool p) <= p_size p /\ exists k, 0 <= k <= 7 /\ p_size p = 16 * 2 ^ k.
Lemma find_conn_none l a q : find_conn l a q = None -> ~ In (a, q) (map key l).
Proof.
  induction l as [|c l IH]; cbn; [tauto|]. destruct ((cn_addr c =? a) && (cn_port c =? q)) eqn:E; [discriminate|].
  intros H [K|K]; [injection K as <- <-; lia|exact (IH H K)].
Qed.
Lemma find_zero_bound l : forall n k, find_zero l n = Some k -> n <= k < n + zlen l.
Proof.
  induction l as [|c l IH]; intros n k; cbn [find_zero]; [discriminate|]. rewrite zlen_cons. pose proof (zlen_nonneg l). destruct (cn_fd c =? 0).
  - intros [= <-]. lia.
  - intros H0. apply IH in H0. lia.
Qed.
Lemma pow_bound k : 0 <= k <= 7 -> 16 * 2 ^ k <= 2048 /\ (16 * 2 ^ k < 2048 -> k + 1 <= 7) /\ 2 ^ (k + 1) = 2 * 2 ^ k.
Proof.
  intros H. rewrite Z.pow_add_r by lia. assert (D : k = 0 \/ k = 1 \/ k = 2 \/ k = 3 \/ k = 4 \/ k = 5 \/ k = 6 \/ k = 7) by lia.
  repeat (destruct D as [-> | D]; [lia|]). subst k. lia.
Qed.
Lemma get_conn_fits D p a q r w : fits D p -> In (a, q) D -> zlen D <= MB_MAX_CONNECTION_SIZE ->
  exists p0 w1 fd, get_connection p a q r w = Done (p0, w1, fd) /\ fits D p0.
Proof.
  intros F Hd HD. unfold get_connection. destruct (find_conn (p_pool p) a q) as [fd|] eqn:Fc; [exists p, w, fd; split; [reflexivity|exact F]|].
  destruct r as [|f|f]; [exists p, w, (-1); split; [reflexivity|exact F]|eexists p, _, (-1); split; [reflexivity|exact F]|].
  destruct (free_fd w f); [|exists p, w, (-1); split; [reflexivity|exact F]].
  destruct F as (T & N & I & S & k & Hk & Ek). apply find_conn_none in Fc. destruct (pow_bound k Hk) as (B1 & B2 & B3).
  assert (Big : zlen (p_pool p) < 2048).
  { assert (Len : (length ((a, q) :: map key (p_pool p)) <= length D)%nat).
    { apply NoDup_incl_length; [constructor; assumption|]. intros x [<-|Hx]; [exact Hd|exact (I x Hx)]. }
    cbn [length] in Len. rewrite map_length in Len. unfold zlen, MB_MAX_CONNECTION_SIZE in *. lia. }
  pose proof (zlen_nonneg (p_pool p)).
  assert (App : forall size, zlen (p_pool p) < size -> (exists k, 0 <= k <= 7 /\ size = 16 * 2 ^ k) -> fits D (with_pool p (p_pool p ++ [mkC a q f]) size)).
  { intros size Hs Hsz. split; [exact T|]. cbn [p_pool with_pool p_size]. split; [rewrite map_app; apply nodup_snoc; assumption|].
    split; [rewrite map_app; apply incl_app; [exact I|intros x [<-|[]]; exact Hd]|]. split; [rewrite zlen_app; change (zlen [mkC a q f]) with 1; lia|exact Hsz]. }
  unfold unused_connection, put_conn. destruct (find_zero (p_pool p) 0) as [n|] eqn:Fz.
  - apply find_zero_bound in Fz. replace ((0 <=? n) && (n <? zlen (p_pool p))) with true by lia. cbn [rbind].
    eexists _, _, f. split; [reflexivity|]. split; [exact T|]. cbn [p_pool with_pool p_size].
    split; [apply nodup_zset; [lia|exact N|exact Fc]|]. split; [|split; [rewrite zset_zlen; exact S|exists k; split; assumption]].
    intros x Hx. apply in_map_iff in Hx. destruct Hx as (c & <- & Hc). apply in_zset in Hc. destruct Hc as [-> | Hc]; [exact Hd|apply I; apply in_map; exact Hc].
  - assert (Nn : (0 <=? zlen (p_pool p)) && (zlen (p_pool p) <? zlen (p_pool p)) = false) by lia.
    destruct (zlen (p_pool p) =? p_size p) eqn:E.
    + unfold MB_MAX_CONNECTION_SIZE. replace (2048 <=? p_size p) with false by lia. rewrite Nn, Z.eqb_refl. cbn [rbind].
      eexists _, _, f. split; [reflexivity|]. apply App; [lia|]. exists (k + 1). split; [lia|]. lia.
    + rewrite Nn, Z.eqb_refl. cbn [rbind]. eexists _, _, f. split; [reflexivity|]. apply App; [lia|exists k; split; assumption].
Qed.
(** With up to 2048 different devices the port never leaves its pool, however its connections come and go. *)
Theorem C110_defined_partial : forall D persist retries maxatt junk w os, zlen D <= 2048 ->
  (forall c r ts, In (MSend c r ts) os -> In (c_addr c, c_port c) D) ->
  exists x, m_run (new_tcp persist retries maxatt junk, w) os = Done x.
Proof.
  intros D persist retries maxatt junk w os HD A.
  assert (F : fits D (new_tcp persist retries maxatt junk)).
  { split; [reflexivity|]. split; [constructor|]. split; [intros x []|]. split; [cbn; unfold zlen; cbn; lia|]. exists 0. split; [lia|reflexivity]. }
  revert F. generalize (new_tcp persist retries maxatt junk). intros p. revert p w A.
  induction os as [|o os IH]; intros p w A F; cbn [m_run]; [eexists; reflexivity|].
  assert (S : exists p1 w1, m_step (p, w) o = Done (p1, w1) /\ fits D p1).
  { destruct o as [c r ts| | |a q|fd|fd]; cbn [m_step].
    - assert (Hd := A c r ts (or_introl eq_refl)). unfold send_command. destruct (c_enable c); cbn [negb]; [|eexists p, _; split; [reflexivity|exact F]].
      assert (T : p_tcp p = true) by apply F. rewrite T. cbv zeta.
      destruct (get_conn_fits D p (c_addr c) (c_port c) r (say w (Called (c_id c))) F Hd HD) as (p0 & w1 & fd & -> & F0). cbv beta iota delta [rbind].
      assert (F1 : fits D (with_pfd p0 fd)) by exact F0. destruct (p_tcp (with_pfd p0 fd) && (p_fd (with_pfd p0 fd) <? 0)); [eexists _, _; split; [reflexivity|exact F1]|].
      destruct (retry _ _ _ _ _ _) as [[w2 c2] res]. eexists _, _; split; [reflexivity|exact F1].
    - unfold idle. destruct (p_persist p); [eexists _, _; split; [reflexivity|exact F]|]. unfold close_port. destruct F as (T & N & I & S & K). rewrite T.
      eexists _, _; split; [reflexivity|]. split; [exact T|]. split; [constructor|]. split; [intros x []|]. split; [|exact K].
      cbn [p_pool with_scanning with_pool p_size]. change (zlen (@nil conn)) with 0. pose proof (zlen_nonneg (p_pool p)). lia.
    - eexists _, _; split; [reflexivity|exact F].
    - eexists _, _; split; [reflexivity|exact F].
    - eexists _, _; split; [reflexivity|exact F].
    - eexists _, _; split; [reflexivity|exact F]. }
  destruct S as (p1 & w1 & -> & F1). cbn [rbind]. apply IH; [|exact F1]. intros c r ts Hin. apply (A c r ts). right. exact Hin.
Qed.

(** *** where it fails *)
(** standard input, output and error are open, and the connection to the tag server *)
Definition proc : world := mkW (fun fd => if (0 <=? fd) && (fd <=? 3) then Some Foreign else None) [].
Definition plain (id a : Z) : cmd := mkCmd id true true a 502 0 0 0 0 0 0 0 0.
Definition fine : nat -> try := fun _ => mkT 12 9 0.
(** A non-persistent master: in its first scan (and for commands sent by events between scans) it closes the connection
    after each command but keeps it in the pool, so the next command goes to a closed descriptor, or to whatever file has got
    its number since, which is then closed as well. *)
Theorem C110_stale_refuted : exists p' w', 
  m_run (new_tcp false 1 0 false, proc) [MSend (plain 1 7) (Connects 4) fine; MSend (plain 2 7) (Connects 4) fine] = Done (p', w') /\
  In (Sent 2 4 None) (w_log w') /\ In (Ended 2 false) (w_log w').
Proof. eexists _, _. split; [vm_compute; reflexivity|]. cbn. tauto. Qed.
Theorem C110_foreign_refuted : exists p' w',
  m_run (new_tcp false 1 0 false, proc) [MSend (plain 1 7) (Connects 4) fine; MOpens 4; MSend (plain 2 7) (Connects 5) fine] = Done (p', w') /\
  In (Sent 2 4 (Some Foreign)) (w_log w') /\ In (Closed 4 (Some Foreign)) (w_log w').
Proof. eexists _, _. split; [vm_compute; reflexivity|]. cbn. tauto. Qed.
(** The 2049th device is stored at index -3 of the pool. *)
Theorem C110_full_refuted :
  m_run (new_tcp true 1 0 true, proc) (map (fun i => MSend (plain 1 (Z.of_nat i)) (Connects (Z.of_nat i + 4)) fine) (seq 0 2049)) = Undef UOob.
Proof. vm_compute. reflexivity. Qed.
Example C110_ex : exists p' w', let dev := fun id => (id, 502) in
  let os := [MSend (plain 7 7) (Connects 4) fine; MOpens 5; MSend (plain 8 8) (Connects 6) fine; MIdle; MDrop 8 502; MScan; MSend (plain 7 7) NoSocket fine] in
  about dev os /\ keeps_stdin os /\ m_run (new_tcp true 1 0 true, proc) os = Done (p', w') /\ In (Sent 8 6 (Some (Conn 8 502 true))) (w_log w').
Proof.
  eexists _, _. cbv zeta. split; [repeat constructor|]. split; [intros H; cbn in H; intuition discriminate|]. split; [vm_compute; reflexivity|]. cbn. tauto.
Qed.

(** ** C111: a lost connection is made again, a failed one costs nothing *)
Lemma retry_dead k : forall i ts p c w w' c' res a q, w_fds w (p_fd p) = Some (Conn a q false) -> retry k i ts p c w = (w', c', res) -> res <= 0.
Proof.
  induction k as [|k IH]; intros i ts p c w w' c' res a q F H; cbn [retry] in H; cbv zeta in H; rewrite F in H.
  - destruct (written_to _ _ =? 0); [injection H as <- <- <-; lia|]. destruct (written_to _ _ <? 0); [injection H as <- <- <-; lia|].
    cbn [got_from] in H. destruct (0 <? Z.min 0 _) eqn:E; [lia|]. injection H as <- <- <-. destruct (_ =? 0); cbn; unfold ME_TIMEOUT; lia.
  - destruct (written_to _ _ =? 0); [injection H as <- <- <-; lia|]. destruct (written_to _ _ <? 0); [injection H as <- <- <-; lia|].
    cbn [got_from] in H. destruct (0 <? Z.min 0 _) eqn:E; [lia|]. eapply IH in H; [exact H|exact F].
Qed.
Definition lost (dev : Z -> Z * Z) (a q fd : Z) (base : list act) (p : port) (w : world) : Prop :=
  fixed dev p w /\ find_conn (p_pool p) a q = Some fd /\ w_fds w fd = Some (Conn a q false) /\
  exists l, w_log w = base ++ l /\ forall id, dev id = (a, q) -> ~ In (Ended id true) l.
Lemma lost_step dev a q fd base p w o p' w' : lost dev a q fd base p w -> about dev [o] -> keeps_stdin [o] ->
  m_step (p, w) o = Done (p', w') -> lost dev a q fd base p' w'.
Proof.
  intros (F & C & W & l & L & N) A K E. assert (F' := fixed_step _ _ _ _ _ _ F A K E). split; [exact F'|]. clear F'.
  destruct F as (Pp & T & Z0 & NZ & _). apply Forall_inv in A. destruct o as [c r ts| | |x y|f|f]; cbn [m_step] in E.
  - destruct (send_command p c r ts w) as [[[[p1 c1] w1] res]|] eqn:S; cbn [rbind] in E; [|discriminate]. injection E as <- <-.
    destruct (c_enable c) eqn:En.
    2: { apply send_cases in S. destruct S as [(_ & -> & -> & -> & _)|(En' & _)]; [|congruence]. split; [exact C|]. split; [exact W|].
      exists (l ++ [Called (c_id c)]). cbn [w_log say]. rewrite L, app_assoc. split; [reflexivity|]. intros id Hd Hin. apply in_app_or in Hin.
      destruct Hin as [Hin|[Hin|[]]]; [exact (N id Hd Hin)|discriminate]. }
    assert (SL := send_log _ _ _ _ _ _ _ _ _ En S). destruct SL as (m & SL & SM). rewrite Forall_forall in SM.
    apply send_cases in S. destruct S as [(En' & _)|(_ & w2 & G & S)]; [congruence|].
    destruct G as [(_ & p0 & g & G & ->)|(T' & _)]; [|congruence].
    assert (GP := get_conn_port _ _ _ _ _ _ _ _ G). destruct GP as (GT & GPp & _).
    assert (X := get_conn_fixed p _ _ _ (say w (Called (c_id c))) _ _ _ Z0 NZ G). destruct X as (_ & _ & XF & XC & XK).
    split; [apply XF; exact C|].
    assert (W2 : w_fds w2 fd = Some (Conn a q false)) by (rewrite XK; [exact W|cbn; congruence]).
    assert (Cl : closes (with_pfd p0 g) = false) by (unfold closes; cbn; rewrite GPp, Pp, andb_false_r; reflexivity).
    split.
    { destruct S as [(_ & _ & -> & _)|(_ & w3 & R & ->)]; [exact W2|]. apply retry_log in R. destruct R as (_ & Rf & _). rewrite Cl in Rf. cbn [w_fds say]. rewrite Rf. exact W2. }
    exists (l ++ Called (c_id c) :: m ++ [Ended (c_id c) (0 <? res)]). split; [rewrite SL, L, <- app_assoc; reflexivity|].
    intros id Hd Hin. apply in_app_or in Hin. destruct Hin as [Hin|[Hin|Hin]]; [exact (N id Hd Hin)|discriminate|].
    apply in_app_or in Hin. destruct Hin as [Hin|[Hin|[]]]; [apply SM in Hin; exact Hin|]. injection Hin as <- Hr.
    rewrite A in Hd. injection Hd as Ea Eq. rewrite Ea, Eq in XC. destruct S as [(_ & _ & _ & ->)|(Eb & w3 & R & _)]; [discriminate|].
    cbn [p_tcp with_pfd p_fd] in Eb. rewrite GT, T in Eb. cbn in Eb.
    assert (g = fd) by (apply XF in C; rewrite XC in C by lia; congruence). subst g.
    apply retry_dead with (a := a) (q := q) in R; [lia|exact W2].
  - unfold idle in E. rewrite Pp in E. injection E as <- <-. split; [exact C|]. split; [exact W|]. exists l. split; assumption.
  - injection E as <- <-. split; [exact C|]. split; [exact W|]. exists l. split; assumption.
  - injection E as <- <-. split; [exact C|]. split; [|exists l; split; assumption]. cbn. rewrite W. cbn. destruct (_ && _); reflexivity.
  - injection E as <- <-. split; [exact C|]. destruct (free_fd w f) eqn:Fr; [|split; [exact W|exists l; split; assumption]].
    apply free_spec in Fr. split; [|exists l; split; assumption]. cbn. rewrite upd_other; [exact W|]. intros <-. destruct Fr. congruence.
  - injection E as <- <-. split; [exact C|]. destruct (w_fds w f) as [[]|] eqn:Fr; try (split; [exact W|exists l; split; assumption]).
    split; [|exists l; split; assumption]. cbn. rewrite upd_other; [exact W|]. intros <-. congruence.
Qed.
(** A persistent master that loses the connection to a device never gets an answer from it again: the connection stays in the
    pool, and no command, scan or event takes it out. *)
Theorem C111_lost_refuted : forall dev retries maxatt junk w os a q os' p1 w1 p2 w2 id0 fd0 f0,
  w_log w = [] -> w_fds w 0 <> None -> about dev os -> about dev os' -> keeps_stdin os -> keeps_stdin os' ->
  m_run (new_tcp true retries maxatt junk, w) os = Done (p1, w1) ->
  In (Sent id0 fd0 f0) (w_log w1) -> dev id0 = (a, q) ->
  m_run (p1, w1) (MDrop a q :: os') = Done (p2, w2) ->
  exists l, w_log w2 = w_log w1 ++ l /\ forall id, dev id = (a, q) -> ~ In (Ended id true) l.
Proof.
  intros dev retries maxatt junk w os a q os' p1 w1 p2 w2 id0 fd0 f0 L Z0 A A' K K' H1 Hs D H2.
  assert (F : fixed dev p1 w1).
  { eapply fixed_run; [|exact A|exact K|exact H1]. repeat split; try constructor; [exact Z0|]. rewrite L. intros ? ? ? []. }
  assert (S : sound dev p1 w1).
  { eapply sound_run; [|exact A| |exact H1]; [|left; reflexivity]. repeat split; try constructor; rewrite L; intros ? ?; cbn; tauto. }
  cbn [m_run m_step rbind] in H2.
  assert (C : find_conn (p_pool p1) a q = Some fd0) by (apply F in Hs; rewrite D in Hs; exact Hs).
  assert (Lo : lost dev a q fd0 (w_log w1) p1 (mkW (fun fd => dropped a q (w_fds w1 fd)) (w_log w1))).
  { split.
    - apply (fixed_step dev p1 w1 (MDrop a q)); [exact F|repeat constructor|intros [|[]]; discriminate|reflexivity].
    - split; [exact C|]. split; [|exists []; split; [symmetry; apply app_nil_r|intros ? ? []]].
      destruct S as (_ & P & _). unfold pool_ok in P. rewrite Forall_forall in P. apply find_conn_in in C. apply P in C. destruct C as (al & C). cbn in C. cbn [w_fds]. rewrite C. cbn.
      rewrite !Z.eqb_refl. reflexivity. }
  revert H2 Lo. generalize (mkW (fun fd => dropped a q (w_fds w1 fd)) (w_log w1)). intros wd. generalize (w_log w1). intros base.
  clear H1 Hs F S C. revert p1 wd. induction os' as [|o os' IH]; intros p1 wd H Lo; cbn [m_run] in H.
  - injection H as <- <-. destruct Lo as (_ & _ & _ & l & Hl & N). exists l. split; assumption.
  - destruct (m_step (p1, wd) o) as [[p3 w3]|] eqn:E; cbn [rbind] in H; [|discriminate]. inversion A' as [|? ? Ao A'']; subst.
    apply (IH A'' (fun Hin => K' (or_intror Hin)) p3 w3 H). eapply lost_step; [exact Lo|constructor; [exact Ao|constructor]| |exact E].
    intros [->|[]]. apply K'. left. reflexivity.
Qed.
Lemma retry_first k ts p c w f : w_fds w (p_fd p) = Some f -> 0 < t_write (ts 0%nat) -> 0 < got_from (Some f) (ts 0%nat) ->
  exists c', c_id c' = c_id c /\ retry k 0 ts p c w = (maybe_close p (say w (Sent (c_id c) (p_fd p) (Some f))), c', got_from (Some f) (ts 0%nat)).
Proof.
  intros F W G. destruct k; cbn [retry]; cbv zeta; rewrite F; unfold written_to; replace (t_write (ts 0%nat) =? 0) with false by lia;
  replace (t_write (ts 0%nat) =? 0) with false by lia; replace (t_write (ts 0%nat) <? 0) with false by lia;
  replace (0 <? got_from (Some f) (ts 0%nat)) with true by lia; (eexists; split; [|reflexivity]; destruct (0 <? t_code (ts 0%nat)); reflexivity).
Qed.
(** A non-persistent master connects again after each pause: if the device accepts the connection and answers, the command is answered. *)
Theorem C111_reconnect_partial : forall p w c fd ts, p_tcp p = true -> p_persist p = false -> c_enable c = true -> 
  let '(p1, w1) := idle p w in
  free_fd w1 fd = true -> 16 <= p_size p -> 0 < t_write (ts 0%nat) -> 0 < t_got (ts 0%nat) ->
  exists p' c' w', send_command (with_scanning p1 true) c (Connects fd) ts w1 = Done (p', c', w', t_got (ts 0%nat)) /\
    w_log w' = w_log w1 ++ [Called (c_id c); Sent (c_id c) fd (Some (Conn (c_addr c) (c_port c) true)); Ended (c_id c) true].
Proof.
  intros p w c fd ts T Pp En. unfold idle. rewrite Pp. unfold close_port. rewrite T. intros Fr Sz Wr Gt.
  set (w1 := fold_left _ _ _) in *. set (p1 := with_scanning (with_scanning (with_pool p [] (p_size p)) false) true).
  assert (G : get_connection p1 (c_addr c) (c_port c) (Connects fd) (say w1 (Called (c_id c))) =
    Done (with_pool p1 [mkC (c_addr c) (c_port c) fd] (p_size p), set_fd (say w1 (Called (c_id c))) fd (Some (Conn (c_addr c) (c_port c) true)), fd)).
  { unfold get_connection. change (p_pool p1) with (@nil conn). cbn [find_conn]. change (free_fd (say w1 (Called (c_id c))) fd) with (free_fd w1 fd). rewrite Fr.
    unfold unused_connection. change (p_pool p1) with (@nil conn). change (p_size p1) with (p_size p). cbn [find_zero]. change (zlen (@nil conn)) with 0.
    replace (0 =? p_size p) with false by lia. reflexivity. }
  unfold send_command. rewrite En. cbn [negb]. change (p_tcp p1) with (p_tcp p). rewrite T, G. cbn [rbind]. clear G.
  apply free_spec in Fr. destruct Fr as (Hfd & _). set (p2 := with_pfd _ fd). change (p_tcp p2) with (p_tcp p). change (p_fd p2) with fd.
  replace (fd <? 0) with false by lia. rewrite andb_false_r. set (w2 := set_fd _ _ _).
  destruct (retry_first (Z.to_nat (p_retries p2)) ts p2 c w2 (Conn (c_addr c) (c_port c) true)) as (c' & Ec & ->); [apply upd_same|exact Wr|exact Gt|].
  unfold maybe_close. cbn [p_scanning p2 with_pfd with_pool p1 with_scanning negb andb]. cbn [got_from].
  eexists _, _, _. split; [reflexivity|]. cbn. rewrite <- !app_assoc. cbn. rewrite Ec. replace (0 <? t_got (ts 0%nat)) with true by lia. reflexivity.
Qed.

(** Each attempt to connect to a device that refuses leaves a descriptor behind, *)
Theorem C111_leak_refuted : forall persist retries maxatt junk n, exists os p' w',
  length os = n /\ m_run (new_tcp persist retries maxatt junk, proc) os = Done (p', w') /\
  forall i, 4 <= i < 4 + Z.of_nat n -> w_fds w' i = Some Refused.
Proof.
  intros persist retries maxatt junk n.
  assert (X : forall n, exists os w', length os = n /\ m_run (new_tcp persist retries maxatt junk, proc) os = Done (if (n =? 0)%nat then new_tcp persist retries maxatt junk else with_pfd (new_tcp persist retries maxatt junk) (-1), w') /\
    (forall i, 4 <= i < 4 + Z.of_nat n -> w_fds w' i = Some Refused) /\ (forall i, 4 + Z.of_nat n <= i -> w_fds w' i = None)).
  { clear n. induction n as [|n IH].
    - exists [], proc. split; [reflexivity|]. split; [reflexivity|]. split; [lia|]. intros i Hi. cbn. replace ((0 <=? i) && (i <=? 3)) with false by lia. reflexivity.
    - destruct IH as (os & w & Ln & R & A & B). exists (os ++ [MSend (plain 1 7) (Fails (4 + Z.of_nat n)) fine]).
      exists (say (set_fd (say w (Called 1)) (4 + Z.of_nat n) (Some Refused)) (Ended 1 false)). split; [rewrite app_length, Ln; cbn; lia|].
      assert (App : forall x y o, m_run x os = Done y -> m_run x (os ++ [o]) = m_step y o).
      { clear. induction os as [|o' os IH]; intros x y o H; cbn [m_run app] in *; [injection H as ->; destruct (m_step y o); reflexivity|].
        destruct (m_step x o'); cbn [rbind] in *; [apply IH; exact H|discriminate]. }
      rewrite (App _ _ _ R). assert (Fr : free_fd (say w (Called 1)) (4 + Z.of_nat n) = true) by (apply free_spec; split; [lia|apply B; lia]).
      split; [|split].
      + destruct n; cbn [Nat.eqb m_step send_command plain c_enable negb p_tcp new_tcp with_pfd c_id]; unfold send_command; cbn -[free_fd Z.of_nat Z.add set_fd]; cbn -[free_fd Z.of_nat Z.add set_fd] in Fr; rewrite Fr; reflexivity.
      + intros i Hi. cbn [w_fds say set_fd]. destruct (Z.eq_dec i (4 + Z.of_nat n)) as [->|E]; [apply upd_same|rewrite upd_other by exact E; apply A; lia].
      + intros i Hi. cbn [w_fds say set_fd]. rewrite upd_other by lia. apply B. lia. }
  destruct (X n) as (os & w' & L & R & A & _). exists os, (if (n =? 0)%nat then new_tcp persist retries maxatt junk else with_pfd (new_tcp persist retries maxatt junk) (-1)), w'. repeat split; assumption.
Qed.
(** and nothing ever closes it. *)
Theorem C111_leak_kept_refuted : forall dev persist retries maxatt junk w os os' p1 w1 p2 w2 fd,
  w_log w = [] -> about dev (os ++ os') -> persist = true \/ while_scanning junk (os ++ os') ->
  m_run (new_tcp persist retries maxatt junk, w) os = Done (p1, w1) -> w_fds w1 fd = Some Refused ->
  m_run (p1, w1) os' = Done (p2, w2) -> w_fds w2 fd = Some Refused.
Proof.
  intros dev persist retries maxatt junk w os os' p1 w1 p2 w2 fd L A W H1 Hf H2.
  assert (S : sound dev (new_tcp persist retries maxatt junk) w) by (repeat split; try constructor; rewrite L; intros ? ?; cbn; tauto).
  assert (W' : p_persist (new_tcp persist retries maxatt junk) = true \/ while_scanning (p_scanning (new_tcp persist retries maxatt junk)) (os ++ os')) by exact W.
  revert S W' H1. generalize (new_tcp persist retries maxatt junk). intros p S W' H1.
  assert (X : sound dev p1 w1 /\ (p_persist p1 = true \/ while_scanning (p_scanning p1) os')).
  { clear H2 Hf W L. revert p w S W' H1. induction os as [|o os IH]; intros p w S W' H1; cbn [m_run app] in *; [injection H1 as <- <-; split; assumption|].
    destruct (m_step (p, w) o) as [[p3 w3]|] eqn:E; cbn [rbind] in H1; [|discriminate]. inversion A as [|? ? Ao A']; subst.
    assert (S3 : sound dev p3 w3).
    { eapply sound_step; [exact S| |exact E]. destruct o as [c r ts| | |a q|f|f]; try exact I. split; [exact Ao|].
      unfold closes. destruct W' as [-> | W']; [rewrite andb_false_r; reflexivity|]. cbn in W'. destruct W' as (-> & _). reflexivity. }
    apply (IH A' p3 w3 S3); [|exact H1]. apply step_flags in E. destruct E as (-> & ->).
    destruct W' as [W'|W']; [left; exact W'|right]. destruct o; cbn [while_scanning] in W'; tauto. }
  destruct X as (S1 & W1). apply Forall_app in A. destruct A as (_ & A). clear H1 S W W' p w L os.
  revert p1 w1 S1 W1 Hf H2. induction os' as [|o os IH]; intros p w S W Hf H; cbn [m_run] in H; [injection H as <- <-; exact Hf|].
  destruct (m_step (p, w) o) as [[p3 w3]|] eqn:E; cbn [rbind] in H; [|discriminate]. inversion A as [|? ? Ao A']; subst.
  assert (Cl : match o with MSend _ _ _ => closes p = false | _ => True end).
  { destruct o; try exact I. unfold closes. destruct W as [-> | W]; [rewrite andb_false_r; reflexivity|]. cbn in W. destruct W as (-> & _). reflexivity. }
  apply (IH A' p3 w3); [| | |exact H].
  - eapply sound_step; [exact S| |exact E]. destruct o; try exact I. split; assumption.
  - apply step_flags in E. destruct E as (-> & ->). destruct W as [W|W]; [left; exact W|right]. destruct o; cbn [while_scanning] in W; tauto.
  - clear IH H. destruct S as (T & P & N & _). destruct o as [c r ts| | |a q|f|f]; cbn [m_step] in E.
    + destruct (send_command p c r ts w) as [[[[p4 c4] w4] res]|] eqn:Se; cbn [rbind] in E; [|discriminate]. injection E as <- <-.
      apply send_cases in Se. destruct Se as [(_ & -> & -> & -> & _)|(En & w5 & G & Se)]; [exact Hf|].
      destruct G as [(_ & p0 & g & G & ->)|(T' & _)]; [|congruence]. assert (GP := get_conn_port _ _ _ _ _ _ _ _ G). destruct GP as (_ & Gp & Gs & _).
      apply (get_conn_ok p) in G; [|exact P]. destruct G as (_ & _ & G).
      assert (Hw : w_fds w5 fd = Some Refused) by (rewrite G; [exact Hf|cbn; congruence]).
      destruct Se as [(_ & _ & -> & _)|(_ & w6 & R & ->)]; [exact Hw|]. apply retry_log in R. destruct R as (_ & R & _). cbn [w_fds say]. rewrite R.
      replace (closes (with_pfd p0 g)) with (closes p) by (unfold closes; cbn; congruence). rewrite Cl. exact Hw.
    + unfold idle in E. destruct (p_persist p); [injection E as <- <-; exact Hf|]. unfold close_port in E. rewrite T in E. injection E as <- <-.
      destruct (close_all_own _ w N P) as (k & _ & _ & K). cbv zeta in K. rewrite K; [exact Hf|]. intros Hin. apply in_map_iff in Hin. destruct Hin as (c & <- & Hc).
      unfold pool_ok in P. rewrite Forall_forall in P. apply P in Hc. destruct Hc. congruence.
    + injection E as <- <-. exact Hf.
    + injection E as <- <-. cbn. rewrite Hf. reflexivity.
    + injection E as <- <-. destruct (free_fd w f) eqn:F; [|exact Hf]. apply free_spec in F. cbn. rewrite upd_other; [exact Hf|]. intros ->. destruct F. congruence.
    + injection E as <- <-. destruct (w_fds w f) as [[]|] eqn:F; try exact Hf. cbn. rewrite upd_other; [exact Hf|]. intros ->. congruence.
Qed.
Example C111_ex : exists p1 w1 p2 w2, let dev := fun id => (id, 502) in
  let os := [MSend (plain 7 7) (Connects 4) fine] in let os' := [MSend (plain 7 7) (Connects 5) fine; MIdle; MScan; MSend (plain 7 7) (Connects 5) fine] in
  about dev os /\ about dev os' /\ m_run (new_tcp true 1 0 true, proc) os = Done (p1, w1) /\ In (Ended 7 true) (w_log w1) /\
  m_run (p1, w1) (MDrop 7 502 :: os') = Done (p2, w2) /\ In (Ended 7 false) (w_log w2).
Proof.
  eexists _, _, _, _. cbv zeta. split; [repeat constructor|]. split; [repeat constructor|]. split; [vm_compute; reflexivity|]. split; [cbn; tauto|].
  split; [vm_compute; reflexivity|]. cbn. tauto.
Qed.
