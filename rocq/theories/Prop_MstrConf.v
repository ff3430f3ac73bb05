(** * C169-C171: the configuration of the master *)
From Verif Require Import Base Const Types Lib Opt Master MstrConf.

(** ** The notions of the claims *)

(** The value of the last option with this letter among the results of getopt_long *)
Fixpoint last_arg (ch : Z) (l : list found) : option name :=
  match l with
  | [] => None
  | f :: r => match last_arg ch r with Some v => Some v | None => if f_ch f =? ch then f_arg f else None end
  end.
(** The option occurs *)
Definition given (ch : Z) (l : list found) : Prop := exists f, In f l /\ f_ch f = ch.
(** The name of the configuration file: -C, or the file in ETC_DIR *)
Definition conf_path (etc : name) (l : list found) : name :=
  match last_arg 67 l with Some p => p | None => etc ++ str "/opendax.conf" end.

(** File permissions: may a process of user [u] in the groups [gs] write the file? *)
Definition may_write (f : cfile) (u : Z) (gs : list Z) : Prop :=
  u = 0 \/ (u = cf_uid f /\ Z.testbit (cf_mode f) 7 = true) \/
  (u <> cf_uid f /\ In (cf_gid f) gs /\ Z.testbit (cf_mode f) 4 = true) \/
  (u <> cf_uid f /\ ~ In (cf_gid f) gs /\ Z.testbit (cf_mode f) 1 = true).

(** ** Inversion of the configuration *)

Lemma ms_opts_inv l : forall s s', ms_opts s l = Done s' ->
  ms_config s' = (match last_arg 67 l with Some v => Some v | None => ms_config s end) /\
  ms_pid s' = (match last_arg 112 l with Some v => Some v | None => ms_pid s end) /\
  (given 68 l /\ ms_daemon s' = 1 \/ ~ given 68 l /\ ms_daemon s' = ms_daemon s).
Proof.
  induction l as [|f r IH]; intros s s' H; cbn [ms_opts last_arg] in *.
  - inversion H; subst. repeat split; trivial. right. split; trivial. intros (x & [] & _).
  - apply rbind_done in H as (s1 & H1 & H). destruct (IH _ _ H) as (A & B & D).
    assert (G : given 68 (f :: r) <-> f_ch f = 68 \/ given 68 r).
    { split.
      - intros (x & [<- | I] & E); [left; exact E | right; exists x; auto].
      - intros [E | (x & I & E)]; [exists f; cbn; auto | exists x; cbn; auto]. }
    rewrite A, B. rewrite G. clear A B G H IH.
    unfold ms_opt in H1.
    destruct (Z.eqb_spec (f_ch f) 67) as [E|N67].
    { destruct (f_arg f) as [v|]; [|discriminate]. inversion H1; subst s1. cbn [ms_config ms_pid ms_daemon] in *.
      rewrite E. cbn [Z.eqb Pos.eqb]. repeat split.
      - destruct (last_arg 67 r); reflexivity.
      - destruct (last_arg 112 r); reflexivity.
      - destruct D as [(a & b) | (a & b)]; [left; auto | right; split; trivial; intros [X|X]; [lia | auto]]. }
    destruct (Z.eqb_spec (f_ch f) 84) as [E|N84].
    { destruct (f_arg f) as [v|]; [|discriminate]. inversion H1; subst s1.
      rewrite E. cbn [Z.eqb Pos.eqb]. repeat split.
      - destruct (last_arg 67 r); reflexivity.
      - destruct (last_arg 112 r); reflexivity.
      - destruct D as [(a & b) | (a & b)]; [left; auto | right; split; trivial; intros [X|X]; [lia | auto]]. }
    destruct (Z.eqb_spec (f_ch f) 112) as [E|N112].
    { destruct (f_arg f) as [v|]; [|discriminate]. inversion H1; subst s1. cbn [ms_config ms_pid ms_daemon] in *.
      repeat split.
      - destruct (last_arg 67 r); reflexivity.
      - destruct (last_arg 112 r); reflexivity.
      - destruct D as [(a & b) | (a & b)]; [left; auto | right; split; trivial; intros [X|X]; [lia | auto]]. }
    destruct (Z.eqb_spec (f_ch f) 68) as [E|N68].
    { inversion H1; subst s1. cbn [ms_config ms_pid ms_daemon] in *. repeat split.
      - destruct (last_arg 67 r); reflexivity.
      - destruct (last_arg 112 r); reflexivity.
      - left. split; [auto|]. destruct D as [(_ & b) | (_ & b)]; exact b. }
    inversion H1; subst s1. repeat split.
    + destruct (last_arg 67 r); reflexivity.
    + destruct (last_arg 112 r); reflexivity.
    + destruct D as [(a & b) | (a & b)]; [left; auto | right; split; trivial; intros [X|X]; [lia | auto]].
Qed.

Lemma configure_inv etc ruid euid pw gr look argv m :
  ms_configure etc ruid euid pw gr look argv = Done (Some m) ->
  exists fs f sc, getopt true ms_short ms_long (tl argv) false = Done fs /\
    check_config ruid euid (look 0%nat (conf_path etc fs)) = 0 /\
    look 1%nat (conf_path etc fs) = Some f /\ cf_run f = Some sc /\ sc_ok sc = true /\
    add_all pw gr (sc_calls sc) [] = Done (Some (m_procs m)) /\
    m_pid m = (match last_arg 112 fs with Some p => p | None =>
               match l_string (sc_pid sc) with Some p => p | None => DEFAULT_PID end end) /\
    (m_daemon m = 1 /\ (given 68 fs \/ l_bool (sc_daemon sc) = true) \/
     m_daemon m = 0 /\ ~ given 68 fs /\ l_bool (sc_daemon sc) = false).
Proof.
  unfold ms_configure. intros H. apply rbind_done in H as (fs & H1 & H).
  apply rbind_done in H as (s & H2 & H). apply rbind_done in H as (x & H3 & H).
  destruct x as [[s' l]|]; [|discriminate]. inversion H; subst m; clear H.
  destruct (ms_opts_inv _ _ _ H2) as (A & B & D). cbn [ms_config ms_pid ms_daemon] in A, B, D.
  unfold ms_file in H3. cbv zeta in H3.
  assert (P : match ms_config s with Some p => p | None => etc ++ str "/opendax.conf" end = conf_path etc fs).
  { rewrite A. unfold conf_path. destruct (last_arg 67 fs); reflexivity. }
  rewrite P in H3.
  destruct (Z.eqb_spec (check_config ruid euid (look 0%nat (conf_path etc fs))) 0) as [E|]; [|discriminate].
  cbn [negb] in H3. destruct (look 1%nat (conf_path etc fs)) as [f|] eqn:L; [|discriminate].
  destruct (cf_run f) as [sc|] eqn:R; [|discriminate].
  apply rbind_done in H3 as (y & H4 & H3). destruct y as [l'|]; [|discriminate].
  destruct (sc_ok sc) eqn:O; [|discriminate]. cbn [negb] in H3. inversion H3; subst s' l'; clear H3.
  exists fs, f, sc. repeat (split; [first [assumption | reflexivity]|]).
  unfold ms_defaults. cbn [m_daemon m_pid m_procs ms_pid ms_daemon]. split.
  - rewrite B. destruct (last_arg 112 fs); [reflexivity|]. destruct (l_string (sc_pid sc)); reflexivity.
  - destruct D as [(G & ->) | (G & ->)]; cbn [Z.ltb Z.compare].
    + left. auto.
    + destruct (l_bool (sc_daemon sc)); cbn [Z.ltb Z.compare]; auto.
Qed.

Lemma check_inv ruid euid o : check_config ruid euid o = 0 -> euid = 0 -> ruid <> 0 ->
  exists f, o = Some f /\ cf_uid f = 0 /\ cf_gid f = 0 /\ Z.testbit (cf_mode f) 1 = false.
Proof.
  intros H -> N. unfold check_config in H. cbn [Z.eqb andb] in H.
  destruct (Z.eqb_spec ruid 0) as [|_]; [contradiction|]. cbn [negb] in H.
  destruct o as [f|]; [|discriminate]. exists f.
  destruct (Z.eqb_spec (cf_uid f) 0) as [E1|]; [|discriminate].
  destruct (Z.eqb_spec (cf_gid f) 0) as [E2|]; [|discriminate].
  cbn [negb orb] in H. destruct (Z.eqb_spec (Z.land (cf_mode f) 2) 0) as [E3|]; [|discriminate].
  repeat split; trivial.
  assert (X : Z.testbit (Z.land (cf_mode f) 2) 1 = false) by (rewrite E3; reflexivity).
  rewrite Z.land_spec in X. change (Z.testbit 2 1) with true in X. rewrite andb_true_r in X. exact X.
Qed.

(** ** C169: whose configuration file is run with the rights of root *)

(** Set-user-ID root, run by somebody else: the file that was looked at is root's and not
    writable by others, or the master gives up and has configured nothing *)
Theorem C169_looked_at : forall etc ruid euid pw gr look argv m,
  ms_configure etc ruid euid pw gr look argv = Done (Some m) -> euid = 0 -> ruid <> 0 ->
  exists fs f, getopt true ms_short ms_long (tl argv) false = Done fs /\
    look 0%nat (conf_path etc fs) = Some f /\ cf_uid f = 0 /\ cf_gid f = 0 /\
    Z.testbit (cf_mode f) 1 = false.
Proof.
  intros * H E N. destruct (configure_inv _ _ _ _ _ _ _ _ H) as (fs & f & sc & G & C & _).
  destruct (check_inv _ _ _ C E N) as (f0 & L & U). exists fs, f0. tauto.
Qed.

(** If the name stands for the same file both times and root's group may not write it, the file
    that is run can be written by nobody but root *)
Theorem C169_run_partial : forall etc ruid euid pw gr look argv m,
  ms_configure etc ruid euid pw gr look argv = Done (Some m) -> euid = 0 -> ruid <> 0 ->
  (forall p, look 1%nat p = look 0%nat p) ->
  (forall p f, look 0%nat p = Some f -> Z.testbit (cf_mode f) 4 = false) ->
  exists fs f sc, getopt true ms_short ms_long (tl argv) false = Done fs /\
    look 1%nat (conf_path etc fs) = Some f /\ cf_run f = Some sc /\
    add_all pw gr (sc_calls sc) [] = Done (Some (m_procs m)) /\
    cf_uid f = 0 /\ forall u gs, may_write f u gs -> u = 0.
Proof.
  intros * H E N S W. destruct (configure_inv _ _ _ _ _ _ _ _ H) as (fs & f & sc & G & C & L & R & _ & A & _).
  destruct (check_inv _ _ _ C E N) as (f0 & L0 & U & V & T).
  rewrite S, L0 in L. inversion L; subst f0. exists fs, f, sc. rewrite S. repeat (split; [assumption|]).
  intros u gs [M | [(M & _) | [(_ & _ & M) | (_ & _ & M)]]]; try congruence.
  rewrite (W _ _ L0) in M. discriminate.
Qed.

(** Nor is a file run that fails to load, raises an error, or passes something else than a table *)
Theorem C169_fatal : forall etc ruid euid pw gr look argv fs,
  getopt true ms_short ms_long (tl argv) false = Done fs ->
  (forall f sc, look 1%nat (conf_path etc fs) = Some f -> cf_run f = Some sc -> sc_ok sc = false \/ In None (sc_calls sc)) ->
  forall m, ms_configure etc ruid euid pw gr look argv <> Done (Some m).
Proof.
  intros * G F m H. destruct (configure_inv _ _ _ _ _ _ _ _ H) as (fs' & f & sc & G' & _ & L & R & O & A & _).
  rewrite G in G'. inversion G'; subst fs'. destruct (F _ _ L R) as [X | X]; [congruence|].
  revert A X. generalize (@nil mproc). induction (sc_calls sc) as [|e r IH]; intros l A X; [destruct X|].
  cbn [add_all] in A. apply rbind_done in A as (y & A1 & A). destruct y as [l'|]; [|discriminate].
  destruct X as [-> | X]; [cbn in A1; discriminate | exact (IH _ A X)].
Qed.

(** The cases of the claims: a file, and a command line that names it *)
Definition no_db : mdb := fun _ => None.
Definition tab (l : list (string * lval)) : entry :=
  Some (fun k => match List.find (fun p => String.eqb (fst p) k) l with Some p => snd p | None => LNil end).
Definition prog (e : list entry) : script := mkScript e true LNil LNil.
Definition shell : entry :=
  tab [("name"%string, LStr (str "x") 0); ("path"%string, LStr (str "/bin/sh") 0);
       ("args"%string, LStr (str "-c id") 0); ("uid"%string, LNum (str "0") 0); ("gid"%string, LNum (str "0") 0)].
Definition sh_proc : mproc :=
  mkProc (str "x") (str "/bin/sh") [CStr (str "/bin/sh"); CStr (str "-c"); CStr (str "id"); CNull]
         false (str "opendax") (str "opendax") 0 0 None 0 0 0.
Definition argv_C : list name := [str "opendax"; str "-C"; str "/home/me/conf"].

(** A file that the members of root's group may write is run *)
Theorem C169_group_refuted : exists f m,
  may_write f 1000 [0] /\
  ms_configure (str "/etc") 1000 0 no_db no_db (fun _ _ => Some f) argv_C = Done (Some m) /\ m_procs m = [sh_proc].
Proof.
  exists (mkFile 0 0 436 (Some (prog [shell]))), (mkM 0 DEFAULT_PID [sh_proc]). split.
  - right. right. left. cbn. repeat split; auto; lia.
  - split; [vm_compute; reflexivity | reflexivity].
Qed.

(** The file is looked at by name and then opened by name: who owns the directory can exchange
    it in between, and the file that is run is their own *)
Theorem C169_exchange_refuted : exists look f m,
  look 1%nat (str "/home/me/conf") = Some f /\ cf_uid f = 1000 /\ may_write f 1000 [] /\
  ms_configure (str "/etc") 1000 0 no_db no_db look argv_C = Done (Some m) /\ m_procs m = [sh_proc].
Proof.
  exists (fun k _ => match k with O => Some (mkFile 0 0 420 None) | _ => Some (mkFile 1000 1000 420 (Some (prog [shell]))) end),
         (mkFile 1000 1000 420 (Some (prog [shell]))), (mkM 0 DEFAULT_PID [sh_proc]).
  split; [reflexivity|]. split; [reflexivity|]. split; [right; left; split; reflexivity|].
  split; [vm_compute; reflexivity | reflexivity].
Qed.

(** A case of the theorems: root's own file is run, a user's file or one writable by all is not *)
Example C169_ex :
  ms_configure (str "/etc") 1000 0 no_db no_db (fun _ _ => Some (mkFile 0 0 420 (Some (prog [shell])))) argv_C
    = Done (Some (mkM 0 DEFAULT_PID [sh_proc])) /\
  ms_configure (str "/etc") 1000 0 no_db no_db (fun _ _ => Some (mkFile 1000 0 420 (Some (prog [shell])))) argv_C = Done None /\
  ms_configure (str "/etc") 1000 0 no_db no_db (fun _ _ => Some (mkFile 0 1000 420 (Some (prog [shell])))) argv_C = Done None /\
  ms_configure (str "/etc") 1000 0 no_db no_db (fun _ _ => Some (mkFile 0 0 422 (Some (prog [shell])))) argv_C = Done None /\
  ms_configure (str "/etc") 1000 0 no_db no_db (fun _ _ => None) argv_C = Done None.
Proof. repeat split; vm_compute; reflexivity. Qed.

(** ** C170: the command line, the file, the default *)

Theorem C170_pidfile : forall etc ruid euid pw gr look argv m,
  ms_configure etc ruid euid pw gr look argv = Done (Some m) ->
  exists fs f sc, getopt true ms_short ms_long (tl argv) false = Done fs /\
    look 1%nat (conf_path etc fs) = Some f /\ cf_run f = Some sc /\
    (forall p, last_arg 112 fs = Some p -> m_pid m = p) /\
    (last_arg 112 fs = None -> forall p, l_string (sc_pid sc) = Some p -> m_pid m = p) /\
    (last_arg 112 fs = None -> l_string (sc_pid sc) = None -> m_pid m = str "/var/run/opendax.pid").
Proof.
  intros * H. destruct (configure_inv _ _ _ _ _ _ _ _ H) as (fs & f & sc & G & _ & L & R & _ & _ & P & _).
  exists fs, f, sc. repeat (split; [assumption|]). rewrite P. split; [|split].
  - intros p ->. reflexivity.
  - intros -> p ->. reflexivity.
  - intros -> ->. reflexivity.
Qed.

Theorem C170_daemonize : forall etc ruid euid pw gr look argv m,
  ms_configure etc ruid euid pw gr look argv = Done (Some m) ->
  exists fs f sc, getopt true ms_short ms_long (tl argv) false = Done fs /\
    look 1%nat (conf_path etc fs) = Some f /\ cf_run f = Some sc /\
    (m_daemon m <> 0 <-> given 68 fs \/ l_bool (sc_daemon sc) = true).
Proof.
  intros * H. destruct (configure_inv _ _ _ _ _ _ _ _ H) as (fs & f & sc & G & _ & L & R & _ & _ & _ & D).
  exists fs, f, sc. repeat (split; [assumption|]).
  destruct D as [(-> & D) | (-> & D & D')]; split; intros X; try lia; try tauto.
  destruct X as [X|X]; [contradiction | congruence].
Qed.

(** The setting is called daemonize, the option --deamonize: "--daemonize" does nothing *)
Theorem C170_spelling_refuted : forall etc ruid euid pw gr look,
  ms_configure etc ruid euid pw gr look [str "opendax"; str "--daemonize"] =
  ms_configure etc ruid euid pw gr look [str "opendax"].
Proof. reflexivity. Qed.

Example C170_ex :
  let file := fun (_ : nat) (p : name) =>
    if name_eqb p (str "/etc/opendax.conf") then Some (mkFile 0 0 420 (Some (mkScript [shell] true (LBool true) (LStr (str "/run/f.pid") 0))))
    else if name_eqb p (str "b.conf") then Some (mkFile 0 0 420 (Some (prog []))) else None in
  ms_configure (str "/etc") 7 7 no_db no_db file [str "opendax"] = Done (Some (mkM 1 (str "/run/f.pid") [sh_proc])) /\
  ms_configure (str "/etc") 7 7 no_db no_db file [str "opendax"; str "-p"; str "c"; str "--pid=d"] = Done (Some (mkM 1 (str "d") [sh_proc])) /\
  ms_configure (str "/etc") 7 7 no_db no_db file [str "opendax"; str "--config"; str "b.conf"] = Done (Some (mkM 0 (str "/var/run/opendax.pid") [])) /\
  ms_configure (str "/etc") 7 7 no_db no_db file [str "opendax"; str "-DC"; str "b.conf"] = Done (Some (mkM 1 (str "/var/run/opendax.pid") [])) /\
  ms_configure (str "/etc") 7 7 no_db no_db file [str "opendax"; str "-C"; str "none"] = Done None.
Proof. cbv zeta. repeat split; vm_compute; reflexivity. Qed.

(** ** C171: the processes of the file *)

(** What the entry asks for: the fields of a process *)
Definition text_or (d : name) (v : lval) (s : name) : Prop := v = LNil /\ s = d \/ l_string v = Some s.
(** a uid or gid: the number of the table, if there is none or it is negative that of the user or
    group, and if that is unknown a negative number *)
Definition id_of (db : mdb) (v : lval) (who : name) (id : Z) : Prop :=
  (v <> LNil /\ 0 <= s32 (l_num v) /\ id = s32 (l_num v)) \/
  ((v = LNil \/ s32 (l_num v) < 0) /\ (db who = Some id \/ db who = None /\ id < 0)).
Record asked (pw gr : mdb) (t : string -> lval) (p : mproc) : Prop := {
  as_name : l_string (t "name"%string) = Some (mp_name p);
  as_path : l_string (t "path"%string) = Some (mp_path p);
  as_args : mp_args p = arglist_tok (mp_path p) (l_string (t "args"%string));
  as_restart : mp_restart p = l_bool (t "restart"%string);
  as_user : text_or (str "opendax") (t "user"%string) (mp_user p);
  as_group : text_or (str "opendax") (t "group"%string) (mp_group p);
  as_uid : id_of pw (t "uid"%string) (mp_user p) (mp_uid p);
  as_gid : id_of gr (t "gid"%string) (mp_group p) (mp_gid p);
  as_env : mp_env p = l_string (t "env"%string);
  as_delay : mp_delay p = l_num (t "delay"%string);
  as_cpu : mp_cpu p = l_num (t "cpu"%string);
  as_mem : mp_mem p = l_num (t "mem"%string) }.
Definition complete (e : entry) : bool :=
  match e with
  | Some t => match l_string (t "name"%string), l_string (t "path"%string) with Some _, Some _ => true | _, _ => false end
  | None => false
  end.

Lemma owner_inv v s : owner v = Done s -> text_or (str "opendax") v s.
Proof.
  unfold owner, text_or. destruct v; cbn [l_string]; intros H; inversion H; auto.
Qed.
Lemma resolve_inv db v who : id_of db v who (resolve db (number_or v) who).
Proof.
  unfold id_of, resolve, number_or. destruct v;
    match goal with |- context [?x <? 0] => destruct (Z.ltb_spec x 0) end;
    try (left; repeat split; [discriminate | assumption]); try lia; right;
    (split; [auto|]); destruct (db who); auto; right; split; trivial; lia.
Qed.
Lemma to_int_inv z n : to_int z = Done n -> n = z.
Proof. unfold to_int. destruct (fits32 z); intros H; inversion H; reflexivity. Qed.

Lemma add_process_inv pw gr e l l' : add_process pw gr e l = Done (Some l') ->
  exists t, e = Some t /\
    (complete e = true /\ (exists p, l' = l ++ [p] /\ asked pw gr t p) \/ complete e = false /\ l' = l).
Proof.
  unfold add_process, complete. destruct e as [t|]; [|discriminate]. intros H. exists t. split; [reflexivity|].
  destruct (l_string (t "name"%string)) as [nm|] eqn:Hn; [|inversion H; auto].
  destruct (l_string (t "path"%string)) as [pa|] eqn:Hp; [|inversion H; auto].
  left. split; [reflexivity|].
  apply rbind_done in H as (us & H1 & H). apply rbind_done in H as (gp & H2 & H).
  apply rbind_done in H as (de & H3 & H). apply rbind_done in H as (me & H4 & H). inversion H; subst l'; clear H.
  apply to_int_inv in H3, H4. subst de me.
  eexists. split; [reflexivity|].
  constructor; cbn [mp_name mp_path mp_args mp_restart mp_user mp_group mp_uid mp_gid mp_env mp_delay mp_cpu mp_mem];
    trivial; auto using owner_inv, resolve_inv.
Qed.

Lemma add_all_inv pw gr es : forall l l', add_all pw gr es l = Done (Some l') ->
  exists ps, l' = l ++ ps /\
    Forall2 (fun e p => exists t, e = Some t /\ asked pw gr t p) (filter complete es) ps.
Proof.
  induction es as [|e r IH]; intros l l' H; cbn [add_all filter] in *.
  - inversion H; subst. exists []. rewrite app_nil_r. auto.
  - apply rbind_done in H as (x & H1 & H). destruct x as [l1|]; [|discriminate].
    destruct (IH _ _ H) as (ps & -> & F).
    destruct (add_process_inv _ _ _ _ _ H1) as (t & E & [(C & p & -> & A) | (C & ->)]); rewrite C.
    + exists (p :: ps). rewrite <- app_assoc. split; [reflexivity|]. constructor; eauto.
    + exists ps. auto.
Qed.

(** The processes of the master are the complete entries of the file, in order, each with what
    its entry asks for *)
Theorem C171_processes : forall etc ruid euid pw gr look argv m,
  ms_configure etc ruid euid pw gr look argv = Done (Some m) ->
  exists fs f sc, getopt true ms_short ms_long (tl argv) false = Done fs /\
    look 1%nat (conf_path etc fs) = Some f /\ cf_run f = Some sc /\
    Forall2 (fun e p => exists t, e = Some t /\ asked pw gr t p) (filter complete (sc_calls sc)) (m_procs m).
Proof.
  intros * H. destruct (configure_inv _ _ _ _ _ _ _ _ H) as (fs & f & sc & G & _ & L & R & _ & A & _).
  exists fs, f, sc. repeat (split; [assumption|]).
  destruct (add_all_inv _ _ _ _ _ A) as (ps & E & F). cbn [app] in E. rewrite E. exact F.
Qed.

(** "Any problems with the configuration are fatal": an entry without a path is left out and
    the master starts the others *)
Theorem C171_fatal_refuted : forall pw gr t r l,
  l_string (t "name"%string) = None \/ l_string (t "path"%string) = None ->
  add_all pw gr (Some t :: r) l = add_all pw gr r l.
Proof.
  intros * H. cbn [add_all]. unfold add_process. destruct (l_string (t "name"%string)) as [nm|]; [|reflexivity].
  destruct H as [H | ->]; [discriminate | reflexivity].
Qed.

(** A user or group that is neither a string nor a number: strdup(NULL) *)
Theorem C171_user_refuted : forall pw gr t l nm path v,
  l_string (t "name"%string) = Some nm -> l_string (t "path"%string) = Some path ->
  t "user"%string = v -> v <> LNil -> l_string v = None ->
  add_process pw gr (Some t) l = Undef UNull.
Proof.
  intros * Hn Hp <- N S. unfold add_process. rewrite Hn, Hp. unfold owner.
  destruct (t "user"%string); cbn [l_string] in *; try discriminate; try contradiction; reflexivity.
Qed.

(** The memory limit and the delay are converted from double to int without a look at the range *)
Theorem C171_range_refuted : exists e, complete e = true /\
  forall pw gr l, add_process pw gr e l = Undef UOverflow.
Proof.
  exists (tab [("name"%string, LStr (str "x") 0); ("path"%string, LStr (str "y") 0); ("mem"%string, LNum (str "2147483648") 2147483648)]).
  split; [reflexivity|]. intros. reflexivity.
Qed.

(** The environment of a process is read after the Lua state that holds it is gone *)
Theorem C171_env_refuted : forall etc ruid euid pw gr look argv m,
  ms_configure etc ruid euid pw gr look argv = Done (Some m) ->
  forall fs f sc t e, getopt true ms_short ms_long (tl argv) false = Done fs ->
  look 1%nat (conf_path etc fs) = Some f -> cf_run f = Some sc ->
  In (Some t) (sc_calls sc) -> complete (Some t) = true -> l_string (t "env"%string) = Some e ->
  print_envs (m_procs m) = Undef UUaf.
Proof.
  intros * H fs f sc t e G L R I C E.
  destruct (C171_processes _ _ _ _ _ _ _ _ H) as (fs' & f' & sc' & G' & L' & R' & F).
  rewrite G in G'. inversion G'; subst fs'. rewrite L in L'. inversion L'; subst f'. rewrite R in R'. inversion R'; subst sc'.
  assert (J : In (Some t) (filter complete (sc_calls sc))) by (apply filter_In; auto). clear - F J E.
  induction F as [|x p xs ps (t' & X & A) F IH]; [destruct J|]. cbn [print_envs]. unfold print_env.
  destruct J as [-> | J].
  - inversion X; subst t'. rewrite (as_env _ _ _ _ A), E. reflexivity.
  - rewrite (IH J). destruct (mp_env p); reflexivity.
Qed.
(** Without one there is nothing to read *)
Theorem C171_noenv : forall l, Forall (fun p => mp_env p = None) l -> print_envs l = Done (map (fun _ => None) l).
Proof.
  induction 1 as [|p r E _ IH]; [reflexivity|]. cbn [print_envs map]. unfold print_env. rewrite E. cbn [rbind]. rewrite IH. reflexivity.
Qed.

Example C171_ex :
  let full := tab [("name"%string, LStr (str "srv") 0); ("path"%string, LStr (str "tagserver") 0);
                   ("args"%string, LStr (str "-v  -C t.conf") 0); ("restart"%string, LBool true);
                   ("user"%string, LStr (str "joe") 0); ("gid"%string, LNum (str "12") 12); ("env"%string, LStr (str "A=1") 0);
                   ("delay"%string, LNum (str "500") 500); ("cpu"%string, LStr (str "80") 80); ("mem"%string, LNum (str "9") 9)] in
  let db := fun n => if name_eqb n (str "joe") then Some 1001 else if name_eqb n (str "opendax") then Some 90 else None in
  let p := mkProc (str "srv") (str "tagserver") [CStr (str "tagserver"); CStr (str "-v"); CStr (str "-C"); CStr (str "t.conf"); CNull]
                  true (str "joe") (str "opendax") 1001 12 (Some (str "A=1")) 500 80 9 in
  ms_configure (str "/etc") 0 0 db db (fun _ _ => Some (mkFile 5 5 511 (Some (prog [full; tab []; shell])))) [str "opendax"]
    = Done (Some (mkM 0 DEFAULT_PID [p; sh_proc])) /\
  print_envs [p; sh_proc] = Undef UUaf /\ print_envs [sh_proc] = Done [None] /\
  add_process db db (tab [("name"%string, LStr (str "x") 0); ("path"%string, LStr (str "y") 0); ("user"%string, LBool true)]) [] = Undef UNull.
Proof. cbv zeta. repeat split; vm_compute; reflexivity. Qed.
