(** * Prop_ServerOpt: the configuration of the server (C108), and examples for C99-C107 *)
From Verif Require Import Base Const Types Lib Opt OptProofs Prop_Opt.

(** the options of the server, as attributes for [render] (a long name and a letter each) *)
Definition sv_attr (n : string) (ch : Z) (arg : bool) : attr :=
  mkAttr (str n) (Some (str n)) ch None VNull (if arg then CFG_ARG_REQUIRED else CFG_ARG_NONE) 0.
Definition sv_known : list attr :=
  [ sv_attr "configfile" 67 true; sv_attr "logtopics" 84 true; sv_attr "socketname" 83 true; sv_attr "serverip" 73 true;
    sv_attr "serverport" 80 true; sv_attr "mod-tag-exclude" 88 true; sv_attr "verbose" 118 false ].
(** a command line of these options (but not -T, see below) and other words *)
Definition sv_proper (i : item) : Prop :=
  match i with
  | Word w => hd_error w <> Some 45 \/ w = [45]
  | Setting a v st => In a sv_known /\ (a_name a = str "logtopics" -> st = Long \/ st = LongEq) /\ (st = Joined -> takes a = true -> v <> [])
  end.
Lemma sv_usable i : sv_proper i -> usable sv_short sv_long i.
Proof.
  destruct i as [a v st | w]; cbn [sv_proper usable]; [|auto]. intros (I & T & J).
  unfold sv_known in I. cbn [In] in I.
  destruct I as [<- | [<- | [<- | [<- | [<- | [<- | [<- | []]]]]]]];
  (split; [vm_compute; discriminate|]; destruct st;
   [ first [solve [destruct (T eq_refl); discriminate] | do 3 (split; [vm_compute; discriminate|]); split; [exact J | eexists; split; vm_compute; reflexivity]]
   | first [solve [destruct (T eq_refl); discriminate] | do 3 (split; [vm_compute; discriminate|]); split; [exact J | eexists; split; vm_compute; reflexivity]]
   | split; [vm_compute; discriminate|]; split; [vm_compute; intuition discriminate | vm_compute; reflexivity]
   | split; [vm_compute; discriminate|]; split; [vm_compute; intuition discriminate | vm_compute; reflexivity] ]).
Qed.

(** the last valid address given *)
Fixpoint given_ip (aton : inet_aton) (l : list item) : option Z :=
  match l with
  | [] => None
  | Word _ :: r => given_ip aton r
  | Setting a v _ :: r =>
    first (given_ip aton r) (if name_eqb (a_name a) (str "serverip") then aton v else None)
  end.
Definition orz (x : option Z) (y : Z) : Z := match x with Some v => v | None => y end.
Definition after_cmd (aton : inet_aton) (l : list item) (s : sconf) : sconf :=
  mkS (first (given l (str "configfile")) (sv_config s)) (first (given l (str "socketname")) (sv_sock s)) (orz (given_ip aton l) (sv_ip s))
      (match given l (str "serverport") with Some p => u32 (strtol0 p) | None => sv_port s end)
      (first (given l (str "mod-tag-exclude")) (sv_excl s)) (sv_minb s) (first (given l (str "logtopics")) (sv_topics s)).
Lemma sv_opts_items aton l s : Forall sv_proper l -> sv_opts aton s (flat_map found_of l) = Done (Some (after_cmd aton l s)).
Proof.
  revert s. induction l as [|i l IH]; intros s F; [destruct s; reflexivity|]. inversion F as [|? ? F1 F2]; subst.
  destruct i as [a v st | w]; cbn [flat_map found_of app].
  2:{ rewrite (IH s F2). reflexivity. }
  destruct F1 as (I & _). unfold sv_known in I. cbn [In] in I. cbn [sv_opts].
  destruct I as [<- | [<- | [<- | [<- | [<- | [<- | [<- | []]]]]]]]; unfold sv_opt; cbn [f_ch f_arg];
  change (takes (sv_attr _ _ true)) with true || change (takes (sv_attr _ _ false)) with false; cbn [sv_attr a_short Z.eqb Pos.eqb rbind]; rewrite (IH _ F2); do 2 f_equal;
  unfold after_cmd; cbn [given given_ip a_name sv_attr name_eqb];
  repeat match goal with |- context[name_eqb ?x ?y] => let b := eval vm_compute in (name_eqb x y) in change (name_eqb x y) with b end; cbn iota;
  cbn [sv_config sv_sock sv_ip sv_port sv_excl sv_minb sv_topics];
  destruct (given l (str "configfile")), (given l (str "socketname")), (given_ip aton l), (given l (str "serverport")), (given l (str "mod-tag-exclude")), (given l (str "logtopics"));
  cbn [first orz]; try reflexivity; destruct (aton v); reflexivity.
Qed.

(** ** C108 *)
(** the file read, and the sources of each value in their order *)
Definition sv_path (etc : name) (l : list item) : name :=
  match given l (str "configfile") with Some p => p | None => etc ++ str "/tagserver.conf" end.
Definition nonzero (x : option Z) : option Z := match x with Some 0 => None | _ => x end.
Theorem C108_precedence_partial : forall etc aton lua items prog,
  Forall sv_proper items ->
  (forall g, lua (sv_path etc items) = Some g -> fits32 (g_minb g) = true /\ fits32 (g_port g) = true) ->
  let file {A} (f : sglobals -> A) : option A := match lua (sv_path etc items) with Some g => Some (f g) | None => None end in
  let join {A} (x : option (option A)) : option A := match x with Some y => y | None => None end in
  exists s,
    opt_configure etc aton lua (prog :: flat_map render items) = Done (Some s) /\
    sv_sock s = first (given items (str "socketname")) (first (join (file g_sock)) (Some (str "/tmp/opendax"))) /\
    sv_excl s = first (given items (str "mod-tag-exclude")) (join (file g_excl)) /\
    sv_topics s = given items (str "logtopics") /\
    sv_port s = orz (nonzero (option_map (fun p => u32 (strtol0 p)) (given items (str "serverport"))))
                  (orz (nonzero (option_map u32 (file g_port))) 7777) /\
    sv_ip s = orz (nonzero (given_ip aton items))
                (orz (match join (file g_ip) with Some c => aton c | None => None end) 0) /\
    sv_minb s = orz (nonzero (file g_minb)) 5.
Proof.
  intros etc aton lua items prog F H file join. unfold opt_configure. cbn [tl].
  rewrite getopt_usable; [|refine (Forall_impl _ _ F); intros i; apply sv_usable]. cbn [rbind]. rewrite (sv_opts_items aton items _ F). cbn [rbind after_cmd sv_config first].
  set (s0 := after_cmd aton items _).
  assert (PT : match first (given items (str "configfile")) None with Some p => p | None => etc ++ str "/tagserver.conf" end = sv_path etc items).
  { unfold sv_path. destruct (given items (str "configfile")); reflexivity. }
  change (sv_config s0) with (first (given items (str "configfile")) None). rewrite PT.
  assert (NZ : forall x d, (if x =? 0 then d else x) = orz (nonzero (Some x)) d) by (intros x d; destruct x; reflexivity).
  assert (N0 : forall o (d : Z), (if (match o with Some p => p | None => 0 end) =? 0 then d else match o with Some p => p | None => 0 end) = orz (nonzero o) d).
  { intros [x|] d; [destruct x; reflexivity | reflexivity]. }
  unfold file, join. destruct (lua (sv_path etc items)) as [g|] eqn:L.
  - destruct (H g eq_refl) as (Hm & Hp). unfold sv_file, to_int. rewrite Hm, Hp. change (sv_minb s0) with 0. cbn [Z.eqb rbind].
    assert (P : exists p, (if sv_port s0 =? 0 then Done (u32 (g_port g)) else Done (sv_port s0)) = Done p /\
                (if p =? 0 then 7777 else p) = orz (nonzero (option_map (fun p => u32 (strtol0 p)) (given items (str "serverport")))) (orz (nonzero (Some (u32 (g_port g)))) 7777)).
    { unfold s0, after_cmd. cbn [sv_port rbind]. destruct (given items (str "serverport")) as [x|]; cbn [option_map].
      - destruct (u32 (strtol0 x)) eqn:E; cbn [Z.eqb nonzero orz]; (eexists; split; [reflexivity|]); [apply NZ | reflexivity..].
      - cbn [Z.eqb nonzero orz]. eexists. split; [reflexivity | apply NZ]. }
    destruct P as (p & -> & P). cbn [rbind]. eexists. split; [reflexivity|]. unfold sv_defaults. cbn [sv_sock sv_excl sv_topics sv_port sv_ip sv_minb option_map].
    unfold s0, after_cmd. cbn [sv_sock sv_excl sv_topics sv_ip].
    split; [destruct (given items (str "socketname")); [reflexivity|]; destruct (g_sock g); reflexivity|].
    split; [destruct (given items (str "mod-tag-exclude")); reflexivity|].
    split; [destruct (given items (str "logtopics")); reflexivity|]. split; [exact P|]. split; [|apply NZ].
    destruct (given_ip aton items) as [x|]; cbn [orz]; [destruct x|]; cbn [Z.eqb nonzero orz]; try reflexivity; destruct (g_ip g) as [c|]; try reflexivity; destruct (aton c); reflexivity.
  - cbn [rbind]. eexists. split; [reflexivity|]. unfold sv_defaults. cbn [sv_sock sv_excl sv_topics sv_port sv_ip sv_minb option_map]. unfold s0, after_cmd. cbn [sv_sock sv_excl sv_topics sv_ip sv_port sv_minb].
    split; [destruct (given items (str "socketname")); reflexivity|].
    split; [destruct (given items (str "mod-tag-exclude")); reflexivity|].
    split; [destruct (given items (str "logtopics")); reflexivity|]. split; [|split].
    + destruct (given items (str "serverport")) as [x|]; cbn [option_map]; [apply NZ | reflexivity].
    + destruct (given_ip aton items) as [x|]; cbn [orz nonzero]; [destruct x; reflexivity | reflexivity].
    + reflexivity.
Qed.
(** a port 0 (or a word that is no number) and the address 0.0.0.0 given on the command line lose against the file *)
Theorem C108_zero_refuted : forall etc aton lua g prog w,
  lua (etc ++ str "/tagserver.conf") = Some g -> fits32 (g_minb g) = true -> fits32 (g_port g) = true -> u32 (g_port g) <> 0 ->
  aton (str "0.0.0.0") = Some 0 -> strtol0 w = 0 ->
  (exists s, opt_configure etc aton lua [prog; str "-P"; w] = Done (Some s) /\ sv_port s = u32 (g_port g)) /\
  (forall c ip, g_ip g = Some c -> aton c = Some ip ->
     exists s, opt_configure etc aton lua [prog; str "-I"; str "0.0.0.0"] = Done (Some s) /\ sv_ip s = ip).
Proof.
  intros etc aton lua g prog w L Hm Hp NZ A0 W. split.
  - destruct (C108_precedence_partial etc aton lua [Setting (sv_attr "serverport" 80 true) w Apart] prog) as (s & E & _ & _ & _ & P & _).
    { constructor; [|constructor]. cbn [sv_proper]. split; [unfold sv_known; cbn [In]; tauto|]. split; [vm_compute; discriminate | discriminate]. }
    { intros g' G. assert (g' = g) by (unfold sv_path in G; cbn [given] in G; replace (name_eqb _ _) with false in G by reflexivity; congruence). subst. auto. }
    exists s. split; [exact E|]. rewrite P. unfold sv_path. cbn [given]. replace (name_eqb (a_name (sv_attr "serverport" 80 true)) (str "configfile")) with false by reflexivity. rewrite L.
    change (name_eqb (a_name (sv_attr "serverport" 80 true)) (str "serverport")) with true. change (takes (sv_attr "serverport" 80 true)) with true. cbn iota. cbn [option_map]. rewrite W. change (u32 0) with 0. cbn [nonzero orz].
    destruct (u32 (g_port g)); [congruence | reflexivity..].
  - intros c ip G A. destruct (C108_precedence_partial etc aton lua [Setting (sv_attr "serverip" 73 true) (str "0.0.0.0") Apart] prog) as (s & E & _ & _ & _ & _ & P & _).
    { constructor; [|constructor]. cbn [sv_proper]. split; [unfold sv_known; cbn [In]; tauto|]. split; [vm_compute; discriminate | discriminate]. }
    { intros g' G'. assert (g' = g) by (unfold sv_path in G'; cbn [given] in G'; replace (name_eqb _ _) with false in G' by reflexivity; congruence). subst. auto. }
    exists s. split; [exact E|]. rewrite P. unfold sv_path. cbn [given given_ip first]. replace (name_eqb (a_name (sv_attr "serverip" 73 true)) (str "configfile")) with false by reflexivity. rewrite L.
    change (name_eqb (a_name (sv_attr "serverip" 73 true)) (str "serverip")) with true. cbn iota. rewrite A0. cbn [nonzero orz]. rewrite G, A. reflexivity.
Qed.
(** -T, documented like --logtopics, is not known: the topics are not set *)
Theorem C108_topics_refuted : forall etc aton prog t lua,
  hd_error t <> Some 45 -> lua (etc ++ str "/tagserver.conf") = None ->
  exists s, opt_configure etc aton lua [prog; str "-T"; t] = Done (Some s) /\ sv_topics s = None.
Proof.
  intros etc aton prog t lua H L. unfold opt_configure. cbn [tl]. change (str "-T") with [45; 84]. rewrite getopt_short; [|discriminate].
  change (short_args true sv_short [84] (@hd_error name [t])) with (Done ([mkFound QMARK None []], false)). cbn [rbind fst snd].
  rewrite getopt_word; [|left; exact H]. cbn [getopt rbind app sv_opts]. change (sv_opt aton ?s (mkFound QMARK None [])) with (Done (Some s)). cbn [rbind sv_opts sv_config]. rewrite L.
  cbn [rbind]. eexists. split; [reflexivity | reflexivity].
Qed.
(** a port above 65535 is cut to 16 bits without an error: the server listens somewhere else *)
Theorem C108_port_refuted : forall etc aton prog lua,
  lua (etc ++ str "/tagserver.conf") = None ->
  exists s, opt_configure etc aton lua [prog; str "-P"; str "73313"] = Done (Some s) /\ sv_port s = 73313 /\ listen_port s = 7777.
Proof.
  intros etc aton prog lua L. destruct (C108_precedence_partial etc aton lua [Setting (sv_attr "serverport" 80 true) (str "73313") Apart] prog) as (s & E & _ & _ & _ & P & _).
  { constructor; [|constructor]. cbn [sv_proper]. split; [unfold sv_known; cbn [In]; tauto|]. split; [vm_compute; discriminate | discriminate]. }
  { intros g G. unfold sv_path in G. cbn [given] in G. replace (name_eqb _ _) with false in G by reflexivity. congruence. }
  exists s. split; [exact E|]. assert (Q : sv_port s = 73313) by (rewrite P; reflexivity). split; [exact Q|]. unfold listen_port. rewrite Q. reflexivity.
Qed.

(** ** Examples *)
(** the MQTT module (mqttopts.c:346-347), with a callback on the attribute added last *)
Definition mq_flags : Z := Z.lor (Z.lor CFG_CMDLINE CFG_MODCONF) CFG_ARG_REQUIRED.
Definition mq_attr1 : attr := mkAttr (str "broker_ip") (Some (str "broker-ip")) 98 (Some (str "127.0.0.1")) VNull mq_flags 0.
Definition mq_attr2 : attr := mkAttr (str "broker_port") (Some (str "broker-port")) 112 (Some (str "1883")) VNull mq_flags 4.
Definition mq_conf : conf := mkConf (mq_attr2 :: mq_attr1 :: rev (map attr_of (std_attrs (str ".") (str "mqtt")))) (str "mqtt") 0 [].
Lemma mq_prepared : prepared (str ".") (str "mqtt") mq_conf.
Proof.
  set (l0 := rev (map attr_of (std_attrs (str ".") (str "mqtt")))).
  set (c0 := mkConf l0 (str "mqtt") 0 []). set (c1 := mkConf (mq_attr1 :: l0) (str "mqtt") 0 []).
  set (a2 := mkAttr (str "broker_port") (Some (str "broker-port")) 112 (Some (str "1883")) VNull mq_flags 0).
  set (c2 := mkConf (a2 :: mq_attr1 :: l0) (str "mqtt") 0 []).
  assert (P0 : prepared (str ".") (str "mqtt") c0) by (apply (P_init _ _ c0 0); vm_compute; reflexivity).
  assert (P1 : prepared (str ".") (str "mqtt") c1)
    by (apply (P_add _ _ c0 (Some (str "broker_ip")) (Some (str "broker-ip")) 98 mq_flags (Some (str "127.0.0.1")) c1 0 P0); vm_compute; reflexivity).
  assert (P2 : prepared (str ".") (str "mqtt") c2)
    by (apply (P_add _ _ c1 (Some (str "broker_port")) (Some (str "broker-port")) 112 mq_flags (Some (str "1883")) c2 0 P1); vm_compute; reflexivity).
  apply (P_callback _ _ c2 1 (str "broker_port") 4 mq_conf 0 P2). vm_compute. reflexivity.
Qed.
(** mqtt --broker-port=1884 -O 20000 word -v, with a file that sets the address, the port and the server *)
Definition mq_timeout : attr := attr_of (std "msgtimeout" 79 mq_flags (Some DEFAULT_TIMEOUT)).
Definition mq_verbose : attr := attr_of (std "verbose" 118 CFG_CMDLINE None).
Definition mq_items : list item :=
  [ Setting mq_attr2 (str "1884") LongEq; Setting mq_timeout (str "20000") Apart; Word (str "word"); Setting mq_verbose [] Joined ].
Definition mq_file : luafile := fun path _ _ =>
  if name_eqb path (str "./mqtt.conf")
  then Some (fun n => if name_eqb n (str "broker_ip") then LStr (str "10.0.0.1") else if name_eqb n (str "broker_port") then LStr (str "99")
                      else if name_eqb n (str "name") then LStr (str "other") else LNone)
  else None.
Lemma mq_plain : Forall ordinary (c_attrs mq_conf).
Proof. unfold mq_conf. cbn [c_attrs]. repeat (constructor; [split; [right; vm_compute; auto|]; split; [vm_compute; discriminate | reflexivity]|]). constructor. Qed.
Lemma mq_proper : Forall (proper mq_conf) mq_items.
Proof.
  assert (L : forall a, In a [mq_attr2; mq_timeout; mq_verbose] -> In a (c_attrs mq_conf)).
  { intros a [<- | [<- | [<- | []]]]; unfold mq_conf; cbn [c_attrs std_attrs map rev app In]; unfold mq_timeout, mq_verbose; tauto. }
  unfold mq_items. constructor; [|constructor; [|constructor; [|constructor; [|constructor]]]].
  - split; [apply L; cbn [In]; tauto|]. split; [reflexivity|]. split; [vm_compute; discriminate|]. split; [vm_compute; discriminate|]. split; [discriminate|].
    intros _. eexists. split; [reflexivity|]. split; [discriminate | vm_compute; intuition discriminate].
  - split; [apply L; cbn [In]; tauto|]. split; [reflexivity|]. split; [vm_compute; discriminate|]. split; [vm_compute; discriminate|]. split; [discriminate|].
    intros [F | F]; discriminate.
  - left. vm_compute. discriminate.
  - split; [apply L; cbn [In]; tauto|]. split; [reflexivity|]. split; [vm_compute; discriminate|]. split; [vm_compute; discriminate|]. split; [vm_compute; discriminate|].
    intros [F | F]; discriminate.
Qed.
Example C99_ex : exists c' r,
  configure (str ".") mq_file true mq_conf (str "mqtt" :: map str ["--broker-port=1884"; "-O"; "20000"; "word"; "-v"]%string) (Z.lor CFG_CMDLINE CFG_MODCONF) = Done (c', Some r) /\
  flat_map render mq_items = map str ["--broker-port=1884"; "-O"; "20000"; "word"; "-v"]%string /\
  map (fun n => get_attr c' (str n)) ["broker_port"; "broker_ip"; "server"; "verbose"; "config"]%string =
    [Done (Some (str "1884")); Done (Some (str "10.0.0.1")); Done (Some (str "LOCAL")); Done (Some (str "Yes")); Done None] /\
  r = 0 /\ c_mod c' = str "mqtt" /\ get_attr c' (str "name") = Done (Some (str "other")) /\ c_timeout c' = 20000 /\
  c_calls c' = [(4, str "broker_port", Some (str "1884"))].
Proof. eexists. eexists. split; [vm_compute; reflexivity|]. repeat (split; [vm_compute; reflexivity|]). vm_compute. reflexivity. Qed.
(** -C: the attribute config is freed *)
Example C102_ex : early mq_conf [Setting (attr_of (std "config" 67 (Z.lor CFG_CMDLINE CFG_ARG_REQUIRED) None)) (str "./mqtt.conf") Joined] (str "config") = Some (str "./mqtt.conf").
Proof. vm_compute. reflexivity. Qed.
(** any command line: unknown options and letters, a value that looks like an option *)
Example C105_ex : exists c', parse_commandline true mq_conf (map str ["mqtt"; "-z"; "--nothing=3"; "-vb"; "-p"; "--"; "-v"]%string) = Done c' /\
  get_attr c' (str "broker_ip") = Done (Some (str "-p")) /\ get_attr c' (str "verbose") = Done (Some (str "Yes")) /\ get_attr c' (str "broker_port") = Done None.
Proof. eexists. split; [vm_compute; reflexivity|]. repeat (split; [vm_compute; reflexivity|]). vm_compute. reflexivity. Qed.
Example C107_ex : exists c', set_attr_by_name mq_conf (str "server") (Some (str "REMOTE")) = Done (c', 0) /\ get_attr c' (str "server") = Done (Some (str "REMOTE")).
Proof. eexists. split; vm_compute; reflexivity. Qed.
Example C108_ex : exists s,
  Forall sv_proper [Setting (sv_attr "socketname" 83 true) (str "/run/dax") Long; Setting (sv_attr "verbose" 118 false) [] Apart] /\
  opt_configure (str ".") (fun _ => None) (fun p => if name_eqb p (str "./tagserver.conf") then Some (mkG 0 (Some (str "/tmp/x")) 8000 None (Some (str "a b"))) else None)
    (map str ["tagserver"; "--socketname"; "/run/dax"; "-v"]%string) = Done (Some s) /\
  sv_sock s = Some (str "/run/dax") /\ sv_port s = 8000 /\ sv_excl s = Some (str "a b") /\ sv_minb s = 5.
Proof.
  eexists. split; [|split; [vm_compute; reflexivity | repeat (split; [vm_compute; reflexivity|]); vm_compute; reflexivity]].
  constructor; [|constructor; [|constructor]]; (split; [unfold sv_known; cbn [In]; tauto|]; split; [intros; auto; vm_compute in *; discriminate | discriminate]).
Qed.
