(** * Prop_Opt: the configuration of a module (C99-C105) *)
From Verif Require Import Base Const Types Lib Opt OptProofs.

(** What a module may do between dax_init and dax_configure *)
Inductive prepared (etc m : name) : conf -> Prop :=
| P_init c r : dax_init etc m = Done (c, r) -> prepared etc m c
| P_add c n lo so fl def c' r : prepared etc m c -> add_attribute c n lo so fl def = Done (c', r) -> prepared etc m c'
| P_set c n v c' r : prepared etc m c -> set_attr_by_name c n v = Done (c', r) -> prepared etc m c'
| P_callback c fuel n cb c' r : prepared etc m c -> attr_callback fuel c n cb = Some (c', r) -> prepared etc m c'.

(** ** Command lines as a user means them *)
Definition takes (a : attr) : bool := match arg_of (a_flags a) with NoArg => false | _ => true end.
Inductive style := Apart (* -x value *) | Joined (* -xvalue *) | Long (* --name value *) | LongEq (* --name=value *).
Inductive item := Setting (a : attr) (v : name) (st : style) | Word (w : name).
Definition long_name (a : attr) : name := match a_long a with Some n => n | None => [] end.
Definition render (i : item) : list name :=
  match i with
  | Word w => [w]
  | Setting a v st =>
    match st with
    | Apart => if takes a then [[45; a_short a]; v] else [[45; a_short a]]
    | Joined => if takes a then [45 :: a_short a :: v] else [[45; a_short a]]
    | Long => if takes a then [str "--" ++ long_name a; v] else [str "--" ++ long_name a]
    | LongEq => if takes a then [str "--" ++ long_name a ++ str "=" ++ v] else [str "--" ++ long_name a]
    end
  end.
(** the option is one for the command line, with a letter and, for the long styles, a name; its
    argument is not optional; the other words are not options *)
Definition proper (c : conf) (i : item) : Prop :=
  match i with
  | Word w => hd_error w <> Some 45 \/ w = [45]
  | Setting a v st =>
    In a (c_attrs c) /\ has (a_flags a) CFG_CMDLINE = true /\ arg_of (a_flags a) <> OptArg /\ a_short a <> 0 /\
    (st = Joined -> takes a = true -> v <> []) /\
    (st = Long \/ st = LongEq -> exists n, a_long a = Some n /\ n <> [] /\ ~ In 61 n)
  end.
(** the last value given on the command line to the attribute of a name *)
Fixpoint given (l : list item) (n : name) : option name :=
  match l with
  | [] => None
  | Word _ :: r => given r n
  | Setting a v _ :: r =>
    match given r n with
    | Some x => Some x
    | None => if name_eqb (a_name a) n then Some (if takes a then v else YES) else None
    end
  end.

(** ** The value an attribute should have *)
Definition first {A} (x y : option A) : option A := match x with Some _ => x | None => y end.
Definition keeps_value (a : attr) : bool := negb (has (a_flags a) CFG_NO_VALUE).
Definition before (a : attr) : option name := match a_val a with VHeap s | VLit s => Some s | VNull | VFreed => None end.
Definition from_cmd (l : list item) (a : attr) : option name := if keeps_value a then given l (a_name a) else None.
Definition from_file (g : name -> lval) (a : attr) : option name :=
  if keeps_value a then match lua_text (g (a_name a)) with Some s => Some (if takes a then s else YES) | None => None end else None.
(** command line, then what the program set, then the file, then the default *)
Definition expected (etc : name) (l : list item) (g : name -> lval) (a : attr) : option name :=
  first (from_cmd l a) (first (before a)
    (if name_eqb (a_name a) (str "confdir") then Some etc else first (from_file g a) (a_def a))).
(** known before the file is read *)
Definition early (c : conf) (l : list item) (n : name) : option name :=
  match find_attr (c_attrs c) n with Some a => first (from_cmd l a) (before a) | None => None end.
Definition dir_of (etc : name) (c : conf) (l : list item) : name :=
  match early c l (str "confdir") with Some d => d | None => etc end.
Definition mod_of (c : conf) (l : list item) : name :=
  match early c l (str "name") with Some d => d | None => c_mod c end.
Definition path_of (etc : name) (c : conf) (l : list item) : name :=
  match early c l (str "config") with
  | Some p => p
  | None => dir_of etc c l ++ str "/" ++ mod_of c l ++ str ".conf"
  end.
Definition globals (r : option (name -> lval)) : name -> lval := match r with Some g => g | None => fun _ => LNone end.

(** ** The invariant of the registry *)
Record std_in (l : list attr) (n : string) (def : bool) : Prop := {
  si_attr : exists a, find_attr l (str n) = Some a /\ arg_of (a_flags a) = ReqArg /\ keeps_value a = true /\ (def = true -> a_def a <> None) /\ has (a_flags a) CFG_CMDLINE = true
}.
Record prep (l : list attr) : Prop := {
  p_reg : reg_ok l;
  p_vals : Forall (fun a => match a_val a with VNull | VHeap _ => True | _ => False end) l;
  p_config : std_in l "config" false;
  p_confdir : std_in l "confdir" true;
  p_name : std_in l "name" true;
  p_time : std_in l "msgtimeout" true
}.
Lemma std_in_cons l n d b : std_in l n d -> (forall a, In a l -> a_name a <> a_name b) -> std_in (b :: l) n d.
Proof.
  intros [(a & A & B)] F. constructor. exists a. split; [|exact B]. cbn [find_attr]. destruct (find_attr_in _ _ _ A) as (I & N).
  destruct (name_eqb (a_name b) (str n)) eqn:E; [|exact A]. apply name_eqb_eq in E. destruct (F a I). congruence.
Qed.
Lemma std_in_map l n d f (F : forall a, a_name (f a) = a_name a /\ a_flags (f a) = a_flags a /\ a_def (f a) = a_def a) : std_in l n d -> std_in (map f l) n d.
Proof.
  intros [(a & A & B)]. constructor. exists (f a). rewrite find_attr_map; [|intros b; apply F]. rewrite A. split; [reflexivity|].
  unfold keeps_value in *. destruct (F a) as (_ & -> & ->). exact B.
Qed.
Lemma prep_add c n lo so fl def c' r : prep (c_attrs c) -> add_attribute c n lo so fl def = Done (c', r) -> prep (c_attrs c').
Proof.
  intros P H. destruct (add_inv _ _ _ _ _ _ _ _ H) as [(_ & ->) | (_ & nm & -> & -> & _ & _ & F)]; [exact P|]. cbn [with_attrs c_attrs].
  destruct P as [R V C1 C2 C3 C4]. assert (G : forall a, In a (c_attrs c) -> a_name a <> a_name (mkAttr nm lo so def VNull fl 0)) by (intros a I; apply (F a I)).
  constructor; try (apply std_in_cons; assumption).
  - apply reg_add; [exact R|]. intros b I. exact (F b I).
  - constructor; [exact I | exact V].
Qed.
Lemma prep_map_val l f (F : forall a, a_name (f a) = a_name a /\ a_short (f a) = a_short a /\ a_long (f a) = a_long a /\ a_flags (f a) = a_flags a /\ a_def (f a) = a_def a) :
  prep l -> Forall (fun a => match a_val a with VNull | VHeap _ => True | _ => False end) (map f l) -> prep (map f l).
Proof.
  intros [R V C1 C2 C3 C4] V'. constructor; try (apply std_in_map; [intros a; destruct (F a) as (A & B & C & D & E); auto | assumption]).
  - apply reg_map; [intros a; destruct (F a) as (A & B & C & D & E); auto | exact R].
  - exact V'.
Qed.
Lemma prep_set l n v l' r : prep l -> set_in l n v = Done (l', r) -> prep l'.
Proof.
  intros P H. destruct (set_in_inv _ _ _ _ _ (r_names _ (p_reg _ P)) H) as [(_ & -> & _) | (_ & a & s & _ & _ & ->)]; [exact P|].
  apply prep_map_val; [intros b; apply set_named_keeps | exact P|]. apply Forall_map. refine (Forall_impl _ _ (p_vals _ P)). intros b Hb. unfold set_named. destruct (name_eqb (a_name b) n); [exact I | exact Hb].
Qed.
Lemma prep_callback fuel c n cb c' r : prep (c_attrs c) -> attr_callback fuel c n cb = Some (c', r) -> prep (c_attrs c').
Proof.
  intros P. revert c' r. induction fuel as [|k IH]; cbn [attr_callback]; intros c' r; destruct (c_attrs c) as [|a l] eqn:E.
  - intros H. injection H as <- <-. rewrite E. exact P.
  - discriminate.
  - intros H. injection H as <- <-. rewrite E. exact P.
  - destruct (name_eqb (a_name a) n) eqn:N; [|apply IH]. intros H. injection H as <- <-. cbn [with_attrs c_attrs].
    set (f := fun b => mkAttr (a_name b) (a_long b) (a_short b) (a_def b) (a_val b) (a_flags b) (if name_eqb (a_name b) n then cb else a_cb b)).
    assert (Q : map f l = l).
    { rewrite <- (map_id l) at 2. apply map_ext_in. intros b I. unfold f. destruct (name_eqb (a_name b) n) eqn:B; [|destruct b; reflexivity].
      pose proof (r_names _ (p_reg _ P)) as R. cbn [map] in R. inversion R as [|? ? R1 R2]; subst. destruct R1. apply name_eqb_eq in N, B.
      rewrite N, <- B. apply in_map. exact I. }
    assert (A : mkAttr (a_name a) (a_long a) (a_short a) (a_def a) (a_val a) (a_flags a) cb = f a) by (unfold f; rewrite N; reflexivity).
    rewrite A, <- Q. change (f a :: map f l) with (map f (a :: l)). apply prep_map_val; [intros b; unfold f; cbn; auto | exact P|].
    apply Forall_map. refine (Forall_impl _ _ (p_vals _ P)). intros b Hb. exact Hb.
Qed.
Lemma add_all_prep l c c' r : prep (c_attrs c) -> add_all c l = Done (c', r) -> prep (c_attrs c').
Proof.
  revert c c' r. induction l as [|[[[[n lo] so] fl] def] l IH]; intros c c' r P; cbn [add_all].
  - intros H. injection H as <- <-. exact P.
  - destruct (add_attribute c (Some n) lo so fl def) as [[c1 r1]|] eqn:E; cbn [rbind fst snd]; [|discriminate].
    destruct (add_all c1 l) as [[c2 r2]|] eqn:E2; cbn [rbind fst snd]; [|discriminate]. intros H. injection H as <- <-.
    exact (IH c1 c2 r2 (prep_add _ _ _ _ _ _ _ _ P E) E2).
Qed.
(** dax_init succeeds with all eleven attributes *)
Definition attr_of (x : name * option name * Z * Z * option name) : attr :=
  let '(n, lo, so, fl, def) := x in mkAttr n lo so def VNull fl 0.
Lemma dax_init_eq etc m : dax_init etc m = Done (mkConf (rev (map attr_of (std_attrs etc m))) m 0 [], 0).
Proof. vm_compute. reflexivity. Qed.
Lemma std_prep etc m : prep (rev (map attr_of (std_attrs etc m))).
Proof.
  constructor.
  - constructor.
    + vm_compute. repeat (constructor; [cbn [In]; intros F; repeat (destruct F as [F|F]; [discriminate F|]); exact F|]). constructor.
    + vm_compute. repeat (constructor; [cbn [In]; intros F; repeat (destruct F as [F|F]; [discriminate F|]); exact F|]). constructor.
    + intros a b x Ia Ib A B. cbn [std_attrs std map attr_of rev app] in Ia, Ib.
      repeat (destruct Ia as [<- | Ia]; [cbn [a_long] in A; injection A as <-; repeat (destruct Ib as [<- | Ib]; [first [reflexivity | vm_compute in B; discriminate B]|]); destruct Ib|]). destruct Ia.
  - repeat (constructor; [exact I|]). constructor.
  - constructor. eexists. split; [reflexivity|]. repeat (split; [reflexivity|]). split; [discriminate | reflexivity].
  - constructor. eexists. split; [reflexivity|]. repeat (split; [reflexivity|]). split; [discriminate | reflexivity].
  - constructor. eexists. split; [reflexivity|]. repeat (split; [reflexivity|]). split; [discriminate | reflexivity].
  - constructor. eexists. split; [reflexivity|]. repeat (split; [reflexivity|]). split; [discriminate | reflexivity].
Qed.
Lemma prepared_prep etc m c : prepared etc m c -> prep (c_attrs c).
Proof.
  induction 1 as [c r H | c n lo so fl def c' r _ IH H | c n v c' r _ IH H | c fuel n cb c' r _ IH H].
  - rewrite dax_init_eq in H. injection H as <- _. apply std_prep.
  - exact (prep_add _ _ _ _ _ _ _ _ IH H).
  - unfold set_attr_by_name in H. destruct (set_in (c_attrs c) n v) as [[l k]|] eqn:E; cbn [rbind fst snd] in H; [|discriminate].
    injection H as <- _. exact (prep_set _ _ _ _ _ IH E).
  - exact (prep_callback _ _ _ _ _ _ IH H).
Qed.

(** ** getopt on a proper command line *)
Definition found_of (i : item) : list found :=
  match i with
  | Word _ => []
  | Setting a v st => [mkFound (a_short a) (if takes a then Some v else None)
                         (match st with Long | LongEq => long_name a | _ => [] end)]
  end.
Lemma getopt_short so tab x (s : name) (r : list name) z : x <> 45 -> getopt z so tab ((45 :: x :: s) :: r) false =
  (y <-- short_args z so (x :: s) (@hd_error name r) ;; l <-- getopt z so tab r (snd y) ;; Done (fst y ++ l)).
Proof. intros N. cbn [getopt]. destruct x; try reflexivity. do 6 (destruct p; try reflexivity). congruence. Qed.
Lemma getopt_long_eq so tab x (s : name) (r : list name) z : getopt z so tab ((45 :: 45 :: x :: s) :: r) false =
  (y <-- long_args z tab (x :: s) (@hd_error name r) ;; l <-- getopt z so tab r (snd y) ;; Done (fst y :: l)).
Proof. reflexivity. Qed.
Lemma getopt_word so tab w r z : hd_error w <> Some 45 \/ w = [45] -> getopt z so tab (w :: r) false = getopt z so tab r false.
Proof.
  intros [N | ->]; [|reflexivity]. destruct w as [|x s]; [reflexivity|]. cbn [hd_error] in N. cbn [getopt].
  destruct x; try reflexivity. do 6 (destruct p; try reflexivity). congruence.
Qed.
Lemma split_eq_no n v : ~ In 61 n -> split_eq (n ++ 61 :: v) = (n, Some v).
Proof.
  induction n as [|x n IH]; intros N; [reflexivity|]. cbn [app split_eq]. destruct (Z.eqb_spec x 61) as [-> | E]; [destruct N; left; reflexivity|].
  rewrite IH; [reflexivity | intros I; apply N; right; exact I].
Qed.
Lemma split_eq_none n : ~ In 61 n -> split_eq n = (n, None).
Proof.
  induction n as [|x n IH]; intros N; [reflexivity|]. cbn [split_eq]. destruct (Z.eqb_spec x 61) as [-> | E]; [destruct N; left; reflexivity|].
  rewrite IH; [reflexivity | intros I; apply N; right; exact I].
Qed.
Lemma short_ne a : plain_short a -> a_short a <> 0 -> a_short a <> 45.
Proof. unfold plain_short, isalpha, isdigit. lia. Qed.
(** what the option tables must offer for an item *)
Definition usable (so : list Z) (tab : list lopt) (i : item) : Prop :=
  match i with
  | Word w => hd_error w <> Some 45 \/ w = [45]
  | Setting a v st =>
    arg_of (a_flags a) <> OptArg /\
    match st with
    | Apart | Joined => a_short a <> 45 /\ a_short a <> 58 /\ a_short a <> 59 /\ (st = Joined -> takes a = true -> v <> []) /\
                        exists af, strchr (a_short a) so = Some af /\ short_arg true af = Done (arg_of (a_flags a))
    | Long | LongEq => long_name a <> [] /\ ~ In 61 (long_name a) /\
                       find_long true tab (long_name a) = Done (Some (mkLopt (long_name a) (arg_of (a_flags a)) (a_short a)))
    end
  end.
Lemma getopt_usable so tab items : Forall (usable so tab) items ->
  getopt true so tab (flat_map render items) false = Done (flat_map found_of items).
Proof.
  induction items as [|i items IH]; intros F; [reflexivity|]. inversion F as [|? ? F1 F2]; subst. specialize (IH F2).
  cbn [flat_map]. destruct i as [a v st | w]; cbn [usable] in F1.
  2:{ cbn [render app]. rewrite getopt_word; [exact IH | exact F1]. }
  destruct F1 as (O & F1).
  assert (SA : a_short a <> 58 -> a_short a <> 59 -> (exists af, strchr (a_short a) so = Some af /\ short_arg true af = Done (arg_of (a_flags a))) -> forall s next, short_args true so (a_short a :: s) next =
    match arg_of (a_flags a) with
    | NoArg => x <-- short_args true so s next ;; Done (mkFound (a_short a) None [] :: fst x, snd x)
    | OptArg => Done ([mkFound (a_short a) (if is_nil s then None else Some s) []], false)
    | ReqArg => if negb (is_nil s) then Done ([mkFound (a_short a) (Some s) []], false)
                else match next with Some v => Done ([mkFound (a_short a) (Some v) []], true) | None => Done ([mkFound QMARK None []], false) end
    end).
  { intros N58 N59 (af & S1 & S2) s next. cbn [short_args]. rewrite S1. destruct (Z.eqb_spec (a_short a) 58); [congruence|]. destruct (Z.eqb_spec (a_short a) 59); [congruence|].
    cbn [orb]. rewrite S2. reflexivity. }
  cbn [render found_of]. unfold takes in *. destruct st.
  - destruct F1 as (N45 & N58 & N59 & _ & S). specialize (SA N58 N59 S). destruct (arg_of (a_flags a)) eqn:K; [| |congruence]; cbn [app]; (rewrite getopt_short; [|exact N45]); rewrite SA.
    + cbn [short_args rbind fst snd]. rewrite IH. reflexivity.
    + cbn [hd_error is_nil negb rbind fst snd getopt app]. rewrite IH. reflexivity.
  - destruct F1 as (N45 & N58 & N59 & J & S). specialize (SA N58 N59 S). destruct (arg_of (a_flags a)) eqn:K; [| |congruence]; cbn [app]; (rewrite getopt_short; [|exact N45]); rewrite SA.
    + cbn [short_args rbind fst snd]. rewrite IH. reflexivity.
    + destruct v as [|y v]; [destruct (J eq_refl eq_refl eq_refl)|]. cbn [is_nil negb rbind fst snd]. rewrite IH. reflexivity.
  - destruct F1 as (NE & N61 & FL). destruct (long_name a) as [|x s] eqn:E; [congruence|].
    destruct (arg_of (a_flags a)) eqn:K; [| |congruence]; cbn [app]; change (str "--" ++ x :: s) with (45 :: 45 :: x :: s); rewrite getopt_long_eq;
      unfold long_args; rewrite (split_eq_none _ N61), FL; cbn [rbind l_arg l_val l_name hd_error fst snd getopt]; rewrite IH; reflexivity.
  - destruct F1 as (NE & N61 & FL). destruct (long_name a) as [|x s] eqn:E; [congruence|].
    destruct (arg_of (a_flags a)) eqn:K; [| |congruence]; cbn [app].
    + change (str "--" ++ x :: s) with (45 :: 45 :: x :: s). rewrite getopt_long_eq. unfold long_args. rewrite (split_eq_none _ N61), FL.
      cbn [rbind l_arg l_val l_name hd_error fst snd getopt]. rewrite IH. reflexivity.
    + change (str "--" ++ x :: s ++ str "=" ++ v) with (45 :: 45 :: x :: (s ++ 61 :: v)). rewrite getopt_long_eq. unfold long_args.
      change (x :: s ++ 61 :: v) with ((x :: s) ++ 61 :: v). rewrite (split_eq_no _ v N61), FL. cbn [rbind l_arg l_val l_name fst snd]. rewrite IH. reflexivity.
Qed.
Lemma getopt_items c items : reg_ok (c_attrs c) -> Forall plain_short (c_attrs c) -> Forall (proper c) items ->
  getopt true (shortopts (c_attrs c)) (longopts (c_attrs c)) (flat_map render items) false = Done (flat_map found_of items).
Proof.
  intros R PS F. apply getopt_usable. refine (Forall_impl _ _ F). intros [a v st | w]; cbn [proper usable]; [|auto].
  intros (I & C & O & Z & J & L). split; [exact O|].
  assert (P : plain_short a) by (rewrite Forall_forall in PS; exact (PS a I)).
  pose proof (short_ne a P Z) as N45. destruct (plain_not a P) as (N58 & N59 & _).
  assert (LA : st = Long \/ st = LongEq -> long_name a <> [] /\ ~ In 61 (long_name a) /\ find_long true (longopts (c_attrs c)) (long_name a) = Done (Some (mkLopt (long_name a) (arg_of (a_flags a)) (a_short a)))).
  { intros Q. destruct (L Q) as (n & Ln & NE & N61). unfold long_name. rewrite Ln. split; [exact NE|]. split; [exact N61|].
    unfold find_long. rewrite (longopts_find _ a _ R I Ln C). reflexivity. }
  destruct st; auto 10 using shortopts_find, (r_shorts _ R).
Qed.

(** ** Storing the values of the command line *)
Definition with_vals (f : attr -> aval) (l : list attr) : list attr := map (fun a => set_val a (f a)) l.
Definition ptr (a : attr) (x : name) : aval := if takes a then VHeap x else VLit x.
Definition cmd_val (l : list item) (f : attr -> aval) (a : attr) : aval :=
  if keeps_value a then match given l (a_name a) with Some x => ptr a x | None => f a end else f a.
Lemma same_name l a b : NoDup (map a_name l) -> In a l -> In b l -> a_name a = a_name b -> a = b.
Proof. intros N Ia Ib E. pose proof (find_attr_uniq l a N Ia) as A. rewrite E, (find_attr_uniq l b N Ib) in A. congruence. Qed.
Lemma same_short l a b : NoDup (map a_short l) -> In a l -> In b l -> a_short a = a_short b -> a = b.
Proof.
  induction l as [|h l IH]; [intros _ []|]. cbn [map]. intros N [-> | Ia] [-> | Ib] E; inversion N as [|? ? N1 N2]; subst.
  - reflexivity.
  - destruct N1. rewrite E. apply in_map. exact Ib.
  - destruct N1. rewrite <- E. apply in_map. exact Ia.
  - exact (IH N2 Ia Ib E).
Qed.
(** the calls of callbacks for the settings of the command line *)
Definition calls_of (i : item) : list (Z * name * option name) :=
  match i with Word _ => [] | Setting a v _ => new_call a (if takes a then Some v else None) end.
Lemma store_items l items c f : reg_ok l -> Forall plain_short l -> Forall (proper (with_attrs c l)) items -> c_attrs c = with_vals f l ->
  store_all c (flat_map found_of items) = Done (mkConf (with_vals (cmd_val items f) l) (c_mod c) (c_timeout c) (c_calls c ++ flat_map calls_of items)).
Proof.
  intros R PS. revert c f. induction items as [|i items IH]; intros c f F E.
  - cbn [flat_map store_all]. rewrite app_nil_r. destruct c as [la m t ca]. cbn [c_attrs c_mod c_timeout c_calls] in *. rewrite E. do 2 f_equal.
    unfold with_vals. apply map_ext. intros a. unfold cmd_val. cbn [given]. destruct (keeps_value a); reflexivity.
  - inversion F as [|? ? F1 F2]; subst. destruct i as [a v st | w]; cbn [flat_map found_of app].
    2:{ exact (IH c f F2 E). }
    cbn [proper with_attrs c_attrs] in F1. destruct F1 as (I & C & O & Z & _ & _).
    assert (P : plain_short a) by (rewrite Forall_forall in PS; exact (PS a I)).
    cbn [store_all]. unfold store at 1. cbn [f_ch f_arg]. destruct (plain_not a P) as (_ & _ & _ & NN).
    destruct (Z.ltb_spec 0 (a_short a)); [|lia].
    set (a1 := set_val a (f a)).
    set (k0 := calls_of (Setting a v st)).
    assert (S : set_attr a1 (if takes a then Some v else None) = Done (set_val a1 (new_val a1 v), k0)).
    { unfold k0, calls_of, takes. destruct (arg_of (a_flags a)) eqn:K; [| |congruence].
      - rewrite set_attr_none; [|exact K]. do 2 f_equal. unfold new_val. cbn [a1 set_val a_flags]. rewrite K. reflexivity.
      - rewrite set_attr_some. reflexivity. }
    pose proof (store_by_char_eq (c_attrs c) a1 _ _ ltac:(rewrite E; unfold with_vals; rewrite map_map; rewrite (map_ext _ a_short); [exact (r_shorts _ R) | intros; reflexivity])
       ltac:(rewrite E; unfold with_vals, a1; apply (in_map (fun a => set_val a (f a))); exact I) S) as SB.
    change (a_short a) with (a_short a1). rewrite SB. cbn [rbind fst snd].
    set (f' := fun b => if a_short b =? a_short a then new_val a1 v else f b).
    pose proof (IH (mkConf (with_vals f' l) (c_mod c) (c_timeout c) (c_calls c ++ k0)) f' F2 eq_refl) as K.
    assert (Q : map (fun b => if a_short b =? a_short a1 then set_val a1 (new_val a1 v) else b) (c_attrs c) = with_vals f' l).
    { rewrite E. unfold with_vals. rewrite map_map. apply map_ext_in. intros b Ib. cbn [set_val a_short a1]. unfold f'.
      destruct (Z.eqb_spec (a_short b) (a_short a)) as [Eq|Eq]; [|reflexivity]. rewrite (same_short _ _ _ (r_shorts _ R) Ib I Eq). reflexivity. }
    rewrite Q, K. cbn [c_mod c_timeout c_calls]. rewrite <- app_assoc. do 2 f_equal. unfold with_vals. apply map_ext_in. intros b Ib. f_equal.
    unfold cmd_val. cbn [given]. unfold f'. destruct (Z.eqb_spec (a_short b) (a_short a)) as [Eq|Eq].
    + pose proof (same_short _ _ _ (r_shorts _ R) Ib I Eq) as ->. rewrite name_eqb_refl. unfold new_val, keeps_value. cbn [a1 set_val a_flags a_val].
      destruct (has (a_flags a) CFG_NO_VALUE); [reflexivity|]. cbn [negb]. destruct (given items (a_name a)); [reflexivity|].
      unfold ptr, takes. destruct (arg_of (a_flags a)); [reflexivity | reflexivity | congruence].
    + destruct (name_eqb (a_name a) (a_name b)) eqn:N; [|destruct (keeps_value b); [destruct (given items (a_name b)); reflexivity | reflexivity]].
      apply name_eqb_eq in N. destruct Eq. rewrite (same_name _ _ _ (r_names _ R) I Ib N). reflexivity.
Qed.

(** ** The other steps *)
Lemma with_vals_find f l n : find_attr (with_vals f l) n = option_map (fun a => set_val a (f a)) (find_attr l n).
Proof. apply (find_attr_map l n (fun a => set_val a (f a))). reflexivity. Qed.
Lemma with_vals_twice f g l : with_vals g (with_vals f l) = with_vals (fun a => g (set_val a (f a))) l.
Proof. unfold with_vals. rewrite map_map. apply map_ext. reflexivity. Qed.
Definition file_val (g : name -> lval) (a : attr) : aval :=
  match lua_text (g (a_name a)) with Some s => if is_null (a_val a) then new_val a s else a_val a | None => a_val a end.
(** the calls of callbacks for the settings of the file *)
Definition file_calls (g : name -> lval) (a : attr) : list (Z * name * option name) :=
  match lua_text (g (a_name a)) with Some s => if is_null (a_val a) then new_call a (Some s) else [] | None => [] end.
Lemma globals_eq g l : get_lua_globals g l = Done (with_vals (file_val g) l, flat_map (file_calls g) l).
Proof.
  induction l as [|a l IH]; [reflexivity|]. cbn [get_lua_globals with_vals map flat_map]. unfold file_val at 1, file_calls at 1.
  destruct (lua_text (g (a_name a))) as [s|].
  - destruct (is_null (a_val a)).
    + rewrite set_attr_some. cbn [rbind fst snd]. rewrite IH. reflexivity.
    + cbn [rbind fst snd]. rewrite IH. cbn [rbind fst snd]. destruct a; reflexivity.
  - cbn [rbind fst snd]. rewrite IH. cbn [rbind fst snd]. destruct a; reflexivity.
Qed.
Lemma set_val_id a : set_val a (a_val a) = a.
Proof. destruct a; reflexivity. Qed.
Lemma with_vals_id l : with_vals a_val l = l.
Proof. unfold with_vals. rewrite <- (map_id l) at 2. apply map_ext. intros a. apply set_val_id. Qed.
Lemma set_named_vals n p l : map (set_named n p) l = with_vals (fun a => if name_eqb (a_name a) n then p else a_val a) l.
Proof. unfold with_vals. apply map_ext. intros a. unfold set_named. destruct (name_eqb (a_name a) n); [reflexivity | symmetry; apply set_val_id]. Qed.
Lemma free_in_eq l n a s : NoDup (map a_name l) -> find_attr l n = Some a -> a_val a = VHeap s -> free_in l n = Done (map (set_named n VFreed) l).
Proof.
  induction l as [|b l IH]; cbn [find_attr free_in map]; [discriminate|]. intros N. inversion N as [|? ? N1 N2]; subst.
  unfold set_named at 1. destruct (name_eqb (a_name b) n) eqn:E.
  - intros H V. injection H as ->. rewrite V. cbn [free_val rbind]. do 2 f_equal. symmetry. apply set_named_id. intros x X F. apply N1.
    apply name_eqb_eq in E. rewrite E, <- F. apply in_map. exact X.
  - intros H V. rewrite (IH N2 H V). reflexivity.
Qed.
Lemma defaults_vals l : map set_default l = with_vals (fun a => match a_val a with VNull => match a_def a with Some d => VHeap d | None => VNull end | v => v end) l.
Proof. unfold with_vals. apply map_ext. intros a. unfold set_default. destruct (a_val a) eqn:E; rewrite <- ?E; rewrite ?set_val_id; reflexivity. Qed.

(** what a value reads as *)
Definition text (v : aval) : option name := match v with VHeap s | VLit s => Some s | VNull | VFreed => None end.
Definition not_freed (v : aval) : Prop := match v with VFreed => False | _ => True end.
Lemma get_attr_text c n a : find_attr (c_attrs c) n = Some a -> not_freed (a_val a) -> get_attr c n = Done (text (a_val a)).
Proof. unfold get_attr, get_ptr. intros -> H. destruct (a_val a); [reflexivity..|destruct H]. Qed.

(** ** The values after dax_configure *)
Definition v1 (l : list item) (a : attr) : aval := cmd_val l a_val a.
Definition v2 (etc : name) (l : list item) (a : attr) : aval :=
  if name_eqb (a_name a) (str "confdir") && is_null (v1 l a) then VHeap etc else v1 l a.
Definition v3 etc l (g : name -> lval) (a : attr) : aval := file_val g (set_val a (v2 etc l a)).
Definition v4 etc l g (freed : bool) (a : attr) : aval := if freed && name_eqb (a_name a) (str "config") then VFreed else v3 etc l g a.
Definition v5 etc l g freed (a : attr) : aval :=
  match v4 etc l g freed a with VNull => match a_def a with Some d => VHeap d | None => VNull end | v => v end.
Definition is_some {A} (x : option A) : bool := match x with Some _ => true | None => false end.

Definition plain_val (a : attr) : Prop := match a_val a with VNull | VHeap _ => True | _ => False end.
Lemma v1_text l a : plain_val a -> text (v1 l a) = first (from_cmd l a) (before a) /\ not_freed (v1 l a) /\
  (is_null (v1 l a) = false <-> text (v1 l a) <> None).
Proof.
  unfold plain_val, v1, cmd_val, from_cmd, before. intros P. destruct (keeps_value a); [destruct (given l (a_name a)) as [x|]|].
  - unfold ptr. destruct (takes a); cbn; (split; [reflexivity|]; split; [exact I|]; split; congruence).
  - destruct (a_val a); cbn; (split; [reflexivity|]; split; [exact I || exact P|]; split; congruence).
  - destruct (a_val a); cbn; (split; [reflexivity|]; split; [exact I || exact P|]; split; congruence).
Qed.
Lemma v3_text etc l g a : plain_val a -> not_freed (v3 etc l g a) /\
  text (v5 etc l g false a) = expected etc l g a.
Proof.
  intros P. destruct (v1_text l a P) as (T & NF & NU). unfold v5, v4, v3, v2, expected. cbn [andb].
  assert (G : first (from_cmd l a) (first (before a) (if name_eqb (a_name a) (str "confdir") then Some etc else first (from_file g a) (a_def a))) =
              first (text (v1 l a)) (if name_eqb (a_name a) (str "confdir") then Some etc else first (from_file g a) (a_def a))).
  { rewrite T. destruct (from_cmd l a), (before a); reflexivity. }
  rewrite G. clear G. destruct (is_null (v1 l a)) eqn:E.
  - assert (V : v1 l a = VNull) by (destruct (v1 l a); [reflexivity | discriminate..]). rewrite V. cbn [text first].
    destruct (name_eqb (a_name a) (str "confdir")); cbn [andb].
    + unfold file_val. cbn [set_val a_name a_val is_null]. destruct (lua_text _); cbn; split; [exact I | reflexivity | exact I | reflexivity].
    + unfold file_val. cbn [set_val a_name a_val is_null]. unfold from_file. destruct (lua_text (g (a_name a))) as [s|].
      * unfold new_val, keeps_value, takes. cbn [set_val a_flags a_val]. destruct (has (a_flags a) CFG_NO_VALUE); cbn [negb].
        -- cbn [first]. split; [exact I|]. destruct (a_def a); reflexivity.
        -- destruct (arg_of (a_flags a)); cbn; (split; [exact I | reflexivity]).
      * destruct (keeps_value a); cbn [first]; (split; [exact I|]; destruct (a_def a); reflexivity).
  - rewrite andb_false_r. assert (V : file_val g (set_val a (v1 l a)) = v1 l a).
    { unfold file_val. cbn [set_val a_val a_name]. rewrite E. destruct (lua_text _); reflexivity. }
    rewrite V. split; [exact NF|]. destruct (v1 l a); [discriminate | reflexivity | reflexivity | destruct NF].
Qed.

Lemma conf_eta c : mkConf (c_attrs c) (c_mod c) (c_timeout c) (c_calls c) = c.
Proof. destruct c; reflexivity. Qed.
Lemma early_eq c items n a : prep (c_attrs c) -> find_attr (c_attrs c) n = Some a -> early c items n = text (v1 items a).
Proof.
  intros P F. unfold early. rewrite F. destruct (find_attr_in _ _ _ F) as (I & _). pose proof (p_vals _ P) as V. rewrite Forall_forall in V.
  destruct (v1_text items a (V a I)) as (-> & _). reflexivity.
Qed.
(** the timeout: the number of the attribute when it lies between 500 and 30000, otherwise 1000 *)
Definition timeout_of (s : name) : Z :=
  if (500 <=? s32 (strtol0 s)) && (s32 (strtol0 s) <=? 30000) then s32 (strtol0 s) else 1000.
Lemma flat_map_vals {B} (h : attr -> list B) f l : flat_map h (with_vals f l) = flat_map (fun a => h (set_val a (f a))) l.
Proof. unfold with_vals. induction l as [|a l IH]; [reflexivity|]. cbn [map flat_map]. rewrite IH. reflexivity. Qed.
Lemma no_calls f l : flat_map (fun a => file_calls (fun _ => LNone) (set_val a (f a))) l = [].
Proof. induction l as [|a l IH]; [reflexivity | exact IH]. Qed.
Lemma configure_ok etc lua c items prog :
  prep (c_attrs c) -> Forall plain_short (c_attrs c) -> Forall (proper c) items ->
  let res := lua (path_of etc c items) (mod_of c items) (dir_of etc c items) in
  exists s t, configure etc lua true c (prog :: flat_map render items) (Z.lor CFG_CMDLINE CFG_MODCONF) =
    Done (mkConf (with_vals (v5 etc items (globals res) (is_some (early c items (str "config")))) (c_attrs c)) (mod_of c items) (timeout_of s)
            (c_calls c ++ flat_map calls_of items ++ flat_map (fun a => file_calls (globals res) (set_val a (v2 etc items a))) (c_attrs c)),
          Some (if is_some res then 0 else E_NOTFOUND)) /\
    find_attr (c_attrs c) (str "msgtimeout") = Some t /\ expected etc items (globals res) t = Some s.
Proof.
  intros P PS F res. pose proof (p_reg _ P) as R. pose proof (p_vals _ P) as V. rewrite Forall_forall in V.
  unfold configure. change (has (Z.lor CFG_CMDLINE CFG_MODCONF) CFG_CMDLINE) with true. change (has (Z.lor CFG_CMDLINE CFG_MODCONF) CFG_MODCONF) with true. cbn iota.
  rewrite parse_eq. cbn [tl]. rewrite (getopt_items c items R PS F). cbn [rbind].
  rewrite (store_items (c_attrs c) items c a_val R PS).
  2:{ replace (with_attrs c (c_attrs c)) with c by (destruct c; reflexivity). exact F. }
  2:{ symmetry. apply with_vals_id. }
  cbn [rbind]. set (k1 := flat_map calls_of items). change (cmd_val items a_val) with (v1 items).
  (* confdir *)
  destruct (p_confdir _ P) as [(ad & Fd & Kd & Nd & Dd & _)]. specialize (Dd eq_refl).
  destruct (find_attr_in _ _ _ Fd) as (Id & NAd). destruct (v1_text items ad (V ad Id)) as (Td & NFd & NUd).
  set (cA := mkConf (with_vals (v1 items) (c_attrs c)) (c_mod c) (c_timeout c) (c_calls c ++ k1)).
  set (cB := mkConf (with_vals (v2 etc items) (c_attrs c)) (c_mod c) (c_timeout c) (c_calls c ++ k1)).
  assert (FA : find_attr (c_attrs cA) (str "confdir") = Some (set_val ad (v1 items ad))). { cbn [cA c_attrs]. rewrite with_vals_find, Fd. reflexivity. }
  assert (SB : (if is_null (get_ptr cA (str "confdir")) then x <-- set_attr_by_name cA (str "confdir") (Some etc);; Done (fst x) else Done cA) = Done cB).
  { unfold get_ptr. rewrite FA. cbn [set_val a_val]. destruct (is_null (v1 items ad)) eqn:NUL.
    - unfold set_attr_by_name. destruct (set_in_done (c_attrs cA) (str "confdir") _ etc FA) as (l' & SI).
      { cbn [set_val a_val]. destruct (v1 items ad); [reflexivity | discriminate..]. }
      rewrite SI. cbn [rbind fst snd]. destruct (set_in_inv (c_attrs cA) (str "confdir") (Some etc) l' 0) as [(X & _) | (_ & x & s & _ & [X | (X & _)] & ->)]; [|exact SI|discriminate X| |discriminate X].
      { cbn [cA c_attrs]. unfold with_vals. rewrite map_map. rewrite (map_ext _ a_name); [exact (r_names _ R) | reflexivity]. }
      injection X as <-. f_equal. unfold with_attrs, cA, cB. cbn [c_attrs c_mod c_timeout c_calls]. f_equal. rewrite set_named_vals, with_vals_twice. unfold with_vals. apply map_ext_in. intros a I.
      cbn [set_val a_name a_val]. f_equal. unfold v2. destruct (name_eqb (a_name a) (str "confdir")) eqn:E; [|reflexivity].
      apply name_eqb_eq in E. rewrite (same_name _ _ _ (r_names _ R) I Id ltac:(congruence)), NUL. reflexivity.
    - f_equal. unfold cA, cB. f_equal. unfold with_vals. apply map_ext_in. intros a I. f_equal. unfold v2.
      destruct (name_eqb (a_name a) (str "confdir")) eqn:E; [|reflexivity]. apply name_eqb_eq in E.
      rewrite (same_name _ _ _ (r_names _ R) I Id ltac:(congruence)), NUL. reflexivity. }
  rewrite SB. cbn [rbind]. clear SB FA.
  (* name *)
  destruct (p_name _ P) as [(an & Fn & Kn & Nn & _)]. destruct (find_attr_in _ _ _ Fn) as (In_ & NAn).
  destruct (v1_text items an (V an In_)) as (Tn & NFn & _).
  assert (V2 : forall a, a_name a <> str "confdir" -> v2 etc items a = v1 items a).
  { intros a N. unfold v2. destruct (name_eqb (a_name a) (str "confdir")) eqn:E; [apply name_eqb_eq in E; congruence | reflexivity]. }
  assert (GN : get_attr cB (str "name") = Done (early c items (str "name"))).
  { rewrite (early_eq c items _ an P Fn). erewrite get_attr_text; [|cbn [cB c_attrs]; rewrite with_vals_find, Fn; reflexivity|]; cbn [set_val a_val]; rewrite V2; try (rewrite NAn; vm_compute; discriminate); [reflexivity | exact NFn]. }
  rewrite GN. cbn [rbind]. cbv zeta.
  set (cC := mkConf (with_vals (v2 etc items) (c_attrs c)) (mod_of c items) (c_timeout c) (c_calls c ++ k1)).
  assert (EC : match early c items (str "name") with Some m => mkConf (c_attrs cB) m (c_timeout cB) (c_calls cB) | None => cB end = cC).
  { unfold cC, cB, mod_of. destruct (early c items (str "name")); reflexivity. }
  rewrite EC. clear EC GN.
  (* the file *)
  destruct (p_config _ P) as [(ac & Fc & Kc & Nc & _)]. destruct (find_attr_in _ _ _ Fc) as (Ic & NAc).
  destruct (v1_text items ac (V ac Ic)) as (Tc & NFc & NUc).
  assert (GC : get_attr cC (str "config") = Done (early c items (str "config"))).
  { rewrite (early_eq c items _ ac P Fc). erewrite get_attr_text; [|cbn [cC c_attrs]; rewrite with_vals_find, Fc; reflexivity|]; cbn [set_val a_val]; rewrite V2; try (rewrite NAc; vm_compute; discriminate); [reflexivity | exact NFc]. }
  assert (GD : get_attr cC (str "confdir") = Done (Some (dir_of etc c items))).
  { unfold dir_of. rewrite (early_eq c items _ ad P Fd). erewrite get_attr_text; [|cbn [cC c_attrs]; rewrite with_vals_find, Fd; reflexivity|]; cbn [set_val a_val]; unfold v2; rewrite NAd, name_eqb_refl; cbn [andb].
    - destruct (v1 items ad); [reflexivity..|destruct NFd].
    - destruct (is_null (v1 items ad)); [exact I | exact NFd]. }
  set (g := globals res). set (fr := is_some (early c items (str "config"))).
  set (k2 := k1 ++ flat_map (fun a => file_calls g (set_val a (v2 etc items a))) (c_attrs c)).
  assert (MF : mod_config_file lua cC = Done (mkConf (with_vals (v4 etc items g fr) (c_attrs c)) (mod_of c items) (c_timeout c) (c_calls c ++ k2), if is_some res then 0 else E_NOTFOUND)).
  { unfold mod_config_file. rewrite GC. cbn [rbind]. rewrite GD. cbn [rbind]. cbv zeta.
    assert (PT : match early c items (str "config") with Some p => p | None => dir_of etc c items ++ str "/" ++ c_mod cC ++ str ".conf" end = path_of etc c items) by reflexivity.
    rewrite PT. change (c_mod cC) with (mod_of c items). fold res.
    assert (X : (match res with None => Done (cC, E_NOTFOUND)
             | Some g => y <-- get_lua_globals g (c_attrs cC);; Done (mkConf (fst y) (mod_of c items) (c_timeout cC) (c_calls cC ++ snd y), 0) end) =
             Done (mkConf (with_vals (v3 etc items g) (c_attrs c)) (mod_of c items) (c_timeout c) (c_calls c ++ k2), if is_some res then 0 else E_NOTFOUND)).
    { destruct res as [g'|] eqn:ER.
      - rewrite globals_eq. cbn [rbind fst snd]. unfold cC. cbn [c_attrs c_timeout c_calls is_some].
        rewrite with_vals_twice, flat_map_vals, <- app_assoc. reflexivity.
      - unfold cC, k2. cbn [is_some]. unfold g, globals. rewrite no_calls, app_nil_r. reflexivity. }
    rewrite X. cbn [rbind fst snd].
    destruct (early c items (str "config")) as [p|] eqn:EE; cbn [is_some] in *.
    - cbn [c_attrs with_attrs c_mod c_timeout c_calls]. rewrite (early_eq c items _ ac P Fc) in EE.
      assert (HV : v3 etc items g ac = VHeap p).
      { unfold v3. rewrite V2; [|rewrite NAc; vm_compute; discriminate]. unfold file_val. cbn [set_val a_val a_name].
        assert (v1 items ac = VHeap p). { pose proof (V ac Ic) as VC. revert EE. unfold v1, cmd_val. rewrite Nc. unfold ptr, takes. rewrite Kc. destruct (given items (a_name ac)); cbn [text]; [congruence|]. destruct (a_val ac); cbn [text]; try congruence; destruct VC. }
        rewrite H. cbn [is_null]. destruct (lua_text _); reflexivity. }
      rewrite (free_in_eq _ _ (set_val ac (v3 etc items g ac)) p); [| |rewrite with_vals_find, Fc; reflexivity | exact HV].
      2:{ unfold with_vals. rewrite map_map. rewrite (map_ext _ a_name); [exact (r_names _ R) | reflexivity]. }
      cbn [rbind]. unfold with_attrs. cbn [c_mod c_timeout c_calls]. rewrite set_named_vals, with_vals_twice. reflexivity.
    - cbn [rbind]. reflexivity. }
  rewrite MF. cbn [rbind fst snd]. unfold with_attrs. cbn [c_attrs c_mod c_timeout c_calls]. rewrite defaults_vals, with_vals_twice.
  set (l5 := with_vals _ (c_attrs c)).
  assert (L5 : l5 = with_vals (v5 etc items g fr) (c_attrs c)) by reflexivity. clearbody l5. subst l5.
  (* timeout *)
  destruct (p_time _ P) as [(at_ & Ft & Kt & Nt & Dt & _)]. specialize (Dt eq_refl). destruct (find_attr_in _ _ _ Ft) as (It & NAt).
  assert (VT : v5 etc items g fr at_ = v5 etc items g false at_).
  { unfold v5, v4. rewrite NAt. replace (name_eqb (str "msgtimeout") (str "config")) with false by reflexivity. rewrite !andb_false_r. reflexivity. }
  destruct (v3_text etc items g at_ (V at_ It)) as (NF3 & T5).
  assert (E5 : exists s, expected etc items g at_ = Some s).
  { unfold expected. destruct (from_cmd items at_); [eexists; reflexivity|]. destruct (before at_); [eexists; reflexivity|]. cbn [first].
    destruct (name_eqb _ _); [eexists; reflexivity|]. destruct (from_file g at_); [eexists; reflexivity|]. cbn [first]. destruct (a_def at_); [eexists; reflexivity | congruence]. }
  destruct E5 as (s & E5).
  unfold verify_config. erewrite get_attr_text; [|cbn [c_attrs]; rewrite with_vals_find, Ft; reflexivity|]; cbn [set_val a_val]; rewrite VT.
  2:{ unfold v5, v4. cbn [andb]. destruct (v3 etc items g at_); [destruct (a_def at_)| | |]; auto; exact I. }
  rewrite T5, E5. cbn [rbind c_attrs c_mod c_calls]. exists s, at_. split; [|split; [exact Ft | exact E5]]. do 3 f_equal.
  unfold timeout_of. change MIN_TIMEOUT with 500. change MAX_TIMEOUT with 30000. change (s32 (strtol0 DEFAULT_TIMEOUT)) with 1000.
  destruct (Z.ltb_spec (s32 (strtol0 s)) 500), (Z.ltb_spec 30000 (s32 (strtol0 s))), (Z.leb_spec 500 (s32 (strtol0 s))), (Z.leb_spec (s32 (strtol0 s)) 30000); try lia; reflexivity.
Qed.

(** ** C99: command line before program before file before default *)
Theorem C99_precedence : forall etc m c items lua prog,
  prepared etc m c -> Forall plain_short (c_attrs c) -> Forall (proper c) items ->
  exists c' r,
    configure etc lua true c (prog :: flat_map render items) (Z.lor CFG_CMDLINE CFG_MODCONF) = Done (c', Some r) /\
    forall a, In a (c_attrs c) -> (a_name a = str "config" -> early c items (str "config") = None) ->
      get_attr c' (a_name a) =
        Done (expected etc items (globals (lua (path_of etc c items) (mod_of c items) (dir_of etc c items))) a).
Proof.
  intros etc m c items lua prog P PS F. apply prepared_prep in P. destruct (configure_ok etc lua c items prog P PS F) as (s & t & E & _).
  rewrite E. eexists. eexists. split; [reflexivity|]. intros a I NC.
  set (g := globals _). set (fr := is_some _).
  pose proof (p_vals _ P) as V. rewrite Forall_forall in V. destruct (v3_text etc items g a (V a I)) as (NF & T).
  assert (Q : v5 etc items g fr a = v5 etc items g false a).
  { unfold v5, v4. destruct (name_eqb (a_name a) (str "config")) eqn:N; [|rewrite !andb_false_r; reflexivity].
    apply name_eqb_eq in N. unfold fr. rewrite (NC N). reflexivity. }
  erewrite get_attr_text; [|cbn [c_attrs]; rewrite with_vals_find, (find_attr_uniq _ _ (r_names _ (p_reg _ P)) I); reflexivity|]; cbn [set_val a_val]; rewrite Q.
  - rewrite T. reflexivity.
  - unfold v5, v4. cbn [andb]. destruct (v3 etc items g a); [destruct (a_def a); exact I0 || exact Coq.Init.Logic.I| | |]; auto; exact Coq.Init.Logic.I.
Qed.

(** ** C100: the attributes of a module are told apart by name, letter and long name *)
Theorem C100_unique : forall etc m c a b,
  prepared etc m c -> In a (c_attrs c) -> In b (c_attrs c) ->
  a_name a = a_name b \/ a_short a = a_short b \/ (exists x, a_long a = Some x /\ a_long b = Some x) -> a = b.
Proof.
  intros etc m c a b P Ia Ib H. apply prepared_prep in P. destruct (p_reg _ P) as [N S L]. destruct H as [H | [H | (x & A & B)]].
  - exact (same_name _ _ _ N Ia Ib H).
  - exact (same_short _ _ _ S Ia Ib H).
  - exact (L a b x Ia Ib A B).
Qed.
(** an accepted attribute is there with what was asked for, unset; nothing else changes; a
    refused one changes nothing *)
Theorem C100_added : forall c n lo so fl def c' r,
  add_attribute c n lo so fl def = Done (c', r) ->
  (r = 0 -> exists nm, n = Some nm /\ find_attr (c_attrs c') nm = Some (mkAttr nm lo so def VNull fl 0) /\
            forall x, x <> nm -> find_attr (c_attrs c') x = find_attr (c_attrs c) x) /\
  (r <> 0 -> c' = c).
Proof.
  intros c n lo so fl def c' r H. destruct (add_inv _ _ _ _ _ _ _ _ H) as [(A & ->) | (-> & nm & -> & -> & _)].
  - split; [intros; congruence | reflexivity].
  - split; [|congruence]. intros _. exists nm. split; [reflexivity|]. cbn [with_attrs c_attrs find_attr a_name]. rewrite name_eqb_refl. split; [reflexivity|].
    intros x N. destruct (name_eqb nm x) eqn:E; [apply name_eqb_eq in E; congruence | reflexivity].
Qed.
(** exactly these are accepted: a letter or underscore followed by letters, digits and underscores as
    name, a long name of such characters and dashes (but for its first character), and no clash *)
Definition letter (c : Z) : Prop := 65 <= c <= 90 \/ 97 <= c <= 122.
Definition digit (c : Z) : Prop := 48 <= c <= 57.
Definition good_name (n : name) : Prop :=
  exists c r, n = c :: r /\ (letter c \/ c = 95) /\ Forall (fun x => letter x \/ x = 95 \/ digit x) r.
Definition good_long (n : name) : Prop := Forall (fun x => letter x \/ x = 95 \/ x = 45 \/ digit x) (tl n).
Definition clash (a : attr) (n : name) (lo : option name) (so : Z) : Prop :=
  a_name a = n \/ (exists x, lo = Some x /\ a_long a = Some x) \/ a_short a = so.
Lemma isalpha_iff c : isalpha c = true <-> letter c.
Proof. unfold isalpha, letter. lia. Qed.
Lemma isdigit_iff c : isdigit c = true <-> digit c.
Proof. unfold isdigit, digit. lia. Qed.
Lemma ok_rest_iff d c : ok_rest d c = true <-> letter c \/ c = 95 \/ (d = true /\ c = 45) \/ digit c.
Proof. unfold ok_rest. rewrite !orb_true_iff, andb_true_iff, isalpha_iff, isdigit_iff, !Z.eqb_eq. tauto. Qed.
Lemma check_used_iff l n lo so : exists r, check_used l (Some n) lo so = Done r /\ (r = 0 <-> forall a, In a l -> ~ clash a n lo so).
Proof.
  induction l as [|a l (r & E & IH)]; cbn [check_used]; [exists 0; split; [reflexivity|]; split; [intros _ a [] | reflexivity]|].
  assert (D : clash a n lo so -> forall P : Prop, (E_DUPL = 0 <-> (forall b, In b (a :: l) -> ~ clash b n lo so)) ).
  { intros C _. split; [discriminate|]. intros H. destruct (H a (or_introl eq_refl) C). }
  destruct (name_eqb (a_name a) n) eqn:Q1; [apply name_eqb_eq in Q1; exists E_DUPL; split; [reflexivity|]; apply D; [left; exact Q1 | exact True]|].
  destruct (match lo, a_long a with Some x, Some y => name_eqb y x | _, _ => false end) eqn:Q2.
  { exists E_DUPL. split; [reflexivity|]. apply D; [|exact True]. right. left. destruct lo as [x|]; [|discriminate]. destruct (a_long a) as [y|]; [|discriminate].
    apply name_eqb_eq in Q2. subst. exists x. auto. }
  destruct (Z.eqb_spec (a_short a) so) as [Q3|Q3]; [exists E_DUPL; split; [reflexivity|]; apply D; [right; right; exact Q3 | exact True]|].
  exists r. split; [exact E|]. rewrite IH. split; intros H b; [|intros I; apply H; right; exact I].
  intros [<- | I]; [|apply H; exact I]. intros [C | [(x & -> & C) | C]]; [|rewrite C in Q2; rewrite name_eqb_refl in Q2; discriminate | congruence].
  rewrite C, name_eqb_refl in Q1. discriminate.
Qed.
Theorem C100_accepted : forall c n lo so fl def, exists c' r,
  add_attribute c (Some n) lo so fl def = Done (c', r) /\
  (r = 0 <-> good_name n /\ (forall x, lo = Some x -> good_long x) /\ forall a, In a (c_attrs c) -> ~ clash a n lo so).
Proof.
  intros c n lo so fl def. unfold add_attribute, check_attr.
  assert (V1 : validate_name (Some n) = true <-> good_name n).
  { unfold validate_name, good_name. destruct n as [|x r]; [split; [discriminate | intros (? & ? & ? & _); discriminate]|].
    rewrite andb_true_iff, orb_true_iff, isalpha_iff, Z.eqb_eq, forallb_forall. split.
    - intros (A & B). exists x, r. split; [reflexivity|]. split; [exact A|]. apply Forall_forall. intros y I. specialize (B y I). apply ok_rest_iff in B. intuition discriminate.
    - intros (x' & r' & Eq & A & B). injection Eq as <- <-. split; [exact A|]. intros y I. rewrite Forall_forall in B. apply ok_rest_iff. specialize (B y I). tauto. }
  assert (V2 : validate_longopt lo = true <-> forall x, lo = Some x -> good_long x).
  { unfold validate_longopt, good_long. destruct lo as [[|x r]|]; [split; [intros _ y Eq; injection Eq as <-; constructor | reflexivity] | | split; [discriminate | reflexivity]].
    rewrite forallb_forall. split.
    - intros B y Eq. injection Eq as <-. cbn [tl]. apply Forall_forall. intros y I. specialize (B y I). apply ok_rest_iff in B. tauto.
    - intros H y I. specialize (H _ eq_refl). cbn [tl] in H. rewrite Forall_forall in H. apply ok_rest_iff. specialize (H y I). tauto. }
  destruct (validate_name (Some n)); cbn [negb]; [|eexists; eexists; split; [reflexivity|]; split; [discriminate | intros (A & _); apply V1 in A; discriminate]].
  destruct (validate_longopt lo); cbn [negb]; [|eexists; eexists; split; [reflexivity|]; split; [discriminate | intros (_ & A & _); apply V2 in A; discriminate]].
  destruct (check_used_iff (c_attrs c) n lo so) as (r & -> & R). cbn [rbind].
  destruct (Z.eqb_spec r 0) as [-> | NZ]; cbn [negb]; (eexists; eexists; split; [reflexivity|]); tauto.
Qed.
(** a second attribute without a letter (shortopt 0) is refused, whatever its name *)
Theorem C100_noletter_refuted : forall c a n lo fl def r c',
  In a (c_attrs c) -> a_short a = 0 -> add_attribute c (Some n) lo 0 fl def = Done (c', r) -> r <> 0 /\ c' = c.
Proof.
  intros c a n lo fl def r c' I Z H. destruct (add_inv _ _ _ _ _ _ _ _ H) as [(A & ->) | (_ & nm & _ & _ & _ & _ & F)]; [split; [exact A | reflexivity]|].
  destruct (F a I) as (_ & G & _). congruence.
Qed.
(** the first character of a long name is not checked: an option is accepted that no command line can reach *)
Theorem C100_longname_refuted : forall etc lua, exists c c' r,
  (exists c0, dax_init etc (str "mod") = Done (c0, 0) /\
     add_attribute c0 (Some (str "rate")) (Some (str "=rate")) 114 (Z.lor CFG_CMDLINE CFG_ARG_REQUIRED) (Some (str "5")) = Done (c, 0)) /\
  configure etc lua true c [str "mod"; str "--=rate=7"] CFG_CMDLINE = Done (c', r) /\ get_attr c' (str "rate") = Done (Some (str "5")).
Proof.
  intros etc lua. eexists. eexists. eexists. split; [|split].
  - eexists. split; [rewrite dax_init_eq; reflexivity | vm_compute; reflexivity].
  - vm_compute. reflexivity.
  - vm_compute. reflexivity.
Qed.

(** ** C101: callbacks of attributes *)
(** dax_attr_callback never returns for an attribute other than the one added last *)
Theorem C101_callback_refuted : forall c a l n cb,
  c_attrs c = a :: l -> a_name a <> n -> forall rounds, attr_callback rounds c n cb = None.
Proof.
  intros c a l n cb E N rounds. induction rounds as [|k IH]; cbn [attr_callback]; rewrite E; [reflexivity|].
  destruct (name_eqb (a_name a) n) eqn:Q; [apply name_eqb_eq in Q; congruence | exact IH].
Qed.
(** for that one it sets the callback and nothing else *)
Theorem C101_callback_partial : forall c a l cb,
  c_attrs c = a :: l -> attr_callback 1 c (a_name a) cb =
    Some (with_attrs c (mkAttr (a_name a) (a_long a) (a_short a) (a_def a) (a_val a) (a_flags a) cb :: l), 0).
Proof. intros c a l cb E. cbn [attr_callback]. rewrite E, name_eqb_refl. reflexivity. Qed.
(** the calls dax_configure makes: one for every setting of the command line, in order, then one for
    every attribute of the file that had no value yet *)
Definition given_call (i : item) : list (Z * name * option name) :=
  match i with
  | Setting a v _ => if a_cb a =? 0 then [] else [(a_cb a, a_name a, if takes a then Some v else None)]
  | Word _ => []
  end.
Definition file_call (items : list item) (g : name -> lval) (a : attr) : list (Z * name * option name) :=
  match lua_text (g (a_name a)) with
  | Some s => if (a_cb a =? 0) || is_some (first (from_cmd items a) (before a)) || name_eqb (a_name a) (str "confdir") then []
              else [(a_cb a, a_name a, Some s)]
  | None => []
  end.
Theorem C101_calls : forall etc m c items lua prog,
  prepared etc m c -> Forall plain_short (c_attrs c) -> Forall (proper c) items ->
  exists c' r,
    configure etc lua true c (prog :: flat_map render items) (Z.lor CFG_CMDLINE CFG_MODCONF) = Done (c', Some r) /\
    c_calls c' = c_calls c ++ flat_map given_call items ++
      flat_map (file_call items (globals (lua (path_of etc c items) (mod_of c items) (dir_of etc c items)))) (c_attrs c).
Proof.
  intros etc m c items lua prog P PS F. apply prepared_prep in P. destruct (configure_ok etc lua c items prog P PS F) as (s & t & E & _).
  rewrite E. eexists. eexists. split; [reflexivity|]. cbn [c_calls]. f_equal. f_equal. set (g := globals _). clearbody g.
  pose proof (p_vals _ P) as V. clear -V. induction (c_attrs c) as [|a l IH]; [reflexivity|]. inversion V as [|? ? V1 V2]; subst. cbn [flat_map]. rewrite (IH V2). f_equal.
  destruct (v1_text items a V1) as (T & _ & NU). unfold file_calls, file_call. cbn [set_val a_name a_val]. destruct (lua_text (g (a_name a))) as [x|]; [|reflexivity].
  rewrite <- T. unfold v2, new_call. cbn [set_val a_cb a_name]. destruct (a_cb a =? 0); [cbn [orb]; match goal with |- (if ?b then _ else _) = _ => destruct b end; reflexivity|].
  destruct (v1 items a) as [|y|y|] eqn:W.
  - cbn [text is_some orb is_null]. rewrite andb_true_r. destruct (name_eqb (a_name a) (str "confdir")); reflexivity.
  - cbn [text is_some orb is_null]. rewrite andb_false_r. reflexivity.
  - cbn [text is_some orb is_null]. rewrite andb_false_r. reflexivity.
  - destruct NU as [NU _]. destruct (NU eq_refl eq_refl).
Qed.

(** ** C102: the file that is read *)
(** the file given with config, otherwise <confdir>/<name>.conf; the result is 0 when it ran *)
Theorem C102_file : forall etc m c items lua prog,
  prepared etc m c -> Forall plain_short (c_attrs c) -> Forall (proper c) items ->
  let file := match early c items (str "config") with
              | Some p => p
              | None => (match early c items (str "confdir") with Some d => d | None => etc end) ++ str "/" ++
                        (match early c items (str "name") with Some n => n | None => c_mod c end) ++ str ".conf"
              end in
  exists c' r,
    configure etc lua true c (prog :: flat_map render items) (Z.lor CFG_CMDLINE CFG_MODCONF) = Done (c', Some r) /\
    (r = 0 <-> lua file (mod_of c items) (dir_of etc c items) <> None) /\ (r = 0 \/ r = E_NOTFOUND).
Proof.
  intros etc m c items lua prog P PS F file. apply prepared_prep in P. destruct (configure_ok etc lua c items prog P PS F) as (s & t & E & _).
  rewrite E. eexists. eexists. split; [reflexivity|]. change (path_of etc c items) with file.
  destruct (lua file (mod_of c items) (dir_of etc c items)); cbn [is_some].
  - split; [split; [discriminate | reflexivity] | auto].
  - split; [split; [discriminate | congruence] | auto].
Qed.
(** the value of config is freed: whoever asks for it afterwards reads freed memory, and so does a second dax_configure *)
Theorem C102_freed_refuted : forall etc m c items lua prog p,
  prepared etc m c -> Forall plain_short (c_attrs c) -> Forall (proper c) items -> early c items (str "config") = Some p ->
  exists c' r,
    configure etc lua true c (prog :: flat_map render items) (Z.lor CFG_CMDLINE CFG_MODCONF) = Done (c', Some r) /\
    get_attr c' (str "config") = Undef UUaf /\ configure etc lua true c' [prog] CFG_MODCONF = Undef UUaf.
Proof.
  intros etc m c items lua prog p P PS F EP. apply prepared_prep in P. destruct (configure_ok etc lua c items prog P PS F) as (s & t & E & _).
  rewrite E. eexists. eexists. split; [reflexivity|]. rewrite EP. cbn [is_some].
  destruct (p_config _ P) as [(ac & Fc & Kc & Nc & _)]. destruct (find_attr_in _ _ _ Fc) as (Ic & NAc).
  set (g := globals _). set (c' := mkConf _ _ _ _).
  assert (VC : v5 etc items g true ac = VFreed) by (unfold v5, v4; rewrite NAc; reflexivity).
  assert (G : get_attr c' (str "config") = Undef UUaf). { unfold get_attr, get_ptr, c'. cbn [c_attrs]. rewrite with_vals_find, Fc. cbn [option_map set_val a_val]. rewrite VC. reflexivity. }
  split; [exact G|]. unfold configure. change (has CFG_MODCONF CFG_CMDLINE) with false. change (has CFG_MODCONF CFG_MODCONF) with true. cbn iota. cbn [rbind].
  pose proof (p_vals _ P) as V. rewrite Forall_forall in V.
  assert (W : forall n a, find_attr (c_attrs c) n = Some a -> a_name a <> str "config" -> v5 etc items g true a = v5 etc items g false a /\ get_ptr c' n = v5 etc items g false a).
  { intros n a Fa Na. assert (W : v5 etc items g true a = v5 etc items g false a). { unfold v5, v4. destruct (name_eqb (a_name a) (str "config")) eqn:Q; [apply name_eqb_eq in Q; congruence | reflexivity]. }
    split; [exact W|]. unfold get_ptr, c'. cbn [c_attrs]. rewrite with_vals_find, Fa. cbn [option_map set_val a_val]. exact W. }
  destruct (p_confdir _ P) as [(ad & Fd & Kd & Nd & Dd & _)]. specialize (Dd eq_refl). destruct (find_attr_in _ _ _ Fd) as (Id & NAd).
  destruct (W _ _ Fd) as (_ & Wd); [rewrite NAd; vm_compute; discriminate|].
  destruct (p_name _ P) as [(an & Fn & Kn & Nn & Dn & _)]. specialize (Dn eq_refl). destruct (find_attr_in _ _ _ Fn) as (In_ & NAn).
  destruct (W _ _ Fn) as (_ & Wn); [rewrite NAn; vm_compute; discriminate|].
  assert (X : forall a, In a (c_attrs c) -> a_def a <> None -> exists y, v5 etc items g false a = VHeap y \/ v5 etc items g false a = VLit y).
  { intros a Ia Da. destruct (v3_text etc items g a (V a Ia)) as (NF & _). unfold v5, v4. cbn [andb]. destruct (v3 etc items g a); [destruct (a_def a); [eexists; left; reflexivity | congruence] | eexists; left; reflexivity | eexists; right; reflexivity | destruct NF]. }
  destruct (X ad Id Dd) as (yd & Yd). destruct (X an In_ Dn) as (yn & Yn).
  rewrite Wd. assert (Nul : is_null (v5 etc items g false ad) = false) by (destruct Yd as [-> | ->]; reflexivity). rewrite Nul. cbn [rbind].
  assert (Gn : get_attr c' (str "name") = Done (Some yn)). { unfold get_attr. rewrite Wn. destruct Yn as [-> | ->]; reflexivity. }
  rewrite Gn. cbn [rbind]. cbv zeta. unfold mod_config_file.
  assert (G2 : get_attr (mkConf (c_attrs c') yn (c_timeout c') (c_calls c')) (str "config") = Undef UUaf) by exact G.
  rewrite G2. reflexivity.
Qed.

(** ** C103: the name the module registers under (libmsg.c:367 uses ds->modulename) *)
(** the one of the command line, otherwise set by the program, otherwise the argument of dax_init *)
Theorem C103_name_partial : forall etc m c items lua prog,
  prepared etc m c -> Forall plain_short (c_attrs c) -> Forall (proper c) items ->
  exists c' r,
    configure etc lua true c (prog :: flat_map render items) (Z.lor CFG_CMDLINE CFG_MODCONF) = Done (c', Some r) /\
    c_mod c' = match early c items (str "name") with Some n => n | None => c_mod c end.
Proof.
  intros etc m c items lua prog P PS F. apply prepared_prep in P. destruct (configure_ok etc lua c items prog P PS F) as (s & t & E & _).
  rewrite E. eexists. eexists. split; [reflexivity | reflexivity].
Qed.
(** a name in the configuration file becomes the value of the attribute, but the module registers under another *)
Theorem C103_file_refuted : forall etc m c lua prog g n,
  prepared etc m c -> Forall plain_short (c_attrs c) -> early c [] (str "name") = None ->
  lua (path_of etc c []) (mod_of c []) (dir_of etc c []) = Some g -> g (str "name") = LStr n ->
  exists c' r,
    configure etc lua true c [prog] (Z.lor CFG_CMDLINE CFG_MODCONF) = Done (c', Some r) /\
    get_attr c' (str "name") = Done (Some n) /\ c_mod c' = c_mod c.
Proof.
  intros etc m c lua prog g n P PS EN L G. pose proof (prepared_prep _ _ _ P) as PP.
  destruct (C99_precedence etc m c [] lua prog P PS (Forall_nil _)) as (c' & r & E & H). exists c', r. split; [exact E|].
  destruct (p_name _ PP) as [(an & Fn & Kn & Nn & Dn & _)]. destruct (find_attr_in _ _ _ Fn) as (In_ & NAn).
  specialize (H an In_). rewrite NAn in H. rewrite H; [|vm_compute; discriminate]. rewrite L. cbn [globals]. split.
  - unfold early in EN. rewrite Fn in EN. f_equal. unfold expected. destruct (from_cmd [] an); [discriminate EN|]. cbn [first] in *. rewrite EN. cbn [first].
    rewrite NAn. replace (name_eqb (str "name") (str "confdir")) with false by reflexivity. unfold from_file. rewrite Nn, NAn, G. unfold takes. rewrite Kn. reflexivity.
  - destruct (configure_ok etc lua c [] prog PP PS (Forall_nil _)) as (s & t & E2 & _). cbn [flat_map] in E, E2. rewrite E in E2. injection E2 as -> _.
    cbn [c_mod]. unfold mod_of. rewrite EN. reflexivity.
Qed.

(** ** C104: the message timeout *)
Theorem C104_timeout : forall etc lua zeroed c argv flags c' r,
  configure etc lua zeroed c argv flags = Done (c', r) -> 500 <= c_timeout c' <= 30000.
Proof.
  intros etc lua zeroed c argv flags c' r H. unfold configure in H.
  destruct (if has flags CFG_CMDLINE then parse_commandline zeroed c argv else Done c) as [c1|]; cbn [rbind] in H; [|discriminate].
  destruct (if is_null (get_ptr c1 (str "confdir")) then _ else Done c1) as [c2|]; cbn [rbind] in H; [|discriminate].
  destruct (get_attr c2 (str "name")) as [n|]; cbn [rbind] in H; [|discriminate]. cbv zeta in H.
  destruct (if has flags CFG_MODCONF then _ else _) as [[c3 r3]|]; cbn [rbind fst snd] in H; [|discriminate].
  unfold verify_config in H. destruct (get_attr _ (str "msgtimeout")) as [[s|]|]; cbn [rbind] in H; [|discriminate..].
  injection H as <- _. cbn [c_timeout]. change MIN_TIMEOUT with 500. change MAX_TIMEOUT with 30000. change (s32 (strtol0 DEFAULT_TIMEOUT)) with 1000.
  destruct (Z.ltb_spec (s32 (strtol0 s)) 500); cbn [orb]; [lia|]. destruct (Z.ltb_spec 30000 (s32 (strtol0 s))); lia.
Qed.
(** the number configured when it is one between the limits, otherwise 1000 *)
Theorem C104_value : forall etc m c items lua prog,
  prepared etc m c -> Forall plain_short (c_attrs c) -> Forall (proper c) items ->
  exists c' r s t,
    configure etc lua true c (prog :: flat_map render items) (Z.lor CFG_CMDLINE CFG_MODCONF) = Done (c', Some r) /\
    In t (c_attrs c) /\ a_name t = str "msgtimeout" /\
    expected etc items (globals (lua (path_of etc c items) (mod_of c items) (dir_of etc c items))) t = Some s /\
    (500 <= s32 (strtol0 s) <= 30000 -> c_timeout c' = s32 (strtol0 s)) /\
    (~ 500 <= s32 (strtol0 s) <= 30000 -> c_timeout c' = 1000).
Proof.
  intros etc m c items lua prog P PS F. apply prepared_prep in P. destruct (configure_ok etc lua c items prog P PS F) as (s & t & E & Ft & X).
  rewrite E. destruct (find_attr_in _ _ _ Ft) as (It & NAt). eexists. eexists. exists s, t. split; [reflexivity|]. split; [exact It|]. split; [exact NAt|]. split; [exact X|].
  cbn [c_timeout]. unfold timeout_of. destruct (Z.leb_spec 500 (s32 (strtol0 s))), (Z.leb_spec (s32 (strtol0 s)) 30000); cbn [andb]; split; lia.
Qed.

(** ** C105: parsing the command line is defined *)
(** attributes as all modules of the project register them: a letter, no optional argument *)
Definition ordinary (a : attr) : Prop := plain_short a /\ a_short a <> 0 /\ has (a_flags a) CFG_ARG_OPTIONAL = false.
Lemma ordinary_arg a : ordinary a -> arg_of (a_flags a) <> OptArg.
Proof. intros (_ & _ & H). unfold arg_of. rewrite H. destruct (has (a_flags a) CFG_ARG_REQUIRED); discriminate. Qed.
Definition found_ok (l : list attr) (f : found) : Prop :=
  (f_ch f = QMARK /\ f_arg f = None) \/ exists a, In a l /\ a_short a = f_ch f /\ (takes a = true -> f_arg f <> None).
Lemma short_ok l cs next : Forall ordinary l -> NoDup (map a_short l) ->
  exists fs b, short_args true (shortopts l) cs next = Done (fs, b) /\ Forall (found_ok l) fs.
Proof.
  intros O N. assert (PS : Forall plain_short l) by (refine (Forall_impl _ _ O); intros a (A & _); exact A).
  induction cs as [|c cs (fs & b & IH & F)]; [exists [], false; split; [reflexivity | constructor]|]. cbn [short_args].
  assert (QM : found_ok l (mkFound QMARK None [])) by (left; split; reflexivity).
  destruct (strchr c (shortopts l)) as [af|] eqn:S.
  2:{ cbn [tab_end rbind]. rewrite IH. cbn [rbind fst snd]. eexists. eexists. split; [reflexivity|]. constructor; assumption. }
  destruct (Z.eqb_spec c 58) as [E|E]; cbn [orb].
  { rewrite IH. cbn [rbind fst snd]. eexists. eexists. split; [reflexivity|]. constructor; assumption. }
  destruct (Z.eqb_spec c 59) as [E'|E'].
  { rewrite IH. cbn [rbind fst snd]. eexists. eexists. split; [reflexivity|]. constructor; assumption. }
  destruct (shortopts_inv l c af S E) as (a & I & <- & C & Z). destruct (shortopts_find l a PS N I C Z) as (af' & S1 & S2).
  rewrite S in S1. injection S1 as <-. rewrite S2. cbn [rbind].
  rewrite Forall_forall in O. pose proof (ordinary_arg a (O a I)) as NO.
  destruct (arg_of (a_flags a)) eqn:K; [| |congruence].
  - rewrite IH. cbn [rbind fst snd]. eexists. eexists. split; [reflexivity|]. constructor; [|exact F]. right. exists a. split; [exact I|]. split; [reflexivity|].
    unfold takes. rewrite K. discriminate.
  - destruct (negb (is_nil cs)).
    + eexists. eexists. split; [reflexivity|]. constructor; [|constructor]. right. exists a. split; [exact I|]. split; [reflexivity | discriminate].
    + destruct next; eexists; eexists; (split; [reflexivity|]; constructor; [|constructor]); [|exact QM]. right. exists a. split; [exact I|]. split; [reflexivity | discriminate].
Qed.
Lemma long_ok l s next : Forall ordinary l -> exists f b, long_args true (longopts l) s next = Done (f, b) /\ found_ok l f.
Proof.
  intros O. unfold long_args. destruct (split_eq s) as [n v]. assert (QM : found_ok l (mkFound QMARK None [])) by (left; split; reflexivity).
  destruct (find_long true (longopts l) n) as [[o|]|u] eqn:E; cbn [rbind].
  - apply find_long_in in E. destruct (longopts_in _ _ E) as (a & I & _ & _ & ->). cbn [l_arg l_val l_name]. rewrite Forall_forall in O. pose proof (ordinary_arg a (O a I)) as NO.
    assert (Some_ok : forall x y, found_ok l (mkFound (a_short a) (Some x) y)) by (intros; right; exists a; split; [exact I|]; split; [reflexivity | discriminate]).
    destruct (arg_of (a_flags a)) eqn:K; [| |congruence].
    + destruct v; eexists; eexists; (split; [reflexivity|]); [exact QM|]. right. exists a. split; [exact I|]. split; [reflexivity|]. unfold takes. rewrite K. discriminate.
    + destruct v as [x|]; [eexists; eexists; split; [reflexivity | apply Some_ok]|]. destruct next; eexists; eexists; (split; [reflexivity|]); [apply Some_ok | exact QM].
  - eexists. eexists. split; [reflexivity | exact QM].
  - unfold find_long in E. destruct (find_exact _ _); [discriminate|]. discriminate E.
Qed.
Lemma getopt_cases (a : name) (Q : Prop) (W : a = [45; 45] -> Q) (L : forall x s, a = 45 :: 45 :: x :: s -> Q) (S : forall x s, a = 45 :: x :: s -> x <> 45 -> Q)
  (P : hd_error a <> Some 45 \/ a = [45] -> Q) : Q.
Proof.
  destruct a as [|h a]; [apply P; left; discriminate|]. destruct (Z.eq_dec h 45) as [-> | N]; [|apply P; left; cbn; congruence].
  destruct a as [|x a]; [apply P; right; reflexivity|]. destruct (Z.eq_dec x 45) as [-> | N]; [|exact (S x a eq_refl N)].
  destruct a as [|y a]; [exact (W eq_refl) | exact (L y a eq_refl)].
Qed.
Lemma getopt_ok l args skip : Forall ordinary l -> NoDup (map a_short l) ->
  exists fs, getopt true (shortopts l) (longopts l) args skip = Done fs /\ Forall (found_ok l) fs.
Proof.
  intros O N. revert skip. induction args as [|a r IH]; intros skip; [exists []; split; [reflexivity | constructor]|].
  destruct skip; [exact (IH false)|]. apply (getopt_cases a).
  - intros ->. exists []. split; [reflexivity | constructor].
  - intros x s ->. rewrite getopt_long_eq. destruct (long_ok l (x :: s) (hd_error r) O) as (f & b & -> & F). cbn [rbind fst snd].
    destruct (IH b) as (fs & -> & FS). cbn [rbind]. eexists. split; [reflexivity|]. constructor; assumption.
  - intros x s -> Nx. rewrite getopt_short; [|exact Nx]. destruct (short_ok l (x :: s) (hd_error r) O N) as (f & b & -> & F). cbn [rbind fst snd].
    destruct (IH b) as (fs & -> & FS). cbn [rbind]. eexists. split; [reflexivity|]. apply Forall_app. split; assumption.
  - intros W. rewrite getopt_word; [|exact W]. exact (IH false).
Qed.
Lemma store_ok l f c v : Forall ordinary l -> NoDup (map a_short l) -> found_ok l v -> c_attrs c = with_vals f l ->
  exists c' f', store c v = Done c' /\ c_attrs c' = with_vals f' l.
Proof.
  intros O N FO E. rewrite Forall_forall in O. unfold store. destruct FO as [(A & B) | (a & I & A & B)].
  - rewrite A. change (0 <? QMARK) with true. cbn iota. rewrite store_by_char_skip.
    + cbn [rbind fst snd]. eexists. exists f. split; [reflexivity | exact E].
    + intros x X. rewrite E in X. apply in_map_iff in X as (y & <- & Y). cbn [set_val a_short]. destruct (O y Y) as (P & _). destruct (plain_not y P) as (_ & _ & G & _). exact G.
  - destruct (O a I) as (P & Z & NO). destruct (plain_not a P) as (_ & _ & _ & NN). rewrite <- A. destruct (Z.ltb_spec 0 (a_short a)); [|lia].
    set (a1 := set_val a (f a)).
    assert (S : exists p k, set_attr a1 (f_arg v) = Done (set_val a1 p, k)).
    { destruct (f_arg v) as [x|] eqn:FA; [rewrite set_attr_some; eexists; eexists; reflexivity|].
      unfold takes in B. destruct (arg_of (a_flags a)) eqn:K; [| destruct (B eq_refl eq_refl)..].
      rewrite set_attr_none; [|exact K]. eexists. eexists. reflexivity. }
    destruct S as (p & k & S).
    pose proof (store_by_char_eq (c_attrs c) a1 _ _ ltac:(rewrite E; unfold with_vals; rewrite map_map; rewrite (map_ext _ a_short); [exact N | intros; reflexivity])
       ltac:(rewrite E; unfold with_vals, a1; apply (in_map (fun a => set_val a (f a))); exact I) S) as SB.
    change (a_short a) with (a_short a1). rewrite SB. cbn [rbind fst snd]. eexists. exists (fun b => if a_short b =? a_short a then p else f b). split; [reflexivity|].
    cbn [c_attrs]. rewrite E. unfold with_vals. rewrite map_map. apply map_ext_in. intros b Ib. cbn [set_val a_short a1].
    destruct (Z.eqb_spec (a_short b) (a_short a)) as [Eq|Eq]; [|reflexivity]. rewrite (same_short _ _ _ N Ib I Eq). reflexivity.
Qed.
Lemma store_all_ok l fs f c : Forall ordinary l -> NoDup (map a_short l) -> Forall (found_ok l) fs -> c_attrs c = with_vals f l ->
  exists c' f', store_all c fs = Done c' /\ c_attrs c' = with_vals f' l.
Proof.
  intros O N. revert f c. induction fs as [|v fs IH]; intros f c F E.
  - exists c, f. split; [reflexivity | exact E].
  - inversion F as [|? ? F1 F2]; subst. cbn [store_all]. destruct (store_ok l f c v O N F1 E) as (c1 & f1 & -> & E1). cbn [rbind]. exact (IH f1 c1 F2 E1).
Qed.
(** any command line at all, when malloc returns zeroed memory: only values change *)
Theorem C105_defined_partial : forall etc m c argv,
  prepared etc m c -> Forall ordinary (c_attrs c) ->
  exists c' f, parse_commandline true c argv = Done c' /\ c_attrs c' = map (fun a => set_val a (f a)) (c_attrs c).
Proof.
  intros etc m c argv P O. apply prepared_prep in P. pose proof (r_shorts _ (p_reg _ P)) as N. rewrite parse_eq.
  destruct (getopt_ok (c_attrs c) (tl argv) false O N) as (fs & -> & F). cbn [rbind].
  pose proof (store_all_ok (c_attrs c) fs a_val c O N F (eq_sym (with_vals_id _))) as (c' & f & A & B). exists c', f. split; [exact A | exact B].
Qed.
(** without zeroed memory the end of the tables is garbage: every module reads it for -U, and for
    every long option that is not spelled out *)
Theorem C105_uninit_refuted : forall etc m c r prog,
  dax_init etc m = Done (c, r) ->
  (forall path, parse_commandline false c [prog; str "-U"; path] = Undef UUninit) /\
  (forall x s, find_exact (longopts (c_attrs c)) (fst (split_eq (x :: s))) = None ->
     parse_commandline false c [prog; str "--" ++ x :: s] = Undef UUninit).
Proof.
  intros etc m c r prog H. rewrite dax_init_eq in H. injection H as <- _. split.
  - intros path. vm_compute. reflexivity.
  - intros x s F. rewrite parse_eq. cbn [tl]. change (str "--" ++ x :: s) with (45 :: 45 :: x :: s). rewrite getopt_long_eq. unfold long_args.
    destruct (split_eq (x :: s)) as [n v] eqn:E. cbn [fst] in F. unfold find_long. rewrite F. reflexivity.
Qed.
(** an option whose argument is optional, given without one: strdup(NULL) *)
Theorem C105_optional_refuted : forall etc m c a prog,
  prepared etc m c -> Forall plain_short (c_attrs c) -> In a (c_attrs c) -> a_short a <> 0 ->
  has (a_flags a) CFG_CMDLINE = true -> has (a_flags a) CFG_ARG_OPTIONAL = true -> has (a_flags a) CFG_NO_VALUE = false ->
  parse_commandline true c [prog; [45; a_short a]] = Undef UNull.
Proof.
  intros etc m c a prog P PS I Z C O NV. apply prepared_prep in P. pose proof (p_reg _ P) as R. rewrite parse_eq. cbn [tl].
  assert (Pa : plain_short a) by (rewrite Forall_forall in PS; exact (PS a I)). destruct (plain_not a Pa) as (N58 & N59 & _ & NN).
  rewrite getopt_short; [|exact (short_ne a Pa Z)]. destruct (shortopts_find _ a PS (r_shorts _ R) I C Z) as (af & S1 & S2).
  cbn [short_args]. rewrite S1. destruct (Z.eqb_spec (a_short a) 58); [congruence|]. destruct (Z.eqb_spec (a_short a) 59); [congruence|]. cbn [orb]. rewrite S2. cbn [rbind].
  assert (K : arg_of (a_flags a) = OptArg) by (unfold arg_of; rewrite O; reflexivity). rewrite K. cbn [is_nil rbind fst snd hd_error getopt app store_all]. unfold store. cbn [f_ch f_arg].
  destruct (Z.ltb_spec 0 (a_short a)); [|lia].
  assert (SA : set_attr a None = Undef UNull). { unfold set_attr. rewrite NV, arg_or, O. reflexivity. }
  assert (SC : store_by_char (c_attrs c) (a_short a) None = Undef UNull).
  { pose proof (r_shorts _ R) as N. revert I N. clear -SA. induction (c_attrs c) as [|b l IH]; [intros []|]. intros I N. cbn [store_by_char].
    destruct (Z.eqb_spec (a_short b) (a_short a)) as [E|E].
    - rewrite (same_short _ b a N (or_introl eq_refl) I E), SA. reflexivity.
    - destruct I as [-> | I]; [congruence|]. inversion N; subst. rewrite IH; [reflexivity | exact I | assumption]. }
  rewrite SC. reflexivity.
Qed.
(** a long option without a letter, and a later attribute without a long name: strcasecmp(NULL) *)
Theorem C105_longonly_refuted : forall etc m prog, exists c0 c1 c,
  dax_init etc m = Done (c0, 0) /\
  add_attribute c0 (Some (str "rate")) (Some (str "rate")) 0 (Z.lor CFG_CMDLINE CFG_ARG_REQUIRED) None = Done (c1, 0) /\
  add_attribute c1 (Some (str "quiet")) None 113 CFG_CMDLINE None = Done (c, 0) /\
  parse_commandline true c [prog; str "--rate=5"] = Undef UNull.
Proof.
  intros etc m prog. do 3 eexists. split; [rewrite dax_init_eq; reflexivity|]. split; [vm_compute; reflexivity|]. split; [vm_compute; reflexivity|].
  vm_compute. reflexivity.
Qed.

(** ** C106: which attributes the file sets, and to what *)
(** an attribute that is not meant for the file (no CFG_MODCONF) is set by it all the same; and a
    flag that the file sets to false is on *)
Theorem C106_file_refuted : forall etc m c lua prog g,
  dax_init etc m = Done (c, 0) -> lua (path_of etc c []) (mod_of c []) (dir_of etc c []) = Some g -> g (str "verbose") = LBool false ->
  exists a c' r,
    In a (c_attrs c) /\ a_name a = str "verbose" /\ has (a_flags a) CFG_MODCONF = false /\
    configure etc lua true c [prog] (Z.lor CFG_CMDLINE CFG_MODCONF) = Done (c', Some r) /\
    get_attr c' (str "verbose") = Done (Some (str "Yes")).
Proof.
  intros etc m c lua prog g H L G.
  assert (PS : Forall plain_short (c_attrs c)). { rewrite dax_init_eq in H. injection H as <-. repeat (constructor; [right; vm_compute; auto|]). constructor. }
  destruct (C99_precedence etc m c [] lua prog (P_init _ _ _ _ H) PS (Forall_nil _)) as (c' & r & E & X).
  rewrite dax_init_eq in H. injection H as <-. eexists. exists c', r. split; [left; reflexivity|]. split; [reflexivity|]. split; [reflexivity|]. split; [exact E|].
  specialize (X _ (or_introl eq_refl)). rewrite L in X. refine (eq_trans (X _) _); [vm_compute; discriminate|]. unfold expected. cbn [from_cmd keeps_value given]. 
  change (from_cmd [] _) with (@None name). cbn [first before a_val]. unfold from_file. cbn [a_name a_flags]. cbn [globals].
  change (name_eqb (a_name (attr_of (std "verbose" 118 CFG_CMDLINE None))) (str "confdir")) with false. cbn iota.
  change (a_name (attr_of (std "verbose" 118 CFG_CMDLINE None))) with (str "verbose"). rewrite G. reflexivity.
Qed.
(** an attribute the file does not mention is not changed by it *)
Theorem C106_unmentioned : forall etc m c items lua1 lua2 prog,
  prepared etc m c -> Forall plain_short (c_attrs c) -> Forall (proper c) items ->
  exists c1 r1 c2 r2,
    configure etc lua1 true c (prog :: flat_map render items) (Z.lor CFG_CMDLINE CFG_MODCONF) = Done (c1, Some r1) /\
    configure etc lua2 true c (prog :: flat_map render items) (Z.lor CFG_CMDLINE CFG_MODCONF) = Done (c2, Some r2) /\
    forall a, In a (c_attrs c) -> a_name a <> str "config" ->
      lua_text (globals (lua1 (path_of etc c items) (mod_of c items) (dir_of etc c items)) (a_name a)) =
      lua_text (globals (lua2 (path_of etc c items) (mod_of c items) (dir_of etc c items)) (a_name a)) ->
      get_attr c1 (a_name a) = get_attr c2 (a_name a).
Proof.
  intros etc m c items lua1 lua2 prog P PS F.
  destruct (C99_precedence etc m c items lua1 prog P PS F) as (c1 & r1 & E1 & H1). destruct (C99_precedence etc m c items lua2 prog P PS F) as (c2 & r2 & E2 & H2).
  exists c1, r1, c2, r2. split; [exact E1|]. split; [exact E2|]. intros a I N G. rewrite H1, H2; try (intros; congruence); [|exact I..].
  unfold expected, from_file. rewrite G. reflexivity.
Qed.

(** ** C107: dax_set_attr and dax_get_attr *)
Theorem C107_set_get : forall etc m c n v c' r,
  prepared etc m c -> set_attr_by_name c n v = Done (c', r) ->
  (r = 0 -> exists a, find_attr (c_attrs c) n = Some a /\ get_attr c' n = Done (match v with Some x => Some x | None => a_def a end)) /\
  (r <> 0 -> r = E_NOTFOUND /\ c' = c /\ find_attr (c_attrs c) n = None) /\
  (forall x, x <> n -> get_attr c' x = get_attr c x).
Proof.
  intros etc m c n v c' r P H. apply prepared_prep in P. unfold set_attr_by_name in H. destruct (set_in (c_attrs c) n v) as [[l k]|] eqn:E; cbn [rbind fst snd] in H; [|discriminate].
  injection H as <- <-. destruct (set_in_inv _ _ _ _ _ (r_names _ (p_reg _ P)) E) as [(-> & -> & NF) | (-> & a & s & Fa & V & ->)].
  - split; [discriminate|]. split; [intros _; split; [reflexivity|]; split; [destruct c; reflexivity | exact NF] | reflexivity].
  - split; [|split; [congruence|]].
    + intros _. exists a. split; [exact Fa|]. unfold get_attr, get_ptr. cbn [with_attrs c_attrs]. rewrite find_attr_map; [|intros; apply set_named_keeps]. rewrite Fa. cbn [option_map].
      destruct (find_attr_in _ _ _ Fa) as (_ & NA). unfold set_named. rewrite NA, name_eqb_refl. cbn [set_val a_val]. destruct V as [-> | (-> & ->)]; reflexivity.
    + intros x N. unfold get_attr, get_ptr. cbn [with_attrs c_attrs]. rewrite find_attr_map; [|intros; apply set_named_keeps].
      destruct (find_attr (c_attrs c) x) as [b|] eqn:B; [|reflexivity]. cbn [option_map]. destruct (find_attr_in _ _ _ B) as (_ & NB). unfold set_named.
      destruct (name_eqb (a_name b) n) eqn:Q; [apply name_eqb_eq in Q; congruence | reflexivity].
Qed.
(** it is defined for every value given, before dax_configure *)
Theorem C107_defined_partial : forall etc m c n v, prepared etc m c -> exists c' r, set_attr_by_name c n (Some v) = Done (c', r).
Proof.
  intros etc m c n v P. apply prepared_prep in P. unfold set_attr_by_name. destruct (find_attr (c_attrs c) n) as [a|] eqn:E.
  - destruct (set_in_done (c_attrs c) n a v E) as (l' & ->); [|eexists; eexists; reflexivity]. destruct (find_attr_in _ _ _ E) as (I & _).
    pose proof (p_vals _ P) as V. rewrite Forall_forall in V. specialize (V a I). destruct (a_val a); [reflexivity | reflexivity | destruct V..].
  - assert (S : set_in (c_attrs c) n (Some v) = Done (c_attrs c, E_NOTFOUND)).
    { revert E. clear. induction (c_attrs c) as [|b l IH]; [reflexivity|]. cbn [find_attr set_in]. destruct (name_eqb (a_name b) n); [discriminate|]. intros E. rewrite (IH E). reflexivity. }
    rewrite S. eexists. eexists. reflexivity.
Qed.
(** back to the default, for an attribute without one: strdup(NULL) *)
Theorem C107_default_refuted : forall etc m c a,
  prepared etc m c -> In a (c_attrs c) -> a_def a = None -> set_attr_by_name c (a_name a) None = Undef UNull.
Proof.
  intros etc m c a P I D. apply prepared_prep in P. unfold set_attr_by_name.
  pose proof (p_vals _ P) as V. pose proof (r_names _ (p_reg _ P)) as N.
  assert (S : set_in (c_attrs c) (a_name a) None = Undef UNull).
  { revert V N I. clear -D. induction (c_attrs c) as [|b l IH]; [intros _ _ []|]. intros V N I. inversion V as [|? ? V1 V2]; subst. cbn [set_in].
    destruct (name_eqb (a_name b) (a_name a)) eqn:E.
    - apply name_eqb_eq in E. rewrite (same_name _ b a N (or_introl eq_refl) I E) in *. rewrite D. destruct (a_val a); [reflexivity | reflexivity | destruct V1..].
    - destruct I as [-> | I]; [rewrite name_eqb_refl in E; discriminate|]. cbn [map] in N. inversion N; subst. rewrite IH; auto. }
  rewrite S. reflexivity.
Qed.
(** after a flag was given on the command line dax_set_attr frees a string literal *)
Theorem C107_literal_refuted : forall etc m lua prog x, exists c c' r,
  dax_init etc m = Done (c, 0) /\ configure etc lua true c [prog; str "-v"] CFG_CMDLINE = Done (c', r) /\
  set_attr_by_name c' (str "verbose") (Some x) = Undef UUaf.
Proof. intros etc m lua prog x. do 3 eexists. split; [rewrite dax_init_eq; reflexivity|]. split; vm_compute; reflexivity. Qed.
