(** * OptProofs: lemmas about Opt.v *)
From Verif Require Import Base Const Types Lib Opt.

(** ** Lists of attributes *)
Lemma find_attr_in l n a : find_attr l n = Some a -> In a l /\ a_name a = n.
Proof.
  induction l as [|b l IH]; cbn [find_attr]; [discriminate|]. destruct (name_eqb (a_name b) n) eqn:E.
  - intros H. injection H as <-. apply name_eqb_eq in E. split; [left; reflexivity | exact E].
  - intros H. destruct (IH H). split; [right; assumption | assumption].
Qed.
Lemma find_attr_none l n : find_attr l n = None -> forall a, In a l -> a_name a <> n.
Proof.
  induction l as [|b l IH]; cbn [find_attr]; [intros _ a []|]. destruct (name_eqb (a_name b) n) eqn:E; [discriminate|].
  intros H a [<- | I]; [intros F; apply name_eqb_eq in F; congruence | exact (IH H a I)].
Qed.
Lemma find_attr_uniq l a : NoDup (map a_name l) -> In a l -> find_attr l (a_name a) = Some a.
Proof.
  induction l as [|b l IH]; [intros _ []|]. cbn [map find_attr]. intros N [-> | I].
  - rewrite name_eqb_refl. reflexivity.
  - inversion N as [|? ? N1 N2]; subst. destruct (name_eqb (a_name b) (a_name a)) eqn:E; [|exact (IH N2 I)].
    apply name_eqb_eq in E. exfalso. apply N1. rewrite E. apply in_map. exact I.
Qed.
Lemma find_attr_map l n f (F : forall a, a_name (f a) = a_name a) :
  find_attr (map f l) n = option_map f (find_attr l n).
Proof. induction l as [|b l IH]; [reflexivity|]. cbn [map find_attr]. rewrite F. destruct (name_eqb (a_name b) n); [reflexivity | exact IH]. Qed.

(** ** The registry invariant *)
Record reg_ok (l : list attr) : Prop := {
  r_names : NoDup (map a_name l);
  r_shorts : NoDup (map a_short l);
  r_longs : forall a b x, In a l -> In b l -> a_long a = Some x -> a_long b = Some x -> a = b
}.

Lemma check_used_ok l n lo so r : check_used l (Some n) lo so = Done r ->
  r = 0 <-> (forall a, In a l -> a_name a <> n /\ a_short a <> so /\ (lo = None \/ a_long a <> lo)).
Proof.
  induction l as [|b l IH]; cbn [check_used].
  - intros H. injection H as <-. split; [intros _ a [] | reflexivity].
  - destruct (name_eqb (a_name b) n) eqn:E1.
    { intros H. injection H as <-. split; [discriminate|]. intros F. apply name_eqb_eq in E1. destruct (F b (or_introl eq_refl)); congruence. }
    destruct (match lo, a_long b with Some x, Some y => name_eqb y x | _, _ => false end) eqn:E2.
    { intros H. injection H as <-. split; [discriminate|]. intros F. destruct (F b (or_introl eq_refl)) as (_ & _ & [G | G]).
      - rewrite G in E2. discriminate.
      - destruct lo as [x|]; [|discriminate]. destruct (a_long b) as [y|]; [|discriminate]. apply name_eqb_eq in E2. congruence. }
    destruct (a_short b =? so) eqn:E3.
    { intros H. injection H as <-. split; [discriminate|]. intros F. destruct (F b (or_introl eq_refl)) as (_ & G & _). lia. }
    intros H. rewrite (IH H). split.
    + intros F a [<- | I]; [|exact (F a I)]. split; [|split].
      * intros G. rewrite G, name_eqb_refl in E1. discriminate.
      * lia.
      * destruct lo as [x|]; [right | left; reflexivity]. intros G. rewrite G, name_eqb_refl in E2. discriminate.
    + intros F a I. apply F. right. exact I.
Qed.
Lemma add_inv c n lo so fl def c' r : add_attribute c n lo so fl def = Done (c', r) ->
  (r <> 0 /\ c' = c) \/
  (r = 0 /\ exists nm, n = Some nm /\ c' = with_attrs c (mkAttr nm lo so def VNull fl 0 :: c_attrs c) /\
            validate_name n = true /\ validate_longopt lo = true /\
            (forall a, In a (c_attrs c) -> a_name a <> nm /\ a_short a <> so /\ (lo = None \/ a_long a <> lo))).
Proof.
  unfold add_attribute, check_attr. destruct (validate_name n) eqn:V1; cbn [negb].
  2:{ cbn [rbind]. intros H. injection H as <- <-. left. split; [discriminate | reflexivity]. }
  destruct (validate_longopt lo) eqn:V2; cbn [negb].
  2:{ cbn [rbind]. intros H. injection H as <- <-. left. split; [discriminate | reflexivity]. }
  destruct (check_used (c_attrs c) n lo so) as [k|] eqn:E; cbn [rbind]; [|discriminate].
  destruct (k =? 0) eqn:K; cbn [negb].
  - destruct n as [nm|]; intros H; injection H as <- <-.
    + right. split; [reflexivity|]. exists nm. split; [reflexivity|]. split; [reflexivity|]. repeat (split; [reflexivity|]).
      apply (check_used_ok _ _ _ _ _ E). lia.
    + left. split; [discriminate | reflexivity].
  - intros H. injection H as <- <-. left. split; [lia | reflexivity].
Qed.
Lemma reg_add l a : reg_ok l -> (forall b, In b l -> a_name b <> a_name a /\ a_short b <> a_short a /\ (a_long a = None \/ a_long b <> a_long a)) ->
  reg_ok (a :: l).
Proof.
  intros [N S L] F. constructor.
  - cbn [map]. constructor; [|exact N]. intros I. apply in_map_iff in I as (b & B & I). destruct (F b I) as (G & _). congruence.
  - cbn [map]. constructor; [|exact S]. intros I. apply in_map_iff in I as (b & B & I). destruct (F b I) as (_ & G & _). congruence.
  - intros x y z [<- | Ix] [<- | Iy] X Y; [reflexivity | | | exact (L x y z Ix Iy X Y)].
    + destruct (F y Iy) as (_ & _ & [G | G]); congruence.
    + destruct (F x Ix) as (_ & _ & [G | G]); congruence.
Qed.
Lemma reg_map l f (F : forall a, a_name (f a) = a_name a /\ a_short (f a) = a_short a /\ a_long (f a) = a_long a) :
  reg_ok l -> reg_ok (map f l).
Proof.
  intros [N S L]. constructor.
  - rewrite map_map. rewrite (map_ext _ a_name); [exact N | intros a; apply F].
  - rewrite map_map. rewrite (map_ext _ a_short); [exact S | intros a; apply F].
  - intros a b x Ia Ib A B. apply in_map_iff in Ia as (a0 & <- & Ia). apply in_map_iff in Ib as (b0 & <- & Ib).
    destruct (F a0) as (_ & _ & Ga), (F b0) as (_ & _ & Gb). f_equal. apply (L a0 b0 x Ia Ib); congruence.
Qed.

Definition set_named (n : name) (p : aval) (a : attr) : attr := if name_eqb (a_name a) n then set_val a p else a.
Lemma set_named_id l n p : (forall a, In a l -> a_name a <> n) -> map (set_named n p) l = l.
Proof.
  induction l as [|b l IH]; intros F; [reflexivity|]. cbn [map]. rewrite IH; [|intros a I; apply F; right; exact I].
  unfold set_named. destruct (name_eqb (a_name b) n) eqn:E; [|reflexivity]. apply name_eqb_eq in E. destruct (F b (or_introl eq_refl) E).
Qed.
Lemma set_in_inv l n v l' r : NoDup (map a_name l) -> set_in l n v = Done (l', r) ->
  (r = E_NOTFOUND /\ l' = l /\ find_attr l n = None) \/
  (r = 0 /\ exists a s, find_attr l n = Some a /\ (v = Some s \/ (v = None /\ a_def a = Some s)) /\ l' = map (set_named n (VHeap s)) l).
Proof.
  revert l' r. induction l as [|b l IH]; intros l' r N; cbn [set_in find_attr].
  - intros H. injection H as <- <-. left. repeat (split; [reflexivity|]). reflexivity.
  - inversion N as [|? ? N1 N2]; subst. destruct (name_eqb (a_name b) n) eqn:E.
    + destruct (free_val (a_val b)) as [[]|] eqn:F; cbn [rbind]; [|discriminate].
      destruct (strdup (match v with None => a_def b | Some x => Some x end)) as [p|] eqn:S; cbn [rbind]; [|discriminate].
      intros H. injection H as <- <-. right. split; [reflexivity|].
      unfold strdup in S. destruct (match v with None => a_def b | Some x => Some x end) as [s|] eqn:D; [|discriminate]. injection S as <-.
      exists b, s. split; [reflexivity|]. split; [destruct v; [left; congruence | right; split; [reflexivity | exact D]]|].
      cbn [map]. unfold set_named at 1. rewrite E. f_equal. symmetry. apply set_named_id. intros a I F'. apply N1.
      apply name_eqb_eq in E. rewrite E, <- F'. apply in_map. exact I.
    + destruct (set_in l n v) as [[l1 r1]|] eqn:S; cbn [rbind fst snd]; [|discriminate]. intros H. injection H as <- <-.
      destruct (IH l1 r1 N2 eq_refl) as [(A & B & C) | (A & a & s & B & C & D)].
      * left. subst l1. split; [exact A|]. split; [reflexivity | exact C].
      * right. split; [exact A|]. exists a, s. split; [exact B|]. split; [exact C|]. cbn [map]. subst l1.
        unfold set_named at 2. rewrite E. reflexivity.
Qed.
Lemma set_in_done l n a s : find_attr l n = Some a -> free_val (a_val a) = Done tt -> exists l', set_in l n (Some s) = Done (l', 0).
Proof.
  induction l as [|b l IH]; cbn [find_attr set_in]; [discriminate|]. destruct (name_eqb (a_name b) n).
  - intros H F. injection H as ->. rewrite F. cbn [rbind strdup]. eexists. reflexivity.
  - intros H F. destruct (IH H F) as (l' & ->). cbn [rbind fst snd]. eexists. reflexivity.
Qed.
Lemma set_named_keeps n p a : a_name (set_named n p a) = a_name a /\ a_short (set_named n p a) = a_short a /\ a_long (set_named n p a) = a_long a /\
  a_flags (set_named n p a) = a_flags a /\ a_def (set_named n p a) = a_def a.
Proof. unfold set_named. destruct (name_eqb _ _); repeat (split; [reflexivity|]); reflexivity. Qed.

(** ** The option tables *)
(** letters usable as short options *)
Definition plain_short (a : attr) : Prop := a_short a = 0 \/ isalpha (a_short a) = true \/ isdigit (a_short a) = true.
Lemma plain_not a : plain_short a -> a_short a <> 58 /\ a_short a <> 59 /\ a_short a <> 63 /\ 0 <= a_short a.
Proof. unfold plain_short, isalpha, isdigit. lia. Qed.
Lemma arg_or f : has f (Z.lor CFG_ARG_OPTIONAL CFG_ARG_REQUIRED) = has f CFG_ARG_OPTIONAL || has f CFG_ARG_REQUIRED.
Proof.
  unfold has. rewrite Z.land_lor_distr_r. destruct (Z.eqb_spec (Z.land f CFG_ARG_OPTIONAL) 0) as [A|A], (Z.eqb_spec (Z.land f CFG_ARG_REQUIRED) 0) as [B|B].
  - rewrite A, B. reflexivity.
  - rewrite A. cbn [Z.lor]. destruct (Z.land f CFG_ARG_REQUIRED); [congruence | reflexivity..].
  - rewrite B, Z.lor_0_r. destruct (Z.land f CFG_ARG_OPTIONAL) eqn:E; [congruence | reflexivity..].
  - destruct (Z.eqb_spec (Z.lor (Z.land f CFG_ARG_OPTIONAL) (Z.land f CFG_ARG_REQUIRED)) 0) as [C|C]; [|reflexivity].
    apply Z.lor_eq_0_iff in C. tauto.
Qed.

Lemma strchr_skip c s t : (forall x, In x s -> x <> c) -> strchr c (s ++ t) = strchr c t.
Proof.
  induction s as [|x s IH]; intros F; [reflexivity|]. cbn [app strchr]. destruct (Z.eqb_spec x c) as [E|E].
  - destruct (F x (or_introl eq_refl) E).
  - apply IH. intros y I. apply F. right. exact I.
Qed.
Lemma short_chars_in a x : In x (short_chars a) -> x = a_short a \/ x = 58.
Proof.
  unfold short_chars. destruct (has (a_flags a) CFG_CMDLINE && negb (a_short a =? 0)); [|intros []].
  destruct (has (a_flags a) CFG_ARG_OPTIONAL); [|destruct (has (a_flags a) CFG_ARG_REQUIRED)]; cbn [In]; intuition lia.
Qed.
Lemma short_chars_not a l c : plain_short a -> In a l -> NoDup (map a_short l) -> forall b, In b l -> b <> a -> c = a_short a ->
  forall x, In x (short_chars b) -> x <> c.
Proof.
  intros P Ia N b Ib D -> x X. apply short_chars_in in X as [-> | ->]; [|destruct (plain_not a P); lia].
  intros E. apply D. clear P D. revert Ia Ib N E. induction l as [|h l IH]; [intros []|]. cbn [map].
  intros [-> | Ia] [-> | Ib] N E; inversion N as [|? ? N1 N2]; subst.
  - reflexivity.
  - destruct N1. rewrite <- E. apply in_map. exact Ib.
  - destruct N1. rewrite E. apply in_map. exact Ia.
  - exact (IH Ia Ib N2 E).
Qed.
(** the tail after an option letter decides how it takes an argument *)
Lemma short_head_not l : Forall plain_short l -> match shortopts l with 58 :: _ => False | _ => True end.
Proof.
  induction l as [|a l IH]; intros F; inversion F as [|? ? P Q]; subst; [exact I|]. unfold shortopts. cbn [flat_map]. unfold short_chars.
  destruct (has (a_flags a) CFG_CMDLINE && negb (a_short a =? 0)) eqn:E; [|exact (IH Q)].
  cbn [app]. destruct (plain_not a P) as (A & _). revert A. generalize (a_short a). intros z A.
  destruct (Z.eq_dec z 58); [congruence|]. destruct z; try exact I. do 6 (destruct p; try exact I). congruence.
Qed.
Lemma short_arg_eq z l a : Forall plain_short l -> z = true ->
  short_arg z ((if has (a_flags a) CFG_ARG_OPTIONAL then [58; 58] else if has (a_flags a) CFG_ARG_REQUIRED then [58] else []) ++ shortopts l)
  = Done (arg_of (a_flags a)).
Proof.
  intros F ->. pose proof (short_head_not l F) as H. unfold arg_of. destruct (has (a_flags a) CFG_ARG_OPTIONAL); [reflexivity|].
  destruct (has (a_flags a) CFG_ARG_REQUIRED); cbn [app].
  - destruct (shortopts l) as [|x r]; [reflexivity|]. unfold short_arg.
    destruct x; try reflexivity. do 6 (destruct p; try reflexivity). destruct H.
  - destruct (shortopts l) as [|x r]; [reflexivity|]. unfold short_arg.
    destruct x; try reflexivity. do 6 (destruct p; try reflexivity). destruct H.
Qed.
Lemma shortopts_find l a : Forall plain_short l -> NoDup (map a_short l) -> In a l -> has (a_flags a) CFG_CMDLINE = true -> a_short a <> 0 ->
  exists after, strchr (a_short a) (shortopts l) = Some after /\ short_arg true after = Done (arg_of (a_flags a)).
Proof.
  intros F N I C Z. destruct (in_split a l I) as (l1 & l2 & E). subst l.
  assert (D : forall b, In b l1 -> b <> a).
  { intros b Ib ->. rewrite map_app in N. cbn [map] in N. apply NoDup_remove_2 in N. apply N. apply in_or_app. left. apply in_map. exact Ib. }
  assert (P : plain_short a). { rewrite Forall_forall in F. apply F. exact I. }
  unfold shortopts. rewrite flat_map_app. rewrite strchr_skip.
  2:{ intros x X. apply in_flat_map in X as (b & Ib & X). apply (short_chars_not a (l1 ++ a :: l2) (a_short a) P I N b); [apply in_or_app; left; exact Ib | exact (D b Ib) | reflexivity | exact X]. }
  cbn [flat_map]. unfold short_chars at 1. rewrite C. destruct (Z.eqb_spec (a_short a) 0); [congruence|]. cbn [andb negb app strchr].
  rewrite Z.eqb_refl. eexists. split; [reflexivity|]. apply (short_arg_eq true l2 a); [|reflexivity].
  apply Forall_app in F as [_ F]. inversion F; assumption.
Qed.
Lemma strchr_in c s r : strchr c s = Some r -> In c s.
Proof. revert r. induction s as [|x s IH]; cbn [strchr]; [discriminate|]. intros r. destruct (Z.eqb_spec x c) as [-> |]; [left; reflexivity | right; eauto]. Qed.
(** every letter that getopt recognises (other than ':') is the letter of an attribute *)
Lemma shortopts_inv l c r : strchr c (shortopts l) = Some r -> c <> 58 ->
  exists a, In a l /\ a_short a = c /\ has (a_flags a) CFG_CMDLINE = true /\ a_short a <> 0.
Proof.
  intros H N. apply strchr_in in H. unfold shortopts in H. apply in_flat_map in H as (a & I & X). exists a. split; [exact I|].
  pose proof (short_chars_in a c X) as [-> | ->]; [|congruence]. split; [reflexivity|]. unfold short_chars in X.
  destruct (has (a_flags a) CFG_CMDLINE && negb (a_short a =? 0)) eqn:E; [|destruct X]. apply andb_true_iff in E as [E1 E2]. split; [exact E1 | lia].
Qed.

Lemma find_exact_in tab n o : find_exact tab n = Some o -> In o tab /\ l_name o = n.
Proof.
  induction tab as [|x tab IH]; cbn [find_exact]; [discriminate|]. destruct (name_eqb (l_name x) n) eqn:E.
  - intros H. injection H as <-. apply name_eqb_eq in E. split; [left; reflexivity | exact E].
  - intros H. destruct (IH H). split; [right|]; assumption.
Qed.
Lemma find_exact_some tab n o : In o tab -> l_name o = n -> exists o', find_exact tab n = Some o'.
Proof.
  induction tab as [|x tab IH]; [intros []|]. cbn [find_exact]. intros [-> | I] E.
  - rewrite E, name_eqb_refl. eexists. reflexivity.
  - destruct (name_eqb (l_name x) n); [eexists; reflexivity | exact (IH I E)].
Qed.
Lemma longopts_in l o : In o (longopts l) -> exists a, In a l /\ a_long a = Some (l_name o) /\ has (a_flags a) CFG_CMDLINE = true /\
  o = mkLopt (l_name o) (arg_of (a_flags a)) (a_short a).
Proof.
  intros H. unfold longopts in H. apply in_flat_map in H as (a & I & X). exists a. split; [exact I|]. unfold long_of in X.
  destruct (a_long a) as [n|]; [|destruct X]. destruct (has (a_flags a) CFG_CMDLINE) eqn:E; [|destruct X]. destruct X as [<- | []].
  split; [reflexivity|]. split; [reflexivity|]. reflexivity.
Qed.
Lemma longopts_find l a n : reg_ok l -> In a l -> a_long a = Some n -> has (a_flags a) CFG_CMDLINE = true ->
  find_exact (longopts l) n = Some (mkLopt n (arg_of (a_flags a)) (a_short a)).
Proof.
  intros R I L C. assert (X : In (mkLopt n (arg_of (a_flags a)) (a_short a)) (longopts l)).
  { unfold longopts. apply in_flat_map. exists a. split; [exact I|]. unfold long_of. rewrite L, C. left. reflexivity. }
  destruct (find_exact_some _ n _ X eq_refl) as (o & E). rewrite E. destruct (find_exact_in _ _ _ E) as (Io & No).
  destruct (longopts_in _ _ Io) as (b & Ib & Lb & Cb & ->). cbn [l_name] in *. subst n.
  rewrite (r_longs l R b a (l_name o) Ib I Lb L). reflexivity.
Qed.
Lemma find_long_in z l n o : find_long z (longopts l) n = Done (Some o) -> In o (longopts l).
Proof.
  unfold find_long. destruct (find_exact (longopts l) n) as [x|] eqn:E.
  - intros H. injection H as <-. apply (find_exact_in _ _ _ E).
  - unfold tab_end. destruct z; cbn [rbind]; [|discriminate]. intros H. injection H as H. unfold find_abbrev in H.
    destruct (filter _ (longopts l)) as [|x r] eqn:F; [discriminate|]. destruct (forallb _ r); [|discriminate]. injection H as <-.
    assert (G : In x (filter (fun o => is_prefix n (l_name o)) (longopts l))) by (rewrite F; left; reflexivity).
    apply filter_In in G. tauto.
Qed.

(** the tables fit in the allocated arrays *)
Lemma tables_fit l : zlen (shortopts l) <= o_count l /\ zlen (longopts l) <= zlen l.
Proof.
  induction l as [|a l [IH1 IH2]]; [split; cbn; lia|]. split.
  - unfold shortopts. cbn [flat_map o_count fold_right]. unfold zlen in *. rewrite app_length. fold (shortopts l). fold (o_count l).
    enough (Z.of_nat (length (short_chars a)) <= short_count a) by lia.
    unfold short_chars, short_count. destruct (Z.eqb_spec (a_short a) 0); [rewrite andb_false_r; cbn; lia|]. rewrite andb_true_r.
    destruct (has (a_flags a) CFG_CMDLINE); [|cbn [length]; destruct (has (a_flags a) CFG_ARG_OPTIONAL), (has (a_flags a) CFG_ARG_REQUIRED); lia].
    destruct (has (a_flags a) CFG_ARG_OPTIONAL), (has (a_flags a) CFG_ARG_REQUIRED); cbn [length]; lia.
  - unfold longopts. cbn [flat_map]. unfold zlen in *. rewrite app_length. fold (longopts l). cbn [length].
    enough (Z.of_nat (length (long_of a)) <= 1) by lia.
    unfold long_of. destruct (a_long a); [destruct (has _ _)|]; cbn [length]; lia.
Qed.
Lemma parse_eq z c argv : parse_commandline z c argv =
  (f <-- getopt z (shortopts (c_attrs c)) (longopts (c_attrs c)) (tl argv) false ;; store_all c f).
Proof.
  unfold parse_commandline. destruct (tables_fit (c_attrs c)) as [A B].
  destruct (Z.leb_spec (o_count (c_attrs c) + 1) (zlen (shortopts (c_attrs c)))); [lia|].
  destruct (Z.leb_spec (zlen (c_attrs c) + 1) (zlen (longopts (c_attrs c)))); [lia|]. reflexivity.
Qed.

(** ** Storing values *)
(** the value an attribute gets *)
Definition new_val (a : attr) (v : name) : aval :=
  if has (a_flags a) CFG_NO_VALUE then a_val a
  else match arg_of (a_flags a) with NoArg => VLit YES | _ => VHeap v end.
Definition new_call (a : attr) (v : option name) : list (Z * name * option name) :=
  if a_cb a =? 0 then [] else [(a_cb a, a_name a, v)].
Lemma set_attr_some a v : set_attr a (Some v) = Done (set_val a (new_val a v), new_call a (Some v)).
Proof.
  unfold set_attr, new_val, new_call, arg_of. rewrite arg_or. destruct (has (a_flags a) CFG_NO_VALUE); [reflexivity|].
  destruct (has (a_flags a) CFG_ARG_OPTIONAL); [reflexivity|]. destruct (has (a_flags a) CFG_ARG_REQUIRED); reflexivity.
Qed.
Lemma set_attr_none a : arg_of (a_flags a) = NoArg -> set_attr a None = Done (set_val a (new_val a []), new_call a None).
Proof.
  unfold set_attr, new_val, new_call, arg_of. rewrite arg_or. intros H. destruct (has (a_flags a) CFG_NO_VALUE); [reflexivity|].
  destruct (has (a_flags a) CFG_ARG_OPTIONAL); [discriminate|]. destruct (has (a_flags a) CFG_ARG_REQUIRED); [discriminate|]. reflexivity.
Qed.
Lemma set_attr_keeps a v a' k : set_attr a v = Done (a', k) -> exists p, a' = set_val a p.
Proof. unfold set_attr. destruct (if has (a_flags a) CFG_NO_VALUE then _ else _) as [p|]; cbn [rbind]; [|discriminate]. intros H. injection H as <- <-. eexists. reflexivity. Qed.

Lemma store_by_char_skip l ch v : (forall a, In a l -> a_short a <> ch) -> store_by_char l ch v = Done (l, []).
Proof.
  induction l as [|b l IH]; intros F; [reflexivity|]. cbn [store_by_char]. destruct (Z.eqb_spec (a_short b) ch) as [E|E]; [destruct (F b (or_introl eq_refl) E)|].
  rewrite IH; [reflexivity | intros a I; apply F; right; exact I].
Qed.
Lemma store_by_char_eq l a v x : NoDup (map a_short l) -> In a l -> set_attr a v = Done x ->
  store_by_char l (a_short a) v = Done (map (fun b => if a_short b =? a_short a then fst x else b) l, snd x).
Proof.
  induction l as [|b l IH]; [intros _ []|]. cbn [map store_by_char]. intros N I E. inversion N as [|? ? N1 N2]; subst.
  destruct (Z.eqb_spec (a_short b) (a_short a)) as [S|S].
  - assert (A : a = b). { destruct I as [-> | I]; [reflexivity|]. destruct N1. rewrite S. apply in_map. exact I. }
    subst b. rewrite E. cbn [rbind]. f_equal. f_equal. f_equal. rewrite <- (map_id l) at 1. apply map_ext_in. intros y Y.
    destruct (Z.eqb_spec (a_short y) (a_short a)) as [Q|Q]; [|reflexivity]. destruct N1. rewrite <- Q. apply in_map. exact Y.
  - destruct I as [-> | I]; [congruence|]. rewrite (IH N2 I E). reflexivity.
Qed.
