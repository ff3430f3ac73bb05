(** * Prop_Daxc: C151-C153, lines and files of the command line client *)
From Verif Require Import Base Const Types State Lib Daxc Demo.

(** ** C151 *)
(** words with single spaces between them *)
Fixpoint join (l : list name) : name := match l with [] => [] | [w] => w | w :: r => w ++ 32 :: join r end.
(** a word: without spaces and quotes, or in quotes, where every quote inside has a backslash before it *)
Definition word (w : name) : Prop :=
  ~ In 32 w /\ ~ In 34 w \/
  exists b, w = [34] ++ b ++ [34] /\ (forall x y, b = x ++ [34] ++ y -> last x 0 = 92) /\ last b 0 <> 92.

Lemma last_cons {A} (c : A) a d : last (c :: a) d = last a c.
Proof. revert c d. induction a as [|x a IH]; intros c d; [reflexivity|]. change (last (c :: x :: a) d) with (last (x :: a) d). rewrite (IH x d), (IH x c). reflexivity. Qed.
Definition ended (x r : name) : Prop := x = [] /\ r = [] \/ x = 32 :: r.
Lemma tok_plain w : forall l x r, ~ In 32 w -> ~ In 34 w -> ended x r -> tok false l (w ++ x) = (w, r).
Proof.
  induction w as [|c w IH]; intros l x r A B E; cbn [app].
  - destruct E as [(-> & ->)| ->]; reflexivity.
  - cbn [tok]. replace (c =? 34) with false by (symmetry; apply Z.eqb_neq; intros ->; apply B; left; reflexivity).
    replace (c =? 32) with false by (symmetry; apply Z.eqb_neq; intros ->; apply A; left; reflexivity).
    rewrite (IH l x r); [reflexivity | intros I; apply A; right; exact I | intros I; apply B; right; exact I | exact E].
Qed.
Lemma tok_quoted b : forall l x r, (forall p q, b = p ++ [34] ++ q -> last p l = 92) -> last b l <> 92 -> ended x r -> tok true l (b ++ 34 :: x) = (b ++ [34], r).
Proof.
  induction b as [|c b IH]; intros l x r Q L E; cbn [app].
  - cbn [tok]. cbn [last] in L. replace (l =? 92) with false by (symmetry; apply Z.eqb_neq; exact L). cbn [Z.eqb Pos.eqb negb andb].
    assert (T := tok_plain [] 34 x r (fun H => H) (fun H => H) E). cbn [app] in T. rewrite T. reflexivity.
  - rewrite last_cons in L. cbn [tok]. replace (negb ((c =? 34) && negb (l =? 92))) with true.
    + rewrite (IH c x r); [reflexivity | | exact L | exact E]. intros p q Hb. specialize (Q (c :: p) q). rewrite last_cons in Q. apply Q. rewrite Hb. reflexivity.
    + destruct (Z.eqb_spec c 34) as [->|N]; [|reflexivity]. specialize (Q [] b eq_refl). cbn [last] in Q. subst l. reflexivity.
Qed.
Lemma tok_word w x r : word w -> ended x r -> tok false 0 (w ++ x) = (w, r).
Proof.
  intros [[A B]|(b & -> & Q & L)] E; [apply tok_plain; assumption|]. cbn [app tok Z.eqb Pos.eqb]. rewrite <- app_assoc. cbn [app]. rewrite (tok_quoted b 34 x r); [reflexivity | | | exact E].
  - intros p q Hb. specialize (Q p q Hb). destruct p as [|c p]; [cbn in Q; discriminate|]. rewrite last_cons in Q. rewrite last_cons. exact Q.
  - destruct b as [|c b]; [discriminate|]. rewrite last_cons in *. exact L.
Qed.
Lemma join_ne l : last l [] <> [] -> join l <> [].
Proof. induction l as [|w l IH]; cbn [join last]; [auto|]. destruct l as [|v l]; [auto|]. intros _. destruct w; discriminate. Qed.
Lemma join_cons w v l : join (w :: v :: l) = w ++ 32 :: join (v :: l).
Proof. reflexivity. Qed.
Lemma toks_words l : l <> [] -> Forall word l -> last l [] <> [] -> forall n, (length (join l) <= n)%nat -> toks n (join l) = l.
Proof.
  induction l as [|w l IH]; intros N F L n Hn; [congruence|]. apply Forall_cons_iff in F as [W F].
  assert (Ne : join (w :: l) <> []) by (apply join_ne; exact L). destruct n as [|n]; [destruct (join (w :: l)); [congruence | cbn in Hn; lia]|].
  destruct l as [|v l].
  - cbn [join] in *. destruct w as [|c w]; [congruence|]. cbn [toks]. assert (T := tok_word (c :: w) [] [] W (or_introl (conj eq_refl eq_refl))). rewrite app_nil_r in T. rewrite T. destruct n; reflexivity.
  - rewrite join_cons in *. assert (T := tok_word w (32 :: join (v :: l)) (join (v :: l)) W (or_intror eq_refl)).
    assert (X : toks n (join (v :: l)) = v :: l) by (apply IH; [discriminate | exact F | exact L |]; rewrite app_length in Hn; cbn [length] in Hn; lia).
    destruct (w ++ 32 :: join (v :: l)) as [|c z] eqn:Q; [destruct w; discriminate|]. cbn [toks]. rewrite T, X. reflexivity.
Qed.
(** the tokens of a line of words are these words *)
Theorem C151_words : forall ws, Forall word ws -> last ws [] <> [] -> tokens_of (join ws) = ws.
Proof. intros ws F L. apply toks_words; [destruct ws; [contradiction|discriminate] | exact F | exact L | lia]. Qed.
Lemma tok_split s : forall q l t r, tok q l s = (t, r) -> s = t /\ r = [] \/ s = t ++ 32 :: r.
Proof.
  induction s as [|c s IH]; intros q l t r H; cbn [tok] in H; [injection H as <- <-; auto|].
  destruct q.
  - destruct (tok _ c s) as [t' r'] eqn:T. injection H as <- <-. destruct (IH _ _ _ _ T) as [(-> & ->)| ->]; auto.
  - destruct (c =? 34).
    + destruct (tok true c s) as [t' r'] eqn:T. injection H as <- <-. destruct (IH _ _ _ _ T) as [(-> & ->)| ->]; auto.
    + destruct (Z.eqb_spec c 32) as [->|N]; [injection H as <- <-; auto|]. destruct (tok false l s) as [t' r'] eqn:T. injection H as <- <-. destruct (IH _ _ _ _ T) as [(-> & ->)| ->]; auto.
Qed.
Lemma toks_join : forall n s, (length s <= n)%nat -> s <> [] -> toks n s <> [] /\ (s = join (toks n s) \/ s = join (toks n s) ++ [32]).
Proof.
  induction n as [|n IH]; intros s L N; [destruct s; [congruence | cbn in L; lia]|]. destruct s as [|c s]; [congruence|]. cbn [toks].
  destruct (tok false 0 (c :: s)) as [t r] eqn:T. split; [discriminate|]. apply tok_split in T as [(-> & ->)|T].
  - destruct n; cbn [toks join]; auto.
  - destruct r as [|d r]; [rewrite T; destruct n; cbn [toks join]; auto|].
    assert (Lr : (length (d :: r) <= n)%nat) by (apply (f_equal (@length Z)) in T; rewrite app_length in T; cbn [length] in T, L |- *; lia).
    destruct (IH (d :: r) Lr ltac:(discriminate)) as (Ne & S). destruct (toks n (d :: r)) as [|v l]; [congruence|]. rewrite T, join_cons.
    destruct S as [S|S]; [left | right]; rewrite S at 1; [reflexivity|]. rewrite <- app_assoc. reflexivity.
Qed.
(** nothing of any line is lost but one space at its end *)
Theorem C151_lossless : forall line, line <> [] -> line = join (tokens_of line) \/ line = join (tokens_of line) ++ [32].
Proof. intros line N. exact (proj2 (toks_join _ _ (Nat.le_refl _) N)). Qed.
(** FULL STATEMENT (false, see below): no line does anything undefined.  What holds: so it is if malloc hands out multiples of 8 bytes. *)
Theorem C151_safe_partial : forall usable line, (forall n, n <= usable n /\ usable n mod 8 = 0) -> exists c, runcmd usable line = Done c.
Proof.
  intros usable line U. unfold runcmd. destruct line as [|c r] eqn:Ql; [eauto|]. destruct (c =? 35); [eauto|]. rewrite <- Ql. cbv zeta.
  destruct (U (8 * zlen (tokens_of line) + 1)) as [A B]. replace (_ <? _) with false by lia.
  destruct (toks_join _ line (Nat.le_refl _) ltac:(subst; discriminate)) as (N & _). fold (tokens_of line) in N. destruct (tokens_of line); [congruence | eauto].
Qed.
(** REFUTED: the array of the tokens is seven bytes too small for the pointer at its end, whatever the command *)
Theorem C151_overflow_refuted : forall line, line <> [] -> hd 0 line <> 35 -> runcmd (fun n => n) line = Undef UOob.
Proof.
  intros line N H. unfold runcmd. destruct line as [|c r] eqn:Ql; [congruence|]. cbn [hd] in H. replace (c =? 35) with false by lia. rewrite <- Ql. cbv zeta. replace (_ <? _) with true by lia. reflexivity.
Qed.
Example C151_ex : Forall word [str "write"; str "x"; 34 :: str "a \" ++ 34 :: str "b" ++ [34]] /\
  tokens_of (str "write x " ++ 34 :: str "a \" ++ 34 :: str "b" ++ [34]) = [str "write"; str "x"; 34 :: str "a \" ++ 34 :: str "b" ++ [34]] /\ tokens_of (str "a  b ") = [str "a"; []; str "b"].
Proof.
  split; [|split; reflexivity].
  constructor; [left; cbn; intuition discriminate|]. constructor; [left; cbn; intuition discriminate|]. constructor; [|constructor].
  right. exists (str "a \" ++ 34 :: str "b"). split; [reflexivity|]. split; [|discriminate].
  intros x y H. cbn in H. do 5 (destruct x as [|? x]; [cbn in H; try discriminate; try reflexivity|]; injection H as <- H).
  - destruct x; discriminate.
Qed.

(** ** C152 *)
(** the commands as HELP lists them *)
Definition commands : list (list name * (list name -> dcmd)) :=
  [([str "add"; str "tag"], CTagAdd); ([str "add"; str "type"], CCdtAdd); ([str "add"; str "map"], CMapAdd); ([str "add"; str "event"], CEventAdd);
   ([str "add"; str "override"], COvrAdd); ([str "del"; str "tag"], CTagDel); ([str "del"; str "map"], CMapDel); ([str "del"; str "event"], CEventDel);
   ([str "del"; str "override"], COvrDel); ([str "list"; str "tag"], CListTags); ([str "list"; str "type"], CListTypes); ([str "list"; str "map"], CMapGet);
   ([str "list"; str "override"], COvrGet); ([str "read"], CRead); ([str "write"], CWrite); ([str "wait"], CWait); ([str "poll"], fun _ => CPoll);
   ([str "set"], CSet); ([str "clear"], CClr); ([str "op"], COp); ([str "help"], CHelp); ([str "exit"], fun _ => CExit)].
Lemma starts_case n g w b : case_eqb g w = true -> starts n g b = starts n w b.
Proof. unfold starts, case_eqb. intros H. apply name_eqb_eq in H. rewrite <- !firstn_map, H. reflexivity. Qed.
Lemma case_case g w b : case_eqb g w = true -> case_eqb g b = case_eqb w b.
Proof. unfold case_eqb. intros H. apply name_eqb_eq in H. rewrite H. reflexivity. Qed.
Lemma dispatch_case g w a : case_eqb g w = true -> dispatch g a = dispatch w a.
Proof. intros H. unfold dispatch. rewrite !(case_case _ _ _ H), !(fun n b => starts_case n _ _ b H). reflexivity. Qed.
Lemma dispatch_case2 w g v a : case_eqb g v = true -> In w [str "add"; str "del"; str "list"] -> dispatch w (g :: a) = dispatch w (v :: a).
Proof. intros H I. unfold dispatch. rewrite !(fun n b => starts_case n _ _ b H). cbn [In] in I. destruct I as [<-|[<-|[<-|[]]]]; reflexivity. Qed.
Lemma table ws f gs args : In (ws, f) commands -> Forall2 (fun g w => case_eqb g w = true) gs ws -> exists g r, gs = g :: r /\ g <> [] /\ hd 0 g <> 35 /\ dispatch g (r ++ args) = f args.
Proof.
  intros I F. assert (L : exists w v, ws = w :: v /\ (v = [] \/ exists u, v = [u] /\ In w [str "add"; str "del"; str "list"]) /\ w <> [] /\ lower (hd 0 w) <> 35 /\ dispatch w (v ++ args) = f args).
  { clear F. cbn [In commands] in I. repeat (destruct I as [I|I]; [injection I as <- <-; eexists; eexists; split; [reflexivity|]; split; [first [left; reflexivity | right; eexists; split; [reflexivity | cbn; tauto]]|]; split; [discriminate|]; split; [discriminate | reflexivity]|]). destruct I. }
  destruct L as (w & v & -> & V & N & H & D). inversion F as [|g w1 gs1 ws1 C F1]; subst. exists g, gs1. split; [reflexivity|].
  assert (X : map lower g = map lower w) by (apply name_eqb_eq; exact C).
  split; [intros ->; destruct w; [congruence | discriminate]|].
  split; [destruct g as [|c g]; [destruct w; [congruence | discriminate]|]; destruct w as [|d w]; [congruence|]; cbn [hd map] in *; intros ->; injection X as X _; apply H; rewrite <- X; reflexivity|].
  rewrite (dispatch_case _ _ _ C), <- D. destruct V as [->|(u & -> & I2)]; [inversion F1; subst; reflexivity|].
  inversion F1 as [|g2 u1 gs2 ws2 C2 F2]; subst. inversion F2; subst. cbn [app]. apply dispatch_case2; assumption.
Qed.
(** a line that begins with a command, in whatever case, is that command with the words behind it *)
Theorem C152_commands : forall usable ws f gs args, (forall n, n <= usable n /\ usable n mod 8 = 0) -> In (ws, f) commands -> Forall2 (fun g w => case_eqb g w = true) gs ws ->
  Forall word (gs ++ args) -> last (gs ++ args) [] <> [] -> runcmd usable (join (gs ++ args)) = Done (Some (f args)).
Proof.
  intros usable ws f gs args U I F W L. destruct (table _ _ _ args I F) as (g & r & -> & N & H & D).
  assert (T := C151_words _ W L). assert (Hj : exists c z, join ((g :: r) ++ args) = c :: z /\ c <> 35).
  { destruct g as [|c g]; [congruence|]. cbn [hd] in H. cbn [app join]. destruct (r ++ args); cbn [app]; eauto. }
  destruct Hj as (c & z & Q & C). unfold runcmd. rewrite Q. replace (c =? 35) with false by lia. rewrite <- Q, T. cbv zeta.
  destruct (U (8 * zlen ((g :: r) ++ args) + 1)) as [A B]. replace (_ <? _) with false by lia. cbn [app]. rewrite D. reflexivity.
Qed.
(** comments and empty lines ask for nothing *)
Theorem C152_comment : forall usable line, line = [] \/ hd 0 line = 35 -> runcmd usable line = Done None.
Proof. intros usable line [->|H]; [reflexivity|]. destruct line as [|c r]; [reflexivity|]. cbn [hd] in H. subst c. reflexivity. Qed.
(** REFUTED: a word that is no command is obeyed if it begins with a, r, wr or op *)
Theorem C152_other_refuted : forall w args,
  dispatch (str "a" ++ w) (str "tag" :: args) = CTagAdd args /\ dispatch (str "r" ++ w) args = CRead args /\ dispatch (str "wr" ++ w) args = CWrite args /\ dispatch (str "op" ++ w) args = COp args.
Proof. intros w args. repeat split; reflexivity. Qed.
Example C152_ex : In ([str "add"; str "tag"], CTagAdd) commands /\ runcmd (fun n => 8 * (n / 8) + 8) (str "ADD Tag x INT 4") = Done (Some (CTagAdd [str "x"; str "INT"; str "4"])) /\
  runcmd (fun n => 8 * (n / 8) + 8) (str "reset x") = Done (Some (CRead [str "x"])).
Proof. split; [left; reflexivity|]. split; reflexivity. Qed.

(** ** C153 *)
(** a line of a text file that fits the buffer, and the file with these lines, every one ended by a newline *)
Definition line_ok (l : name) : Prop := ~ In 10 l /\ ~ In 0 l /\ zlen l <= 254.
Definition file_of (ls : list name) : list Z := concat (map (fun l => l ++ [10]) ls).
Lemma take_nl l : forall n rest, ~ In 10 l -> (length l < n)%nat -> take_line n (l ++ 10 :: rest) = (l ++ [10], rest, false).
Proof.
  induction l as [|c l IH]; intros n rest I L; (destruct n as [|n]; [cbn in L; lia|]); cbn [app take_line]; [reflexivity|].
  replace (c =? 10) with false by (symmetry; apply Z.eqb_neq; intros ->; apply I; left; reflexivity). rewrite IH; [reflexivity | intros J; apply I; right; exact J | cbn in L; lia].
Qed.
Lemma take_end l : forall n, ~ In 10 l -> (length l < n)%nat -> take_line n l = (l, [], true).
Proof.
  induction l as [|c l IH]; intros n I L; (destruct n as [|n]; [cbn in L; lia|]); cbn [take_line]; [reflexivity|].
  replace (c =? 10) with false by (symmetry; apply Z.eqb_neq; intros ->; apply I; left; reflexivity). rewrite IH; [reflexivity | intros J; apply I; right; exact J | cbn in L; lia].
Qed.
Lemma take_full l : forall n rest, ~ In 10 l -> length l = n -> take_line n (l ++ rest) = (l, rest, false).
Proof.
  induction l as [|c l IH]; intros n rest I L; cbn in L; subst n; cbn [app take_line]; [reflexivity|].
  replace (c =? 10) with false by (symmetry; apply Z.eqb_neq; intros ->; apply I; left; reflexivity). rewrite IH; [reflexivity | intros J; apply I; right; exact J | reflexivity].
Qed.
Lemma cstr_text l : ~ In 0 l -> cstr (l ++ [0]) = Some l.
Proof. induction l as [|c l IH]; intros I; cbn [app cstr]; [reflexivity|]. replace (c =? 0) with false by (symmetry; apply Z.eqb_neq; intros ->; apply I; left; reflexivity). rewrite IH; [reflexivity | intros J; apply I; right; exact J]. Qed.
Lemma chop_nl l : chop (l ++ [10]) = l.
Proof. unfold chop. rewrite last_last. apply removelast_last. Qed.
Lemma chop_text l : ~ In 10 l -> chop l = l.
Proof.
  intros I. unfold chop. destruct (Z.eqb_spec (last l 0) 10) as [Q|]; [|reflexivity]. exfalso. apply I. rewrite <- Q. destruct l as [|c l]; [discriminate|]. 
  destruct (exists_last (l := c :: l) ltac:(discriminate)) as (a & x & ->). rewrite last_last. apply in_or_app. right. left. reflexivity.
Qed.
Lemma loop_line fuel held l rest : line_ok l -> runfile_loop (Datatypes.S fuel) held (l ++ 10 :: rest) = (r <-- runfile_loop fuel (Some l) rest ;; Done (l :: r)).
Proof.
  intros (A & B & C). cbn [runfile_loop]. rewrite take_nl by (try exact A; unfold zlen in C; lia).
  destruct (l ++ [10]) as [|x y] eqn:Q; [destruct l; discriminate|]. rewrite <- Q. rewrite cstr_text by (intros I; apply in_app_or in I as [I|[I|[]]]; [contradiction | discriminate]).
  rewrite Q. rewrite <- Q, chop_nl. reflexivity.
Qed.
Lemma loop_lines ls : Forall line_ok ls -> forall fuel held rest, (length ls <= fuel)%nat ->
  runfile_loop fuel held (file_of ls ++ rest) = (r <-- runfile_loop (fuel - length ls) (match ls with [] => held | _ => Some (last ls []) end) rest ;; Done (ls ++ r)).
Proof.
  induction 1 as [|l ls O F IH]; intros fuel held rest L.
  - cbn [file_of map concat app length]. rewrite Nat.sub_0_r. destruct (runfile_loop _ _ _); reflexivity.
  - destruct fuel as [|fuel]; [cbn in L; lia|]. unfold file_of. cbn [map concat]. fold (file_of ls). rewrite <- !app_assoc. cbn [app]. rewrite loop_line by exact O. cbn [length] in L. rewrite IH by lia. cbn [length Nat.sub].
    rewrite last_cons. replace (match ls with [] => Some l | _ :: _ => Some (last ls []) end) with (Some (last ls l)) by (destruct ls as [|a b]; [reflexivity | rewrite !last_cons; reflexivity]).
    destruct (runfile_loop _ _ rest); reflexivity.
Qed.
Lemma file_len ls : (length ls <= length (file_of ls))%nat.
Proof. induction ls as [|l ls IH]; [cbn; lia|]. unfold file_of. cbn [map concat]. fold (file_of ls). rewrite !app_length. cbn [length]. lia. Qed.
(** FULL STATEMENT (false, see below): every line of a file is run once, in the order of the file.
    What holds: so it is if the lines fit the buffer and the last one has no newline at its end. *)
Theorem C153_once_partial : forall ls l, Forall line_ok ls -> line_ok l -> l <> [] -> runfile (file_of ls ++ l) = Done (ls ++ [l]).
Proof.
  intros ls l F (A & B & C) N. unfold runfile. assert (L := file_len ls). rewrite loop_lines by (try exact F; rewrite app_length; lia).
  replace (Datatypes.S (Datatypes.S (length (file_of ls ++ l))) - length ls)%nat with (Datatypes.S (Datatypes.S (length (file_of ls ++ l) - length ls))) by (rewrite app_length; lia).
  cbn [runfile_loop]. rewrite take_end by (try exact A; unfold zlen in C; lia). destruct l as [|c l']; [congruence|]. rewrite cstr_text by exact B. rewrite chop_text by exact A. reflexivity.
Qed.
(** REFUTED: if the last line ends with a newline, it is run twice *)
Theorem C153_twice_refuted : forall ls l, Forall line_ok ls -> line_ok l -> l <> [] -> runfile (file_of (ls ++ [l])) = Done (ls ++ [l; l]).
Proof.
  intros ls l F O N. unfold runfile. assert (F2 : Forall line_ok (ls ++ [l])) by (apply Forall_app; auto). assert (L := file_len (ls ++ [l])).
  rewrite <- (app_nil_r (file_of (ls ++ [l]))). rewrite loop_lines by (try exact F2; rewrite app_nil_r; lia). rewrite app_nil_r.
  replace (Datatypes.S (Datatypes.S (length (file_of (ls ++ [l])))) - length (ls ++ [l]))%nat with (Datatypes.S (Datatypes.S (length (file_of (ls ++ [l])) - length (ls ++ [l])))) by lia.
  cbn [runfile_loop]. change (take_line 255 []) with (@nil Z, @nil Z, true). rewrite last_last. destruct (ls ++ [l]) as [|x y] eqn:Q; [destruct ls; discriminate|]. rewrite <- Q.
  destruct l as [|c l']; [congruence|]. destruct O as (A & _). rewrite chop_text by exact A. cbn [rbind]. rewrite <- app_assoc. reflexivity.
Qed.
(** REFUTED: a file that ends with an empty line, and an empty file *)
Theorem C153_blank_refuted : forall ls, Forall line_ok ls -> runfile (file_of (ls ++ [[]])) = Undef UOob.
Proof.
  intros ls F. unfold runfile. assert (F2 : Forall line_ok (ls ++ [[]])) by (apply Forall_app; split; [exact F|]; constructor; [|constructor]; repeat split; cbn; try tauto; discriminate). assert (L := file_len (ls ++ [[]])).
  rewrite <- (app_nil_r (file_of (ls ++ [[]]))). rewrite loop_lines by (try exact F2; rewrite app_nil_r; lia). rewrite app_nil_r.
  replace (Datatypes.S (Datatypes.S (length (file_of (ls ++ [[]])))) - length (ls ++ [[]]))%nat with (Datatypes.S (Datatypes.S (length (file_of (ls ++ [[]])) - length (ls ++ [[]])))) by lia.
  cbn [runfile_loop]. change (take_line 255 []) with (@nil Z, @nil Z, true). rewrite last_last. destruct (ls ++ [[]]) as [|x y] eqn:Q; [destruct ls; discriminate|]. reflexivity.
Qed.
Theorem C153_empty_refuted : runfile [] = Undef UUninit.
Proof. reflexivity. Qed.
(** REFUTED: a line of more than 255 characters is run as two commands *)
Theorem C153_long_refuted : forall a b, zlen a = 255 -> ~ In 10 a -> ~ In 0 a -> line_ok b -> b <> [] -> runfile (a ++ b) = Done [a; b].
Proof.
  intros a b La A1 A2 (B1 & B2 & B3) N. unfold runfile. assert (length a = 255%nat) as Ln by (unfold zlen in La; lia). destruct a as [|c a'] eqn:Qa; [discriminate|]. rewrite <- Qa in *. 
  replace (length (a ++ b)) with (Datatypes.S (254 + length b)) by (rewrite app_length, Ln; reflexivity). remember (254 + length b)%nat as k eqn:Hk. clear Hk.
  cbn [runfile_loop]. rewrite take_full by (try exact A1; exact Ln). destruct a as [|c2 a2] eqn:Qb; [discriminate|]. rewrite <- Qb in *. rewrite cstr_text by exact A2. rewrite Qb at 1.
  rewrite chop_text by exact A1. rewrite take_end by (try exact B1; unfold zlen in B3; lia). destruct b as [|d b']; [congruence|]. rewrite cstr_text by exact B2. rewrite chop_text by exact B1. reflexivity.
Qed.
Example C153_ex : line_ok (str "op x inc 1") /\ runfile (file_of [str "# add one"] ++ str "op x inc 1") = Done [str "# add one"; str "op x inc 1"] /\ runfile (file_of [str "# add one"; str "op x inc 1"]) = Done [str "# add one"; str "op x inc 1"; str "op x inc 1"].
Proof. split; [repeat split; cbn; intuition discriminate|]. split; reflexivity. Qed.
