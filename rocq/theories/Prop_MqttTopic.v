(** * Prop_MqttTopic: C87 (topics and filters), C88 (the subscription of a
    message), C89 (the number of subscriptions) *)
From Verif Require Import Base Const Lib Mqtt.

(** ** Filters as the MQTT standard has them (section 4.7) *)
Inductive level := Word (w : name) | Plus | Hash.
Fixpoint matches (f : list level) (t : list name) : bool :=
  match f, t with
  | [], [] => true
  | Hash :: _, _ => true
  | Plus :: f, _ :: t => matches f t
  | Word w :: f, l :: t => name_eqb w l && matches f t
  | _, _ => false
  end.
(** The text of a list of levels *)
Fixpoint join (ls : list name) : name :=
  match ls with
  | [] => []
  | [l] => l
  | l :: ls => l ++ 47 :: join ls
  end.
Definition spell (l : level) : name := match l with Word w => w | Plus => [43] | Hash => [35] end.
Definition text (f : list level) : name := join (map spell f).
(** A level of a topic has no separator, no wildcard and no terminator *)
Definition word (w : name) : Prop := Forall (fun c => c <> 47 /\ c <> 43 /\ c <> 35 /\ c <> 0) w.
Definition topic_ok (t : list name) : Prop := t <> [] /\ Forall word t.
(** # is the last level of a filter *)
Fixpoint filter_ok (f : list level) : Prop :=
  match f with
  | [] => False
  | [Word w] => word w
  | [_] => True
  | Word w :: f => word w /\ filter_ok f
  | Plus :: f => filter_ok f
  | Hash :: _ => False
  end.
(** What the comparison cannot handle: a + in the last level, a + before #, and
    the filter # *)
Fixpoint handled (f : list level) : Prop :=
  match f with
  | [] => True
  | [Plus] => False
  | Plus :: Hash :: _ => False
  | _ :: f => handled f
  end.
Definition not_hash (f : list level) : Prop := match f with Hash :: _ => False | _ => True end.

Definition ends (a : list Z) : Prop := match a with c :: _ => c = 47 \/ c = 0 | [] => False end.
Lemma cmp_word : forall w l a b, word w -> word l -> ends a -> ends b ->
  cmp (w ++ a) (l ++ b) = if name_eqb w l then cmp a b else Done false.
Proof.
  induction w as [|c w IH]; intros l a b W L A B.
  - destruct l as [|d l]; [reflexivity|]. destruct a as [|x a]; [destruct A|]. cbn [app cmp name_eqb].
    inversion L; subst. cbn in A. replace (x =? 43) with false by lia. replace (negb (x =? d)) with true by lia. reflexivity.
  - inversion W as [|? ? W1 W2]; subst. destruct l as [|d l].
    + destruct b as [|x b]; [destruct B|]. cbn [app cmp name_eqb]. cbn in B.
      replace (c =? 43) with false by lia. replace (negb (c =? x)) with true by lia. reflexivity.
    + inversion L as [|? ? L1 L2]; subst. cbn [app cmp name_eqb]. replace (c =? 43) with false by lia.
      destruct (c =? d) eqn:Q; cbn [negb andb]; [|reflexivity].
      replace ((c =? 0) && (d =? 0)) with false by lia. replace (c =? 47) with false by lia. cbn [andb]. apply IH; auto.
Qed.
Lemma roll_word l b : word l -> ends b -> roll (l ++ b) = b.
Proof.
  intros L B. induction l as [|c l IH]; cbn [app roll].
  - destruct b as [|c b]; [destruct B|]. cbn in B. cbn [roll]. replace ((c =? 47) || (c =? 0)) with true by lia. reflexivity.
  - inversion L; subst. replace ((c =? 47) || (c =? 0)) with false by lia. auto.
Qed.
Lemma text_cons l m f : text (l :: m :: f) = spell l ++ 47 :: text (m :: f).
Proof. reflexivity. Qed.
Lemma join_cons l m t : join (l :: m :: t) = l ++ 47 :: join (m :: t).
Proof. reflexivity. Qed.
Lemma not_hash_text m f : filter_ok (m :: f) -> not_hash (m :: f) -> (match text (m :: f) ++ [0] with c :: _ => c =? 35 | [] => false end) = false.
Proof.
  intros F N. destruct m as [w| |]; [| |destruct N].
  - assert (W : word w) by (destruct f; cbn in F; tauto). destruct w as [|c w].
    + destruct f; reflexivity.
    + inversion W; subst. destruct f; cbn; lia.
  - destruct f; reflexivity.
Qed.
Lemma cmp_slash a b : cmp (47 :: a) (47 :: b) = if (match a with c :: _ => c =? 35 | [] => false end) then Done true else cmp a b.
Proof. reflexivity. Qed.

(** Enough levels: the topic has as many levels as the filter, or the filter has
    no + and is not the topic followed by # *)
Definition enough (f : list level) (t : list name) : Prop :=
  (length f <= length t)%nat \/ (~ In Plus f /\ (~ In Hash f \/ length f <> S (length t))).

Lemma cmp_matches : forall f t, filter_ok f -> topic_ok t -> handled f -> not_hash f -> enough f t ->
  cmp (text f ++ [0]) (join t ++ [0]) = Done (matches f t).
Proof.
  induction f as [|l f IH]; intros t F T H N EN; [destruct F|].
  destruct T as [T1 T2]. destruct t as [|x t]; [congruence|]. inversion T2 as [|? ? X XS]; subst. clear T1 T2.
  destruct f as [|m f].
  - destruct l as [w| |]; [|destruct H | destruct N]. cbn in F. change (text [Word w]) with w. cbn [matches].
    destruct t as [|y t].
    + cbn [join]. rewrite cmp_word by (cbn; auto). destruct (name_eqb w x); reflexivity.
    + rewrite join_cons, <- app_assoc. cbn [app]. rewrite cmp_word by (cbn; auto). destruct (name_eqb w x); reflexivity.
  - assert (F' : filter_ok (m :: f)) by (destruct l; cbn in F; tauto).
    assert (H' : handled (m :: f)) by (destruct l; [| destruct m |]; cbn in H |- *; tauto).
    rewrite text_cons. rewrite <- app_assoc. cbn [app]. destruct l as [w| |]; [| |destruct N].
    + assert (W : word w) by (cbn in F; tauto). cbn [spell matches]. destruct t as [|y t].
      * cbn [join]. rewrite cmp_word by (cbn; auto). destruct (name_eqb w x); [|reflexivity].
        cbn [andb]. destruct m as [w'| |]; [reflexivity | |].
        -- exfalso. destruct EN as [EN|[EN _]]; [cbn in EN; lia|]. apply EN. right. left. reflexivity.
        -- exfalso. destruct f as [|? f]; [|cbn in F'; destruct F'].
           destruct EN as [EN|[_ [EN|EN]]]; [cbn in EN; lia | apply EN; right; left; reflexivity | cbn in EN; congruence].
      * rewrite join_cons, <- app_assoc. cbn [app]. rewrite cmp_word by (cbn; auto). destruct (name_eqb w x); [|reflexivity].
        cbn [andb]. rewrite cmp_slash. destruct m as [w'| |].
        -- rewrite not_hash_text by (cbn; auto). apply IH; auto; [split; [congruence|exact XS]|].
           destruct EN as [EN|[E1 E2]]; [left; cbn in *; lia|]. right. split; [intros Q; apply E1; right; exact Q|].
           destruct E2 as [E2|E2]; [left; intros Q; apply E2; right; exact Q|]. right. cbn in *. lia.
        -- rewrite not_hash_text by (cbn; auto). apply IH; auto; [split; [congruence|exact XS]|].
           destruct EN as [EN|[E1 E2]]; [left; cbn in *; lia|]. exfalso. apply E1. right. left. reflexivity.
        -- destruct f; reflexivity.
    + assert (NH : not_hash (m :: f)) by (destruct m; cbn in H |- *; tauto). cbn [spell app matches].
      destruct EN as [EN|[EN _]]; [|exfalso; apply EN; left; reflexivity].
      destruct t as [|y t]; [cbn in EN; lia|]. rewrite join_cons, <- app_assoc. cbn [app cmp].
      rewrite Z.eqb_refl. destruct (x ++ 47 :: join (y :: t) ++ [0]) eqn:Q; [destruct x; discriminate Q|]. rewrite <- Q.
      rewrite roll_word by (cbn; auto). apply IH; auto; [split; [congruence|exact XS]|]. left. cbn in *. lia.
Qed.

(** ** C87 *)
(** A filter with its wildcards where the comparison handles them *)
Theorem C87_match_partial : forall f t, filter_ok f -> topic_ok t -> handled f -> not_hash f -> (length f <= length t)%nat ->
  topic_compare (text f) (join t) = Done (matches f t).
Proof. intros f t F T H N L. apply cmp_matches; auto. left. exact L. Qed.
(** A filter without + and every topic but the parent level of # *)
Theorem C87_hash_partial : forall f t, filter_ok f -> topic_ok t -> not_hash f -> ~ In Plus f -> length f <> S (length t) ->
  topic_compare (text f) (join t) = Done (matches f t).
Proof.
  intros f t F T N P L. apply cmp_matches; auto; [|right; auto].
  clear -P. induction f as [|l f IH]; [exact I|]. assert (handled f) by (apply IH; intros Q; apply P; right; exact Q).
  destruct l; [destruct f; assumption || exact I | exfalso; apply P; left; reflexivity | destruct f; assumption || exact I].
Qed.
(** A filter without wildcards: exactly its own topic *)
Theorem C87_plain : forall s t, Forall (fun c => c <> 43 /\ c <> 35 /\ c <> 0) s -> Forall (fun c => c <> 0) t ->
  exists b, topic_compare s t = Done b /\ (b = true <-> s = t).
Proof.
  unfold topic_compare. induction s as [|c s IH]; intros t S T.
  - destruct t as [|d t]; [exists true; split; [reflexivity|tauto]|]. inversion T; subst. exists false. split; [|split; discriminate].
    cbn [app cmp]. change (0 =? 43) with false. replace (negb (0 =? d)) with true by lia. reflexivity.
  - inversion S as [|? ? S1 S2]; subst. destruct t as [|d t].
    + exists false. split; [|split; discriminate]. cbn [app cmp]. replace (c =? 43) with false by lia. replace (negb (c =? 0)) with true by lia. reflexivity.
    + inversion T as [|? ? T1 T2]; subst. cbn [app cmp]. replace (c =? 43) with false by lia.
      destruct (c =? d) eqn:Q; cbn [negb]; [|exists false; split; [reflexivity|split; [discriminate|intros X; injection X; lia]]].
      replace ((c =? 0) && (d =? 0)) with false by lia.
      replace ((c =? 47) && _) with false.
      * destruct (IH t S2 T2) as (b & B1 & B2). exists b. split; [exact B1|]. rewrite B2. split; [intros ->; f_equal; lia | intros X; injection X; auto].
      * destruct (c =? 47); [|reflexivity]. destruct s as [|x s]; [reflexivity|]. inversion S2; subst. cbn. lia.
Qed.

(** A + in the last level: the comparison reads behind the ends of both strings,
    with every topic that gets as far as this level *)
Theorem C87_plus_last_refuted : forall w l, word w -> word l ->
  matches [Word w; Plus] [w; l] = true /\ topic_compare (text [Word w; Plus]) (join [w; l]) = Undef UOob.
Proof.
  intros w l W L. split; [cbn; rewrite (name_eqb_refl w); reflexivity|].
  unfold topic_compare. rewrite text_cons, join_cons, <- !app_assoc. cbn [app spell]. rewrite cmp_word by (cbn; auto).
  rewrite (name_eqb_refl w). rewrite cmp_slash. cbn [text map join spell app].
  change (43 =? 35) with false. cbv iota. cbn [cmp]. rewrite Z.eqb_refl. destruct (l ++ [0]) eqn:Q; [destruct l; discriminate|].
  rewrite <- Q. rewrite roll_word by (cbn; auto). reflexivity.
Qed.
(** The same for a topic that ends in the level of a + *)
Theorem C87_plus_short_refuted : forall f l, filter_ok f -> word l ->
  topic_compare (text (Plus :: f)) (join [l]) = Undef UOob.
Proof.
  intros f l F L. destruct f as [|m f]; [destruct F|]. unfold topic_compare. rewrite text_cons, <- app_assoc. cbn [spell app join cmp].
  rewrite Z.eqb_refl. destruct (l ++ [0]) eqn:Q; [destruct l; discriminate|]. rewrite <- Q. rewrite roll_word by (cbn; auto).
  destruct (text (m :: f) ++ [0]) eqn:R; reflexivity.
Qed.
(** +/# matches nothing, though it is the filter of every topic with two levels *)
Theorem C87_plus_hash_refuted : forall l m t, topic_ok (l :: m :: t) ->
  matches [Plus; Hash] (l :: m :: t) = true /\ topic_compare (text [Plus; Hash]) (join (l :: m :: t)) = Done false.
Proof.
  intros l m t [_ T]. inversion T as [|? ? L T1]; subst. inversion T1 as [|? ? M T2]; subst. split; [reflexivity|].
  unfold topic_compare. rewrite join_cons, <- app_assoc. change (text [Plus; Hash] ++ [0]) with [43; 47; 35; 0]. cbn [app cmp]. rewrite Z.eqb_refl.
  destruct (l ++ _) eqn:Q; [destruct l; discriminate|]. rewrite <- Q. rewrite roll_word by (cbn; auto).
  assert (exists c r, join (m :: t) ++ [0] = c :: r /\ c <> 35) as (c & r & -> & C).
  { destruct m as [|c m].
    - destruct t as [|y t]; [exists 0, []; split; [reflexivity|lia]|]. exists 47, (join (y :: t) ++ [0]). split; [reflexivity|lia].
    - inversion M; subst. destruct t as [|y t]; [exists c, (m ++ [0]); split; [reflexivity|lia]|].
      exists c, ((m ++ 47 :: join (y :: t)) ++ [0]). split; [reflexivity|lia]. }
  cbn [cmp]. change (35 =? 43) with false. replace (negb (35 =? c)) with true by lia. reflexivity.
Qed.
(** # matches nothing, though it is the filter of every topic *)
Theorem C87_hash_refuted : forall t, topic_ok t -> matches [Hash] t = true /\ topic_compare (text [Hash]) (join t) = Done false.
Proof.
  intros t [N T]. split; [destruct t; reflexivity|]. destruct t as [|m t]; [congruence|]. inversion T as [|? ? M T2]; subst.
  unfold topic_compare. change (text [Hash] ++ [0]) with [35; 0].
  assert (exists c r, join (m :: t) ++ [0] = c :: r /\ c <> 35) as (c & r & -> & C).
  { destruct m as [|c m].
    - destruct t as [|y t]; [exists 0, []; split; [reflexivity|lia]|]. exists 47, (join (y :: t) ++ [0]). split; [reflexivity|lia].
    - inversion M; subst. destruct t as [|y t]; [exists c, (m ++ [0]); split; [reflexivity|lia]|].
      exists c, ((m ++ 47 :: join (y :: t)) ++ [0]). split; [reflexivity|lia]. }
  cbn [cmp]. change (35 =? 43) with false. replace (negb (35 =? c)) with true by lia. reflexivity.
Qed.
(** w/# does not match w, which the standard includes *)
Theorem C87_parent_refuted : forall w, word w -> matches [Word w; Hash] [w] = true /\ topic_compare (text [Word w; Hash]) (join [w]) = Done false.
Proof.
  intros w W. assert (X : name_eqb w w = true) by (apply name_eqb_eq; reflexivity). split; [cbn; rewrite X; reflexivity|].
  unfold topic_compare. rewrite text_cons, <- app_assoc. cbn [spell app join]. rewrite cmp_word by (cbn; auto). rewrite X. reflexivity.
Qed.

Definition ex_f : list level := [Word (str "plant"); Plus; Word (str "pump"); Hash].
Definition ex_t : list name := [str "plant"; str "north"; str "pump"; str "1"; str "speed"].
Example C87_ex : filter_ok ex_f /\ topic_ok ex_t /\ handled ex_f /\ not_hash ex_f /\ (length ex_f <= length ex_t)%nat /\
  text ex_f = str "plant/+/pump/#" /\ join ex_t = str "plant/north/pump/1/speed" /\ topic_compare (str "plant/+/pump/#") (str "plant/north/pump/1/speed") = Done true /\
  topic_compare (str "plant/+/pump/#") (str "plant/north/fan/1/speed") = Done false.
Proof.
  assert (W : forall w, forallb (fun c => negb (c =? 47) && negb (c =? 43) && negb (c =? 35) && negb (c =? 0)) w = true -> word w).
  { intros w. induction w as [|c w IH]; intros H; [constructor|]. cbn [forallb] in H. apply andb_prop in H as [H1 H2]. constructor; [lia|apply IH; exact H2]. }
  split. { cbn. split; [apply W; reflexivity|]. split; [apply W; reflexivity|exact I]. }
  split. { split; [discriminate|]. repeat (constructor; [apply W; reflexivity|]). constructor. }
  split; [exact I|]. split; [exact I|]. split; [cbn; lia|]. repeat split; reflexivity.
Qed.

(** ** C88 *)
(** A message is stored by the first subscription that matches, and by no other *)
Theorem C88_found : forall us t u, get_sub us t = Done (Some u) -> In u us /\ u_en u = GOOD /\ topic_compare (u_topic u) t = Done true.
Proof.
  induction us as [|x us IH]; intros t u H; cbn in H; [discriminate|]. destruct (u_en x =? GOOD) eqn:G.
  - destruct (topic_compare (u_topic x) t) as [b|] eqn:C; [|discriminate]. cbn in H. destruct b.
    + injection H as <-. split; [left; reflexivity|]. split; [lia|exact C].
    + destruct (IH _ _ H). split; [right; assumption|assumption].
  - destruct (IH _ _ H). split; [right; assumption|assumption].
Qed.
Theorem C88_only_partial : forall us1 u us2 t, u_en u = GOOD -> topic_compare (u_topic u) t = Done true ->
  (forall v, In v us1 -> u_en v = GOOD -> topic_compare (u_topic v) t = Done false) -> get_sub (us1 ++ u :: us2) t = Done (Some u).
Proof.
  induction us1 as [|x us1 IH]; intros u us2 t G C H; cbn.
  - rewrite G, C. reflexivity.
  - rewrite IH by (auto; intros v V; apply H; right; exact V). destruct (u_en x =? GOOD) eqn:Q; [|reflexivity].
    rewrite (H x) by (try (left; reflexivity); lia). reflexivity.
Qed.
(** No message is stored for a topic nobody subscribed to *)
Theorem C88_none : forall us t, get_sub us t = Done None -> forall u, In u us -> u_en u = GOOD -> topic_compare (u_topic u) t = Done false.
Proof.
  induction us as [|x us IH]; intros t H u I G; [destruct I|]. cbn [get_sub] in H. destruct I as [-> |I].
  - rewrite G in H. replace (GOOD =? GOOD) with true in H by reflexivity. destruct (topic_compare (u_topic u) t) as [[|]|]; [discriminate|reflexivity|discriminate].
  - destruct (u_en x =? GOOD); [|eauto]. destruct (topic_compare (u_topic x) t) as [[|]|]; [discriminate|cbn in H; eauto|discriminate].
Qed.
(** Of two subscriptions that match the second gets nothing *)
Theorem C88_shadow_refuted : exists us u t, In u us /\ u_en u = GOOD /\ topic_compare (u_topic u) t = Done true /\
  exists v, get_sub us t = Done (Some v) /\ v <> u.
Proof.
  exists [{| u_topic := str "a/#"; u_tags := [str "x"]; u_filter := false; u_en := GOOD |}; {| u_topic := str "a/b"; u_tags := [str "y"]; u_filter := false; u_en := GOOD |}],
    {| u_topic := str "a/b"; u_tags := [str "y"]; u_filter := false; u_en := GOOD |}, (str "a/b").
  split; [right; left; reflexivity|]. split; [reflexivity|]. split; [reflexivity|]. eexists. split; [reflexivity|]. discriminate.
Qed.
(** and a subscription with a + in its last level makes the search undefined for the others *)
Theorem C88_search_refuted : forall us1 u us2 w l, word w -> word l -> u_en u = GOOD -> u_topic u = text [Word w; Plus] ->
  (forall v, In v us1 -> u_en v = GOOD -> topic_compare (u_topic v) (join [w; l]) = Done false) ->
  get_sub (us1 ++ u :: us2) (join [w; l]) = Undef UOob.
Proof.
  induction us1 as [|x us1 IH]; intros u us2 w l W L G T H; cbn [app get_sub].
  - rewrite G, T. cbn [Z.eqb GOOD]. replace (GOOD =? GOOD) with true by reflexivity. rewrite (proj2 (C87_plus_last_refuted w l W L)). reflexivity.
  - rewrite (IH u us2 w l) by (auto; intros v V; apply H; right; exact V). destruct (u_en x =? GOOD) eqn:Q; [|reflexivity].
    rewrite (H x) by (try (left; reflexivity); lia). reflexivity.
Qed.
Definition ex_us : list msub :=
  [{| u_topic := str "a/b"; u_tags := [str "x"]; u_filter := false; u_en := GOOD |}; {| u_topic := str "a/c"; u_tags := [str "y"]; u_filter := false; u_en := UNINIT |};
   {| u_topic := str "a/+/d"; u_tags := [str "z"]; u_filter := true; u_en := GOOD |}].
Example C88_ex : (exists u, get_sub ex_us (str "a/q/d") = Done (Some u) /\ u_topic u = str "a/+/d") /\ get_sub ex_us (str "a/c/f") = Done None /\
  get_sub ex_us (str "a/c") = Undef UOob.
Proof. split; [eexists; split; reflexivity|]. split; reflexivity. Qed.

(** ** C89 *)
Lemma adds_over : forall k g, 32 <= g_count g -> g_size g = 16 -> g_cap g = 32 -> adds (S k) g = Undef UOob.
Proof.
  intros k g C Z P. cbn [adds]. unfold get_new. replace (g_count g =? 0) with false by lia. rewrite Z.
  replace (g_count g =? 16) with false by lia. rewrite P. replace (g_count g <? 32) with false by lia. reflexivity.
Qed.
Lemma adds_app : forall a b g, adds (a + b) g = match adds a g with Done g' => adds b g' | Undef u => Undef u end.
Proof. induction a as [|a IH]; intros b g; [reflexivity|]. cbn [adds Nat.add]. destruct (get_new g) as [x|u]; cbn [rbind]; auto. Qed.
(** 32 subscriptions (and 32 publishers) fit; each has its own entry *)
Theorem C89_partial : forall k, (k <= 32)%nat -> exists g, adds k no_list = Done g /\ g_count g = Z.of_nat k.
Proof.
  intros k K. do 33 (destruct k as [|k]; [eexists; split; vm_compute; reflexivity|]). lia.
Qed.
(** One more writes behind the block *)
Theorem C89_refuted : forall k, (32 < k)%nat -> adds k no_list = Undef UOob.
Proof.
  intros k K. replace k with (32 + S (k - 33))%nat by lia. rewrite adds_app.
  assert (Q : adds 32 no_list = Done {| g_cap := 32; g_size := 16; g_count := 32 |}) by (vm_compute; reflexivity). rewrite Q. apply adds_over; reflexivity || (cbn; lia).
Qed.
(** Entries get the indices 0, 1, 2, ... *)
Theorem C89_index : forall g n g', get_new g = Done (n, g') -> 0 <= g_count g -> n = g_count g /\ g_count g' = n + 1 /\ n < g_cap g'.
Proof.
  intros g n g' H C. unfold get_new in H. destruct (g_count g =? 0) eqn:Q1; [|destruct (g_count g =? g_size g) eqn:Q2]; cbn [g_count g_cap g_size] in H;
    (match type of H with (if ?b then _ else _) = _ => destruct b eqn:Q; [|discriminate] end); injection H as <- <-; cbn; lia.
Qed.
Example C89_ex : exists g, adds 20 no_list = Done g /\ g_count g = 20 /\ g_cap g = 32.
Proof. eexists. split; [vm_compute; reflexivity|]. split; reflexivity. Qed.
