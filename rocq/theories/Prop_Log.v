(** * Prop_Log: the message logger (C141-C143) *)
From Verif Require Import Base Const Types Lib TypesProofs Log.

(** ** What the claims speak about *)
(** the parts of a text between its commas *)
Fixpoint parts (s : name) : list name :=
  match s with
  | [] => [[]]
  | c :: r => if c =? 44 then [] :: parts r else match parts r with [] => [[c]] | h :: t => (c :: h) :: t end
  end.
(** the topics of opendax.h which have a name of their own, with the number of their bit *)
Definition topic_bits : list (name * Z) :=
  [ (str "MINOR", 0); (str "MAJOR", 1); (str "WARN", 2); (str "ERROR", 3); (str "FATAL", 4); (str "MODULE", 5); (str "COMM", 6); (str "MSG", 7);
    (str "MSGERR", 8); (str "CONFIG", 9); (str "PROTOCOL", 10); (str "INFO", 11); (str "DEBUG", 12) ].
(** the text [s] asks for the messages of bit [k] *)
Definition asks_for (s : name) (k : Z) : Prop := exists x, In x (parts s) /\ (x = str "ALL" \/ In (x, k) topic_bits).
(** a service takes messages of topic [topic]: a bit in common *)
Definition takes (mask topic : Z) : Prop := exists k, 0 <= k /\ Z.testbit mask k = true /\ Z.testbit topic k = true.
(** the message as a service puts it out *)
Definition put_out (nm text : name) (topic : Z) (v : service) (o : lout) : Prop :=
  match sv_kind v with
  | SvStdio FStdout => o = LLine false (the_line nm topic text)
  | SvStdio FStderr => o = LLine true (the_line nm topic text)
  | SvStdio FUninit => False
  | SvSyslog p => o = LSys (Z.lor 8 p) text
  end.
(** the services which take the topic get the text, each once and in their order; the others get nothing *)
Inductive delivered (nm text : name) (topic : Z) : list service -> list lout -> Prop :=
| dv_end : delivered nm text topic [] []
| dv_hit v l o r : takes (sv_mask v) topic -> put_out nm text topic v o -> delivered nm text topic l r -> delivered nm text topic (v :: l) (o :: r)
| dv_miss v l r : ~ takes (sv_mask v) topic -> delivered nm text topic l r -> delivered nm text topic (v :: l) r.
Definition usable (v : service) : Prop := sv_kind v <> SvStdio FUninit.

(** ** Helpers *)
Lemma land_takes a b : Z.land a b <> 0 <-> takes a b.
Proof.
  split.
  - intros H. destruct (Z.eq_dec (Z.land a b) 0) as [Q|Q]; [congruence|]. destruct (Z_lt_le_dec (Z.land a b) 0) as [N|P].
    + exists (Z.max 0 (Z.log2 (Z.abs (Z.land a b)) + 1)). split; [lia|]. apply andb_true_iff. rewrite <- Z.land_spec.
      apply Z.bits_above_log2_neg; [exact N|]. assert (Z.log2 (Z.pred (- Z.land a b)) <= Z.log2 (Z.abs (Z.land a b))) by (apply Z.log2_le_mono; lia). lia.
    + exists (Z.log2 (Z.land a b)). split; [apply Z.log2_nonneg|]. apply andb_true_iff. rewrite <- Z.land_spec. apply Z.bit_log2. lia.
  - intros (k & K & A & B) H. assert (Z.testbit (Z.land a b) k = true) by (rewrite Z.land_spec, A, B; reflexivity). rewrite H, Z.bits_0 in H0. discriminate.
Qed.
Lemma loop_delivered lg nm l topic text out : lg_name lg = Some nm -> log_loop lg l topic text = Done out -> delivered nm text topic l out.
Proof.
  intros Hn. revert out. induction l as [|v l IH]; intros out H; cbn [log_loop] in H; [injection H as <-; constructor|].
  destruct (Z.land (sv_mask v) topic =? 0) eqn:Q.
  - apply dv_miss; [|auto]. intros T. apply land_takes in T. lia.
  - apply rbind_done in H as (x & Hx & H). apply rbind_done in H as (y & Hy & H). injection H as <-. apply dv_hit; [apply land_takes; lia | | auto].
    unfold log_func in Hx. unfold put_out. rewrite Hn in Hx. destruct (sv_kind v) as [[]|p]; try discriminate; injection Hx as <-; reflexivity.
Qed.

(** ** C141 *)
(** with a named logger: if services are configured, exactly those taking the topic get the message, cut to 255 characters, once and in
    order; if none is, the default mask decides about standard output *)
Theorem C141_delivered : forall lg nm topic msg out, lg_name lg = Some nm -> dax_log lg topic msg = Done out ->
  let text := firstn 255 msg in
  (lg_services lg <> [] -> delivered nm text topic (lg_services lg) out) /\
  (lg_services lg = [] -> (takes (lg_default lg) topic -> out = [LLine false (the_line nm topic text)]) /\ (~ takes (lg_default lg) topic -> out = [])).
Proof.
  intros lg nm topic msg out Hn H. cbv zeta. unfold dax_log in H. rewrite Hn in H. change (Z.to_nat (LOG_STRING_SIZE - 1)) with 255%nat in H. split.
  - intros N. replace (zlen (lg_services lg) =? 0) with false in H; [|destruct (lg_services lg); [congruence | unfold zlen; cbn [length]; lia]]. cbn [andb] in H. eapply loop_delivered; eassumption.
  - intros N. rewrite N in H. change (zlen (@nil service) =? 0) with true in H. cbn [andb log_loop] in H. split; intros T.
    + apply land_takes in T. replace (Z.land (lg_default lg) topic =? 0) with false in H by lia. injection H as <-. reflexivity.
    + destruct (Z.land (lg_default lg) topic =? 0) eqn:Q; [injection H as <-; reflexivity|]. exfalso. apply T, land_takes. lia.
Qed.
(** and it never fails as long as the services are usable *)
Theorem C141_safe_partial : forall lg nm topic msg, lg_name lg = Some nm -> Forall usable (lg_services lg) -> exists out, dax_log lg topic msg = Done out.
Proof.
  intros lg nm topic msg Hn U. unfold dax_log. rewrite Hn. destruct (_ && _); [eauto|]. generalize (firstn (Z.to_nat (LOG_STRING_SIZE - 1)) msg) as text. intros text. revert U. generalize (lg_services lg) as l.
  induction l as [|v l IH]; intros U; cbn [log_loop]; [eauto|]. inversion U as [|? ? U1 U2]; subst. destruct (IH U2) as (y & Hy). rewrite Hy. destruct (_ =? 0); [eauto|].
  unfold log_func. rewrite Hn. unfold usable in U1. destruct (sv_kind v) as [[]|p]; try congruence; cbn [rbind]; eauto.
Qed.
(** REFUTED: a stdio service for any other file is accepted, and the first message for it goes to a FILE pointer nobody set *)
Theorem C141_file_refuted : exists lg' , add_service (dax_init_logger lg_start (Some (str "m")) 0) (Some (mk_st (Some (str "ERROR")) (Some (str "stdio")) (Some (str "/tmp/log")) None)) = Done (lg', [], AddOk) /\
  dax_log lg' LOG_ERROR (str "x") = Undef UUninit.
Proof. eexists. split; vm_compute; reflexivity. Qed.

(** ** C142 *)
Lemma put_iff (t n : name) b m k : Z.testbit (if name_eqb t n then Z.lor m b else m) k = true <-> (n = t /\ Z.testbit b k = true) \/ Z.testbit m k = true.
Proof.
  destruct (name_eqb t n) eqn:Q.
  - apply name_eqb_eq in Q. subst. rewrite Z.lor_spec, orb_true_iff. tauto.
  - split; [tauto|]. intros [[A _]|A]; [|exact A]. subst. rewrite name_eqb_refl in Q. discriminate.
Qed.
Lemma pow_bit j k : 0 <= j -> (Z.testbit (2 ^ j) k = true <-> j = k).
Proof. intros J. destruct (Z.eq_dec j k) as [->|N]; [rewrite Z.pow2_bits_true by lia; tauto|]. rewrite Z.pow2_bits_false by lia. split; [discriminate | congruence]. Qed.
Lemma pair_iff (a b : name) (j k : Z) : (a, j) = (b, k) <-> a = b /\ j = k.
Proof. split; [intros H; injection H; auto | intros [-> ->]; reflexivity]. Qed.
Lemma topic_bit t mask k : 0 <= k < 32 -> (Z.testbit (add_topic t mask) k = true <-> Z.testbit mask k = true \/ t = str "ALL" \/ In (t, k) topic_bits).
Proof.
  intros K. unfold add_topic. cbv zeta. rewrite !put_iff.
  assert (A : Z.testbit LOG_ALL k = true) by (change LOG_ALL with (Z.ones 32); apply Z.ones_spec_low; lia). rewrite A.
  change LOG_MINOR with (2 ^ 0). change LOG_MAJOR with (2 ^ 1). change LOG_WARN with (2 ^ 2). change LOG_ERROR with (2 ^ 3). change LOG_FATAL with (2 ^ 4). change LOG_MODULE with (2 ^ 5). change LOG_COMM with (2 ^ 6).
  change LOG_MSG with (2 ^ 7). change LOG_MSGERR with (2 ^ 8). change LOG_CONFIG with (2 ^ 9). change LOG_PROTOCOL with (2 ^ 10). change LOG_INFO with (2 ^ 11). change LOG_DEBUG with (2 ^ 12). rewrite !pow_bit by lia.
  unfold topic_bits. cbn [In]. rewrite !pair_iff. assert (B : t = str "ALL" <-> str "ALL" = t) by (split; congruence). rewrite B.
  generalize (str "MINOR" = t), (str "MAJOR" = t), (str "WARN" = t), (str "ERROR" = t), (str "FATAL" = t), (str "MODULE" = t), (str "COMM" = t), (str "MSG" = t), (str "MSGERR" = t), (str "CONFIG" = t), (str "PROTOCOL" = t), (str "INFO" = t), (str "DEBUG" = t), (str "ALL" = t). intros. tauto.
Qed.
Definition full (x : name) : bool := match x with [] => false | _ => true end.
Lemma parts_some s : exists h r, parts s = h :: r.
Proof. induction s as [|c s IH]; cbn [parts]; [eauto|]. destruct (c =? 44); [eauto|]. destruct IH as (h & r & ->). eauto. Qed.
Lemma skip_parts s : filter full (parts (skip_delim 44 s)) = filter full (parts s).
Proof. induction s as [|c s IH]; [reflexivity|]. cbn [skip_delim parts]. destruct (c =? 44) eqn:Q; [exact IH|]. cbn [parts]. rewrite Q. reflexivity. Qed.
Lemma take_parts s a r : take_tok 44 s = (a, r) -> exists x, parts s = a :: x /\ filter full x = filter full (parts r).
Proof.
  revert a r. induction s as [|c s IH]; intros a r H; cbn [take_tok] in H; [injection H as <- <-; exists []; split; reflexivity|]. cbn [parts]. destruct (c =? 44).
  - injection H as <- <-. eauto.
  - destruct (take_tok 44 s) as [t r'] eqn:T. injection H as <- <-. destruct (IH _ _ eq_refl) as (x & -> & Fx). eauto.
Qed.
Lemma loop_bits n : forall s mask k, (length s < n)%nat -> 0 <= k < 32 ->
  (Z.testbit (topic_loop n s mask) k = true <-> Z.testbit mask k = true \/ exists x, In x (filter full (parts s)) /\ (x = str "ALL" \/ In (x, k) topic_bits)).
Proof.
  induction n as [|n IH]; intros s mask k L K; [lia|]. cbn [topic_loop]. destruct (strtok 44 s) as [[t r]|] eqn:T.
  - assert (Sp := strtok_spec _ _ _ _ T). rewrite IH by (try lia; destruct Sp as (_ & _ & Sp & _); lia). rewrite topic_bit by lia.
    unfold strtok in T. rewrite <- (skip_parts s). destruct (skip_delim 44 s) as [|c l]; [discriminate|]. injection T as T. change (take_tok 44 (c :: l) = (t, r)) in T. destruct (take_parts _ _ _ T) as (x & -> & Fx).
    destruct Sp as (Sp & _). cbn [filter]. replace (full t) with true by (destruct t; congruence || reflexivity). rewrite Fx. cbn [In]. split.
    + intros [[A|A]|(y & A & B)]; [tauto | right; exists t; tauto | right; exists y; tauto].
    + intros [A|(y & [<-|A] & B)]; [tauto | tauto | right; exists y; tauto].
  - unfold strtok in T. rewrite <- (skip_parts s). destruct (skip_delim 44 s) as [|c l]; [|discriminate]. cbn [parts filter full In]. split; [tauto|]. intros [A|(x & [] & _)]. exact A.
Qed.
(** the mask of a list of topics has a bit exactly if one of the parts between the commas is ALL or the name of this topic *)
Theorem C142_topics : forall s k, 0 <= k < 32 -> (Z.testbit (dax_parse_log_topics (Some s)) k = true <-> asks_for s k).
Proof.
  intros s k K. unfold dax_parse_log_topics. rewrite loop_bits by lia. rewrite Z.bits_0. unfold asks_for. split.
  - intros [A|(x & A & B)]; [discriminate|]. apply filter_In in A as [A _]. eauto.
  - intros (x & A & B). right. exists x. split; [|exact B]. apply filter_In. split; [exact A|]. destruct x; [|reflexivity]. exfalso. destruct B as [B|B]; [discriminate|]. cbn in B. intuition discriminate.
Qed.
(** the name under which a topic is printed is the one under which it is asked for: true of thirteen topics, not of the two of the embedded logic *)
Theorem C142_names_partial : forall x k, In (x, k) topic_bits -> topic_to_string (2 ^ k) = x /\ dax_parse_log_topics (Some x) = 2 ^ k.
Proof. intros x k H. cbn in H. repeat (destruct H as [H|H]; [injection H as <- <-; split; vm_compute; reflexivity|]). contradiction. Qed.
(** REFUTED: messages of topics LOGIC and LOGICERR are printed with these names, but asking for them asks for nothing - as the default
    this even silences fatal errors *)
Theorem C142_logic_refuted : topic_to_string LOG_LOGIC = str "LOGIC" /\ topic_to_string LOG_LOGICERR = str "LOGICERR" /\ dax_parse_log_topics (Some (str "LOGIC,LOGICERR")) = 0 /\
  forall lg nm msg topic, lg_name lg = Some nm -> lg_services lg = [] -> dax_log (dax_log_set_default_topics lg (Some (str "LOGIC"))) topic msg = Done [].
Proof.
  split; [reflexivity|]. split; [reflexivity|]. split; [reflexivity|]. intros lg nm msg topic Hn Hs. unfold dax_log, dax_log_set_default_topics. cbn [lg_services lg_default lg_name].
  change (dax_parse_log_topics (Some (str "LOGIC"))) with 0. rewrite Z.land_0_l, Hs. reflexivity.
Qed.
(** REFUTED: a space behind a comma hides the topic *)
Theorem C142_space_refuted : dax_parse_log_topics (Some (str "ERROR, WARN")) = LOG_ERROR.
Proof. reflexivity. Qed.

(** ** C143 *)
(** the levels of syslog, most severe first *)
Definition syslog_levels : list name := [str "EMERG"; str "ALERT"; str "CRIT"; str "ERR"; str "WARNING"; str "NOTICE"; str "INFO"; str "DEBUG"].
(** a complete entry of the configuration file *)
Definition good (t : stable) (v : service) : Prop := exists topics, st_topics t = Some topics /\ sv_mask v = dax_parse_log_topics (Some topics) /\
  ((exists ty f, st_type t = Some ty /\ case_eqb ty (str "stdio") = true /\ st_file t = Some f /\
      (case_eqb f (str "stdout") = true /\ sv_kind v = SvStdio FStdout \/ case_eqb f (str "stderr") = true /\ sv_kind v = SvStdio FStderr)) \/
   (exists ty p n k, st_type t = Some ty /\ case_eqb ty (str "syslog") = true /\ st_priority t = Some p /\
      nth_error syslog_levels k = Some n /\ sv_kind v = SvSyslog (Z.of_nat k) /\ case_eqb p n = true)).
Lemma case_trans a b c : case_eqb a b = true -> case_eqb a c = true -> case_eqb b c = true.
Proof. unfold case_eqb. intros A B. apply name_eqb_eq in A, B. rewrite <- A, B. apply name_eqb_refl. Qed.
Lemma add_good lg t v : good t v -> zlen (lg_services lg) < 32 -> add_service lg (Some t) = Done (mk_lg (lg_default lg) (lg_name lg) (lg_services lg ++ [v]), [], AddOk).
Proof.
  intros (topics & Tp & Mk & G) L. unfold add_service. cbv zeta. replace (SERVICE_LIST_SIZE <=? zlen (lg_services lg)) with false by (unfold SERVICE_LIST_SIZE; lia). rewrite Tp.
  destruct v as [m kd]. cbn [sv_mask sv_kind] in *. subst m. destruct G as [(ty & f & -> & -> & Hf & G)|(ty & p & n & k & -> & Ty & Hp & K & -> & C)].
  - unfold add_stdio. rewrite Hf. cbn [rbind]. destruct G as [(-> & ->)|(Q & ->)]; [reflexivity|]. destruct (case_eqb f (str "stdout")) eqn:Q1; [|rewrite Q; reflexivity].
    assert (W := case_trans _ _ _ Q Q1). discriminate.
  - replace (case_eqb ty (str "stdio")) with false; [|destruct (case_eqb ty (str "stdio")) eqn:Q1; [|reflexivity]; assert (W := case_trans _ _ _ Ty Q1); discriminate]. rewrite Ty.
    assert (I : In (n, Z.of_nat k) priorities).
    { clear - K. do 8 (destruct k as [|k]; [injection K as <-; vm_compute; tauto|]). destruct k; discriminate. }
    unfold add_syslog. rewrite Hp. destruct (find _ priorities) as [x|] eqn:F.
    + apply find_some in F as (F1 & F2). assert (W := case_trans _ _ _ C F2). cbn [rbind]. clear K. set (q := Z.of_nat k) in *. clearbody q.
      assert (Q : snd x = q); [|rewrite Q; reflexivity].
      cbn [priorities In] in I, F1. repeat (destruct I as [I|I]; [injection I as <- <-; repeat (destruct F1 as [F1|F1]; [subst x; first [reflexivity | discriminate W]|]); contradiction|]). contradiction.
    + exfalso. assert (X := find_none _ _ F _ I). cbn in X. congruence.
Qed.
(** a complete entry adds one service behind the others and changes nothing else, until there are 32 *)
Theorem C143_added : forall lg t v, good t v -> zlen (lg_services lg) < 32 ->
  add_service lg (Some t) = Done (mk_lg (lg_default lg) (lg_name lg) (lg_services lg ++ [v]), [], AddOk).
Proof. exact add_good. Qed.
(** whatever the argument: an answer other than success changes nothing, and a success adds exactly one service with the topics asked for *)
Theorem C143_all_or_nothing : forall lg arg lg' o r, add_service lg arg = Done (lg', o, r) ->
  (r <> AddOk -> lg' = lg) /\
  (r = AddOk -> exists t v topics, arg = Some t /\ st_topics t = Some topics /\ sv_mask v = dax_parse_log_topics (Some topics) /\ zlen (lg_services lg) < 32 /\
     lg' = mk_lg (lg_default lg) (lg_name lg) (lg_services lg ++ [v])).
Proof.
  intros lg arg lg' o r H. unfold add_service in H. cbv zeta in H. destruct (SERVICE_LIST_SIZE <=? zlen (lg_services lg)) eqn:L; [apply rbind_done in H as (x & _ & H); inversion H; subst; split; [reflexivity | discriminate]|].
  destruct arg as [t|]; [|inversion H; subst; split; [reflexivity | discriminate]]. destruct (st_topics t) as [topics|] eqn:Tp; [|apply rbind_done in H as (x & _ & H); inversion H; subst; split; [reflexivity | discriminate]].
  assert (K : forall k, Done (mk_lg (lg_default lg) (lg_name lg) (lg_services lg ++ [mk_sv (dax_parse_log_topics (Some topics)) k]), [], AddOk) = Done (lg', o, r) -> (r <> AddOk -> lg' = lg) /\
    (r = AddOk -> exists t0 v topics0, Some t = Some t0 /\ st_topics t0 = Some topics0 /\ sv_mask v = dax_parse_log_topics (Some topics0) /\ zlen (lg_services lg) < 32 /\ lg' = mk_lg (lg_default lg) (lg_name lg) (lg_services lg ++ [v]))).
  { intros k Q. inversion Q. split; [congruence|]. intros _. exists t, (mk_sv (dax_parse_log_topics (Some topics)) k), topics. unfold SERVICE_LIST_SIZE in L. repeat split; auto. lia. }
  destruct (st_type t) as [ty|]; [|discriminate]. destruct (case_eqb ty (str "stdio")); [apply rbind_done in H as (k & _ & H); exact (K _ H)|].
  destruct (case_eqb ty (str "syslog")); [apply rbind_done in H as ([k|u] & _ & H); [exact (K _ H) | inversion H; subst; split; [reflexivity | discriminate]]|].
  apply rbind_done in H as (x & _ & H). inversion H; subst. split; [reflexivity | discriminate].
Qed.
(** from the configuration file to the message: after a file of at most 32 complete entries, a message of one topic goes, once each and in the order of
    the file, to the services whose entry asks for the topic *)
Inductive reaches (nm text : name) (k : Z) : list stable -> list lout -> Prop :=
| re_end : reaches nm text k [] []
| re_hit t v topics l o r : good t v -> st_topics t = Some topics -> asks_for topics k -> put_out nm text (2 ^ k) v o -> reaches nm text k l r -> reaches nm text k (t :: l) (o :: r)
| re_miss t topics l r : st_topics t = Some topics -> ~ asks_for topics k -> reaches nm text k l r -> reaches nm text k (t :: l) r.
Lemma configure_good l : forall vs lg, Forall2 good l vs -> zlen (lg_services lg) + zlen l <= 32 ->
  configure lg (map Some l) = Done (mk_lg (lg_default lg) (lg_name lg) (lg_services lg ++ vs), [], AddOk).
Proof.
  induction l as [|t l IH]; intros vs lg F L; inversion F; subst; cbn [map configure]; [rewrite app_nil_r; destruct lg; reflexivity|]. unfold zlen in L. cbn [length] in L.
  rewrite (add_good lg t y) by (assumption || (unfold zlen; lia)). cbn [rbind]. rewrite (IH l') by (try assumption; cbn [lg_services]; unfold zlen in *; rewrite app_length; cbn [length]; lia).
  cbn [rbind lg_default lg_name lg_services]. rewrite <- app_assoc. reflexivity.
Qed.
Lemma takes_bit m k : 0 <= k -> (takes m (2 ^ k) <-> Z.testbit m k = true).
Proof.
  intros K. split; [intros (j & J & A & B); apply pow_bit in B; [congruence | exact K] | intros A; exists k; split; [exact K|]; split; [exact A | apply Z.pow2_bits_true; exact K]].
Qed.
Theorem C143_end_to_end : forall l vs lg nm k msg, Forall2 good l vs -> 0 < zlen l <= 32 -> lg_services lg = [] -> lg_name lg = Some nm -> 0 <= k < 32 ->
  exists lg' out, configure lg (map Some l) = Done (lg', [], AddOk) /\ dax_log lg' (2 ^ k) msg = Done out /\ reaches nm (firstn 255 msg) k l out.
Proof.
  intros l vs lg nm k msg F L Hs Hn K. assert (C := configure_good l vs lg F ltac:(rewrite Hs; unfold zlen at 1; cbn [length]; lia)). rewrite Hs in C. cbn [app] in C. eexists. 
  assert (Us : Forall usable vs). { clear -F. induction F as [|t v l vs G F IH]; constructor; [|exact IH]. destruct G as (_ & _ & _ & [(_ & _ & _ & _ & _ & [(_ & Q)|(_ & Q)])|(_ & _ & _ & k & _ & _ & _ & _ & Q & _)]); unfold usable; congruence. }
  destruct (C141_safe_partial (mk_lg (lg_default lg) (lg_name lg) vs) nm (2 ^ k) msg Hn Us) as (out & Ho). exists out. split; [exact C|]. split; [exact Ho|].
  destruct (C141_delivered (mk_lg (lg_default lg) (lg_name lg) vs) nm (2 ^ k) msg out Hn Ho) as (D & _). cbn [lg_services] in D. assert (N : vs <> []) by (destruct F; [unfold zlen in L; cbn in L; lia | discriminate]). specialize (D N).
  clear -F D K. revert out D. induction F as [|t v l vs G F IH]; intros out D; inversion D as [| ? ? o r T P D' | ? ? r T D']; subst; [constructor | |]; assert (G' := G); destruct G' as (topics & Tp & Mk & _).
  - eapply re_hit; [exact G | exact Tp | | exact P | auto]. rewrite Mk in T. apply C142_topics; [exact K|]. apply takes_bit; [lia | exact T].
  - eapply re_miss; [exact Tp | | auto]. intros A. apply T. rewrite Mk. apply takes_bit; [lia|]. apply C142_topics; assumption.
Qed.
(** REFUTED: an entry without a type, a stdio entry without a file and a syslog entry without a priority end the program *)
Theorem C143_missing_refuted : forall lg, zlen (lg_services lg) < 32 ->
  add_service lg (Some (mk_st (Some (str "ALL")) None (Some (str "stdout")) None)) = Undef UNull /\
  add_service lg (Some (mk_st (Some (str "ALL")) (Some (str "stdio")) None None)) = Undef UNull /\
  add_service lg (Some (mk_st (Some (str "ALL")) (Some (str "syslog")) None None)) = Undef UNull.
Proof. intros lg L. unfold add_service. replace (SERVICE_LIST_SIZE <=? zlen (lg_services lg)) with false by (unfold SERVICE_LIST_SIZE; lia). repeat split. Qed.
(** REFUTED: the entry after the 32nd, one without topics and one of an unknown type are not used, and the configuration goes on as if they were *)
Theorem C143_ignored_refuted : forall lg nm l, lg_name lg = Some nm -> Forall usable (lg_services lg) ->
  exists o, configure lg (Some (mk_st None (Some (str "stdio")) (Some (str "stdout")) None) :: l) = (y <-- configure lg l ;; let '(lg', o', r) := y in Done (lg', o ++ o', r)).
Proof.
  intros lg nm l Hn U. cbn [configure]. unfold add_service. cbv zeta. cbn [st_topics].
  destruct (C141_safe_partial lg nm LOG_ERROR (str "No more log services available") Hn U) as (o1 & H1). destruct (C141_safe_partial lg nm LOG_ERROR (str "No Topic list given") Hn U) as (o2 & H2).
  rewrite H1, H2. destruct (_ <=? _); [exists o1 | exists o2]; reflexivity.
Qed.
(** a file with two entries *)
Definition ex_entries : list stable := [mk_st (Some (str "ERROR,FATAL")) (Some (str "stdio")) (Some (str "STDERR")) None; mk_st (Some (str "ALL")) (Some (str "Syslog")) None (Some (str "notice"))].
Definition ex_services : list service := [mk_sv 24 (SvStdio FStderr); mk_sv 4294967295 (SvSyslog 5)].
Example C143_ex : Forall2 good ex_entries ex_services /\ exists lg', configure (dax_init_logger lg_start (Some (str "m")) 0) (map Some ex_entries) = Done (lg', [], AddOk) /\
  dax_log lg' LOG_ERROR (str "x") = Done [LLine true (str "[m] ERROR: x" ++ [10]); LSys 13 (str "x")] /\ dax_log lg' LOG_INFO (str "y") = Done [LSys 13 (str "y")].
Proof.
  split; [|eexists; repeat split; vm_compute; reflexivity]. constructor; [|constructor; [|constructor]].
  - eexists. split; [reflexivity|]. split; [reflexivity|]. left. exists (str "stdio"), (str "STDERR"). repeat split. right. split; reflexivity.
  - eexists. split; [reflexivity|]. split; [reflexivity|]. right. exists (str "Syslog"), (str "notice"), (str "NOTICE"), 5%nat. repeat split.
Qed.
Example C142_ex : asks_for (str "WARN,,DEBUG") 12 /\ dax_parse_log_topics (Some (str "WARN,,DEBUG")) = Z.lor LOG_WARN LOG_DEBUG.
Proof. split; [exists (str "DEBUG"); split; [right; right; left; reflexivity | right; do 12 right; left; reflexivity] | reflexivity]. Qed.
Example C141_ex : dax_log (dax_init_logger lg_start (Some (str "m")) 0) LOG_ERROR (str "x") = Done [LLine false (str "[m] ERROR: x" ++ [10])] /\ dax_log (dax_init_logger lg_start (Some (str "m")) 0) LOG_INFO (str "x") = Done [].
Proof. split; reflexivity. Qed.
