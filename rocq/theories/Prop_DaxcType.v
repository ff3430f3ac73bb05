(** * Prop_DaxcType: C162, ADD TYPE of the command line client *)
From Verif Require Import Text Prop_Text Daxc DaxcRead.
From Verif Require Import Base Const Types State Events Atomic Server Lib Spec Shape Inv Reach TypeFrame TypesProofs ClientTypes ClientTypesProofs ClientData Demo Prop_Types Prop_ClientOvr CdtNew Prop_CdtNew.

(** the words that describe the members: name, type and count of each *)
Inductive worded (s : server) : list cmember -> list name -> Prop :=
| wo_end : worded s [] []
| wo_more m ms tn c ws : refers s tn (cm_type m) -> Prop_Text.number c = cm_count m -> worded s ms ws -> worded s (m :: ms) (cm_name m :: tn :: c :: ws).

Lemma words_count s ms ws : worded s ms ws -> zlen ws = 3 * zlen ms.
Proof. induction 1; [reflexivity|]. rewrite !zlen_cons. lia. Qed.
Section Words.
Variables (E : env) (s : server).
Hypotheses (R : reachable E s) (F : few s) (Rd : readable s).
Lemma words_members ms ws : worded s ms ws -> (forall m, In m ms -> identifier (cm_name m) /\ (exists n, type_name s (cm_type m) n) /\ 1 <= cm_count m < 2147483648) ->
  ForallOrdPairs (fun a b => case_eqb (cm_name a) (cm_name b) = false) ms ->
  forall cc d, agrees s cc -> (forall x m, In x (nc_members d) -> In m ms -> case_eqb (cm_name x) (cm_name m) = false) ->
  exists cc', cdt_words (s_types s) cc d ws = Done (cc', mk_nc (nc_name d) (nc_members d ++ ms)) /\ agrees s cc'.
Proof.
  induction 1 as [|m ms tn c ws Rf Nc _ IH]; intros M P cc d A D; cbn [cdt_words]; [rewrite app_nil_r; destruct d; eauto|]. inversion P as [|? ? P1 P2]; subst. rewrite Forall_forall in P1.
  destruct (named_type E s R F Rd cc tn (cm_type m) A Rf) as (cc0 & -> & A0). cbn [rbind]. destruct (M m (or_introl eq_refl)) as (M1 & M2 & M3).
  replace (s32 (strtol0 c)) with (cm_count m).
  2: { rewrite strtol0_number, Nc. unfold sat64. replace (Z.max (-9223372036854775808) (Z.min 9223372036854775807 (cm_count m))) with (cm_count m) by lia. unfold s32. rewrite Z.mod_small by lia. cbv zeta. replace (cm_count m <? 2147483648) with true by lia. reflexivity. }
  destruct (member_step E s R F Rd cc0 d m A0 M1 M2 M3 (fun x I => D x m I (or_introl eq_refl))) as (cc1 & -> & A1). cbn [rbind].
  destruct (IH (fun x I => M x (or_intror I)) P2 cc1 (mk_nc (nc_name d) (nc_members d ++ [m])) A1) as (cc2 & H & A2).
  { cbn [nc_members]. intros x y I J. apply in_app_or in I as [I|[<-|[]]]; [apply D; [exact I | right; exact J] | apply P1; exact J]. }
  exists cc2. split; [|exact A2]. rewrite H. cbn [nc_name nc_members]. rewrite <- app_assoc. reflexivity.
Qed.
End Words.
(** FULL STATEMENT (false, see below): ADD TYPE makes exactly the type that was described, or none.  What holds: a well-formed description gives that type, on the server and in the library *)
Theorem C162_made_partial : forall E cc fd s nm ms ws, reachable E s -> few s -> readable s -> agrees s cc -> wish s nm ms -> fits s nm ms -> worded s ms ws ->
  exists cc' s' ty, cdt_add_cmd E cc fd s (nm :: ws) = Done (cc', s', 0, true) /\ made s nm ms ty cc' s'.
Proof.
  intros E cc fd s nm ms ws R F Rd A Wi Fi Wo. unfold cdt_add_cmd. assert (Lw := words_count _ _ _ Wo). rewrite zlen_cons. assert (Lm : 1 <= zlen ms).
  { destruct ms as [|m r]; [destruct (wi_some _ _ _ Wi eq_refl)|]. rewrite zlen_cons. assert (Q := zlen_nonneg r). lia. }
  replace (1 + zlen ws <? 4) with false by lia. replace (1 + zlen ws - 1) with (zlen ms * 3) by lia. rewrite Z.rem_mul by lia. cbn [Z.eqb negb orb].
  destruct (wi_name _ _ _ Wi) as (L & _). unfold dax_cdt_new, TAGNAME_SIZE. replace (32 <? zlen nm) with false by lia. cbn [rbind].
  destruct (words_members E s R F Rd ms ws Wo (wi_members _ _ _ Wi) (wi_distinct _ _ _ Wi) cc (mk_nc nm []) A (fun x m I => match I with end)) as (cc1 & -> & A1). cbn [rbind nc_name nc_members app].
  destruct (create_step E s R F Rd cc1 fd nm ms Wi Fi A1) as (cc' & s' & ty & Hc & M). exists cc', s', ty. split; [|exact M]. rewrite Hc. reflexivity.
Qed.
(** a wrong number of words is refused *)
Theorem C162_words : forall E cc fd s a, (zlen a < 4 \/ forall k, zlen a <> 1 + 3 * k) -> cdt_add_cmd E cc fd s a = Done (cc, s, E_ARG, false).
Proof.
  intros E cc fd s a H. unfold cdt_add_cmd. destruct a as [|nm ws]; [reflexivity|]. destruct (Z.ltb_spec (zlen (nm :: ws)) 4) as [L|L]; [reflexivity|]. cbn [orb].
  replace (Z.rem (zlen (nm :: ws) - 1) 3 =? 0) with false; [reflexivity|]. symmetry. apply Z.eqb_neq. intros Q. destruct H as [H|H]; [lia|]. apply (H ((zlen (nm :: ws) - 1) / 3)). rewrite Z.rem_mod_nonneg in Q by lia. lia.
Qed.
(** REFUTED: a member that is refused is left out, and the type is made without it *)
Theorem C162_left_out_refuted : exists E s cc' s', reachable E s /\ few s /\ readable s /\ agrees s [] /\ (forall t, ~ refers s (str "INTT") t) /\
  cdt_add_cmd E [] 5 s [str "New"; str "a"; str "INT"; str "1"; str "b"; str "INTT"; str "1"] = Done (cc', s', 0, true) /\ s_types s' = s_types s ++ [mk_cdt (str "New") [mk_cm (str "a") T_INT 1]].
Proof.
  exists envS, ty_state. do 2 eexists. split; [exact ty_reachable|]. split; [apply few_check; vm_compute; reflexivity|]. split; [apply readable_check; vm_compute; reflexivity|]. split; [apply agrees_empty|].
  split. { intros t (n & T & C). assert (X := free_check ty_state (str "INTT") ltac:(vm_compute; reflexivity) t n T). congruence. }
  split; [vm_compute; reflexivity|]. vm_compute. reflexivity.
Qed.
(** REFUTED: when the server refuses the type, the command still reports success *)
Theorem C162_result_refuted : exists E s cc' s', reachable E s /\ cdt_add_cmd E [] 5 s [str "9New"; str "a"; str "INT"; str "1"] = Done (cc', s', 0, false) /\ s_types s' = s_types s.
Proof.
  exists envS, ty_state. do 2 eexists. split; [exact ty_reachable|]. split; [vm_compute; reflexivity|]. vm_compute. reflexivity.
Qed.
Example C162_ex : worded ty_state new_members [str "on"; str "bool"; str "9"; str "p"; str "PT"; str "2"; str "x_1"; str "LReal"; str "0x1"].
Proof.
  apply (wo_more _ (mk_cm (str "on") T_BOOL 9)); [exists (str "BOOL"); split; [left; cbn; tauto | reflexivity] | reflexivity|].
  apply (wo_more _ (mk_cm (str "p") (cdt_type 2) 2)); [exists (str "Pt"); split; [exact pt_named | reflexivity] | reflexivity|].
  apply (wo_more _ (mk_cm (str "x_1") T_LREAL 1)); [exists (str "LREAL"); split; [left; cbn; tauto | reflexivity] | reflexivity|]. apply wo_end.
Qed.
