(** * C146-C148: events and log messages of Lua scripts *)
From Verif Require Import Base Const Types State Events Atomic Server Lib Shape Inv Reach Spec Demo Prop_Tags Prop_Events ClientTypes ClientData ClientRx Prop_ClientRx LuaConv Log Prop_Log LuaEvent.

(** ** Words of the statements *)
Definition kinds : list (name * Z) :=
  [(str "WRITE", EV_WRITE); (str "CHANGE", EV_CHANGE); (str "SET", EV_SET); (str "RESET", EV_RESET);
   (str "EQUAL", EV_EQUAL); (str "GREATER", EV_GREATER); (str "LESS", EV_LESS); (str "DEADBAND", EV_DEADBAND)].
(** a name of an event kind, in any mix of upper and lower case *)
Definition names_kind (n : name) (k : Z) : Prop := exists x, In (x, k) kinds /\ case_eqb n x = true.
(** the kinds that have a reference value *)
Definition compares (k : Z) : Prop := In k [EV_EQUAL; EV_GREATER; EV_LESS; EV_DEADBAND].
(** integer types but for TIME: range and size *)
Definition int_types : list (Z * (Z * Z * nat)) :=
  [(T_BYTE, (0, 255, 1%nat)); (T_SINT, (-128, 127, 1%nat)); (T_CHAR, (-128, 127, 1%nat)); (T_WORD, (0, 65535, 2%nat)); (T_UINT, (0, 65535, 2%nat)); (T_INT, (-32768, 32767, 2%nat));
   (T_DWORD, (0, 4294967295, 4%nat)); (T_UDINT, (0, 4294967295, 4%nat)); (T_DINT, (-2147483648, 2147483647, 4%nat));
   (T_LWORD, (0, 18446744073709551615, 8%nat)); (T_ULINT, (0, 18446744073709551615, 8%nat)); (T_LINT, (-9223372036854775808, 9223372036854775807, 8%nat))].
(** the integer part of a Lua number *)
Definition integer_part (x : lnum) : option Z := match x with FZ z => Some z | FB b => fp_trunc 52 11 b end.
(** the reference value of an event of type [t] is the number [x] *)
Definition refers_to (t : Z) (x : lnum) (data : list Z) : Prop :=
  (forall lo hi n, In (t, (lo, hi, n)) int_types -> exists v, integer_part x = Some v /\ lo <= v <= hi /\ data = le_bytes n v) /\
  (t = T_LREAL -> data = le_bytes 8 (match x with FZ z => fp_enc 52 11 z | FB b => b end)).

(** ** C146 *)
Lemma kind_of n k : get_event_type (Some n) = Done k -> 0 <= k -> names_kind n k.
Proof.
  unfold get_event_type, names_kind, kinds. intros H K. injection H as <-.
  repeat match goal with |- context [case_eqb n ?x] => destruct (case_eqb n x) eqn:?; [exists x; split; [cbn [In]; tauto | assumption]|] end.
  exfalso. apply K. reflexivity.
Qed.
Lemma added E s fd h ty ud s' p : ask E s (OpEvAdd fd h ty ud) = Done (s', inl p) ->
  exists m t t' e x, find_mod s fd = Some m /\ znth (s_db s) (h_index h) = Some t /\ znth (s_db s') (h_index h) = Some t' /\ t_events t' = e :: t_events t /\ t_data t' = t_data t /\
    p = le_bytes 4 (e_id e) /\ e_mod e = m_uid m /\ e_etype e = ty /\ e_dtype e = h_type h /\ e_byte e = s32 (h_byte h) /\ e_bit e = h_bit h /\ e_count e = s32 (h_count h) /\ e_size e = h_size h /\ e_data e = fst x /\
    set_event_data E (s_step s) (s_types s) ty (h_type h) (s32 (h_count h)) (s32 (h_byte h)) (t_data t) ud = Done x.
Proof.
  intros H. unfold ask in H. apply rbind_done in H as (s0 & H & A). injection A as -> A.
  apply step_inv in H as (s1 & u & H & ->). cbn [handle_op] in H. inv1 H. inv1 H. cbn [set_step s_out] in A. unfold reply_int in H.
  assert (Er : forall c y, s1 = set_out y (s_out y ++ [OErr fd MSG_EVNT_ADD c]) -> False). { intros c y ->. cbn [set_out s_out] in A. rewrite rev_app_distr in A. discriminate. }
  destruct (find_mod s fd) as [m|] eqn:F. 2:{ inv1 Hm. exfalso. cbn [Z.ltb Z.compare] in H. unfold reply_err, emit, modify in H. injection H as <- _. eapply Er. reflexivity. }
  apply event_add_cases in Hm as [[-> Hr]|(t & x & Ht & -> & Hx & ->)].
  - exfalso. replace (v <? 0) with true in H by lia. unfold reply_err, emit, modify in H. injection H as <- _. eapply Er. reflexivity.
  - set (sx := upd_mod _ _ _) in *. destruct (t_nextev t <? 0); [exfalso; unfold reply_err, emit, modify in H; injection H as <- _; exact (Er _ sx eq_refl)|].
    unfold respond in H. replace (MSG_DATA_SIZE <? zlen (le_bytes 4 (t_nextev t))) with false in H by (rewrite zlen_le_bytes; reflexivity).
    unfold emit, modify in H. inversion H. subst s1. clear H. cbn [set_out s_out] in A. rewrite rev_app_distr in A. cbn [rev app] in A. injection A as Z.
    eexists m, t, _, _, x. split; [reflexivity|]. split; [exact Ht|]. split; [cbn; apply znth_zset_eq; eapply znth_range; exact Ht|]. cbn [t_events set_attr set_nextev set_events t_data].
    split; [reflexivity|]. split; [reflexivity|]. split; [cbn [e_id]; symmetry; exact Z|]. do 8 (split; [reflexivity|]). exact Hx.
Qed.
Lemma dbl_to_inv lo hi x v : dbl_to lo hi x = Done v -> integer_part x = Some v /\ lo <= v <= hi.
Proof. unfold dbl_to, integer_part. destruct x as [z|b]; [|destruct (fp_trunc 52 11 b) as [z|]; [|discriminate]]; (destruct ((lo <=? z) && (z <=? hi)) eqn:Q; [|discriminate]); intros H; injection H as <-; split; [reflexivity | lia | reflexivity | lia]. Qed.
Lemma sent_bytes n v (u1 : list Z) : slice 0 (Z.of_nat n) (le_bytes n v ++ skipn n u1) = le_bytes n v.
Proof. assert (L := zlen_le_bytes n v). assert (Q : Z.of_nat n = zlen (le_bytes n v)) by lia. rewrite Q at 1. unfold slice. cbn [Z.to_nat skipn]. unfold zlen. rewrite Nat2Z.id, firstn_app, firstn_all, Nat.sub_diag. cbn [firstn]. apply app_nil_r. Qed.
Lemma type_size_base ts t lo hi n : In (t, (lo, hi, n)) int_types \/ t = T_LREAL /\ n = 8%nat -> type_size ts t = Done (Z.of_nat n) /\ typesize_bits t / 8 = Z.of_nat n.
Proof.
  intros [I|[-> ->]]; [|split; reflexivity]. unfold int_types in I. cbn [In] in I. repeat (destruct I as [I|I]; [inversion I; subst; split; reflexivity|]). contradiction.
Qed.
Lemma compared E st ts k t count byte td ud x n : compares k -> type_size ts t = Done (Z.of_nat n) -> zlen ud = Z.of_nat n -> set_event_data E st ts k t count byte td ud = Done x -> fst x = ud.
Proof.
  intros K T U H.
  assert (F : firstn n (ud ++ jbytes E st 0 (Z.of_nat n)) = ud). { unfold zlen in U. replace n with (length ud) by lia. rewrite firstn_app, firstn_all, Nat.sub_diag. cbn [firstn]. apply app_nil_r. }
  unfold set_event_data in H. rewrite T in H. cbn [rbind] in H. cbv beta zeta in H. replace (Z.of_nat n <? 0) with false in H by lia. rewrite Nat2Z.id, F in H. cbn [rbind] in H.
  unfold compares in K. cbn [In] in K. destruct K as [<-|[<-|[<-|[<-|[]]]]]; cbn [Z.eqb Pos.eqb orb EV_CHANGE EV_EQUAL EV_GREATER EV_LESS EV_DEADBAND EV_SET EV_RESET] in H.
  - destruct (_ <? 0) in H; [discriminate|]. injection H as <-. reflexivity.
  - destruct (_ <? 0) in H; [discriminate|]. injection H as <-. reflexivity.
  - destruct (_ <? 0) in H; [discriminate|]. injection H as <-. reflexivity.
  - destruct (negb _) in H; [discriminate|]. apply rbind_done in H as (y & _ & H). injection H as <-. reflexivity.
Qed.
(** an event that a script has added is on the server, of the kind, place and type asked for, owned by the script's module, and its
    reference value is the number of the script; the script gets the index of the tag and the number of the event *)
Theorem C146_registered : forall E L fd s st h kind num f d s' st' i id,
  reachable E s -> lua_event_add E L fd s st h kind num f d = Done (s', st', inl (i, id)) ->
  exists m t t' e n, find_mod s fd = Some m /\ i = h_index h /\ znth (s_db s) i = Some t /\ znth (s_db s') i = Some t' /\ t_events t' = e :: t_events t /\ t_data t' = t_data t /\
    kind = Some n /\ names_kind n (e_etype e) /\ id = s32 (e_id e) /\ e_mod e = m_uid m /\ e_dtype e = h_type h /\ e_byte e = s32 (h_byte h) /\ e_bit e = h_bit h /\ e_count e = s32 (h_count h) /\ e_size e = h_size h /\
    (compares (e_etype e) -> refers_to (h_type h) (tonum L num) (e_data e)).
Proof.
  intros E L fd s st h kind num f d s' st' i id R H. unfold lua_event_add in H. destruct (negb _); [discriminate|].
  apply rbind_done in H as (ty & Hk & H). cbv beta in H. destruct (ty <? 0) eqn:Q; [discriminate|]. apply rbind_done in H as ((u1 & given) & Hc & H). cbv beta iota in H.
  destruct (lual_ref d (ls_refs st)) as [r1 rd]. destruct (lual_ref f r1) as [r2 rf]. apply rbind_done in H as ((s1 & [p|c]) & Ha & H); [|discriminate]. cbv beta iota zeta in H.
  apply rbind_done in H as (ev & _ & H). cbv beta in H. injection H as -> _ <- <-.
  destruct kind as [n|]; [|discriminate]. destruct (added _ _ _ _ _ _ _ _ Ha) as (m & t & t' & e & x & A1 & A2 & A3 & A4 & A5 & A6 & A7 & A8 & A9 & A10 & A11 & A12 & A13 & A14 & A15).
  exists m, t, t', e, n. subst ty. split; [exact A1|]. split; [reflexivity|]. split; [exact A2|]. split; [exact A3|]. split; [exact A4|]. split; [exact A5|]. split; [reflexivity|].
  split; [apply kind_of; [exact Hk | lia]|]. split. { rewrite A6. change 4 with (zlen (le_bytes 4 (e_id e))) at 1. rewrite slice_full, le_val_le_bytes. change (256 ^ Z.of_nat 4) with 4294967296. unfold s32. cbv zeta. rewrite Z.mod_mod by lia. reflexivity. }
  split; [exact A7|]. split; [exact A9|]. split; [exact A10|]. split; [exact A11|]. split; [exact A12|]. split; [exact A13|]. intros C. rewrite A14.
  set (y := tonum L num) in *. split.
  - intros lo hi k I. destruct (type_size_base (s_types s) _ _ _ _ (or_introl I)) as [T1 T2]. rewrite T2 in A15.
    assert (G : exists v, dbl_to lo hi y = Done v /\ u1 = le_bytes k v ++ skipn k (ls_u1 st) /\ given = true).
    { unfold int_types in I. cbn [In] in I. repeat (destruct I as [I|I]; [inversion I as [Q1]; subst lo hi k; rewrite <- Q1 in Hc; unfold convert_lua_number in Hc; cbv zeta in Hc;
        cbn [Z.eqb Pos.eqb orb T_BYTE T_SINT T_CHAR T_WORD T_UINT T_INT T_DWORD T_UDINT T_DINT T_LWORD T_ULINT T_LINT T_TIME T_REAL T_LREAL] in Hc; apply rbind_done in Hc as (v & Hv & Hc); injection Hc as <- <-; eauto|]). contradiction. }
    destruct G as (v & G1 & -> & ->). destruct (dbl_to_inv _ _ _ _ G1) as [G2 G3]. exists v. split; [exact G2|]. split; [exact G3|]. rewrite sent_bytes in A15.
    eapply compared; [exact C | exact T1 | apply zlen_le_bytes | exact A15].
  - intros T. destruct (type_size_base (s_types s) (h_type h) 0 0 8%nat (or_intror (conj T eq_refl))) as [T1 T2]. rewrite T2 in A15. rewrite T in Hc. unfold convert_lua_number in Hc. cbv zeta in Hc.
    cbn [Z.eqb Pos.eqb orb T_BYTE T_SINT T_CHAR T_WORD T_UINT T_INT T_DWORD T_UDINT T_DINT T_LWORD T_ULINT T_LINT T_TIME T_REAL T_LREAL] in Hc. set (b := match y with FZ z => _ | FB b => b end) in *.
    assert (G : u1 = le_bytes 8 b ++ skipn 8 (ls_u1 st) /\ given = true) by (injection Hc as <- <-; split; reflexivity). destruct G as [-> ->]. rewrite sent_bytes in A15. eapply compared; [exact C | exact T1 | apply zlen_le_bytes | exact A15].
Qed.
(** an unknown kind: an error, and nothing has changed *)
Theorem C146_unknown : forall E L fd s st h n num f d, (forall k, ~ names_kind n k) -> lua_event_add E L fd s st h (Some n) num f d = Done (s, st, inr tt).
Proof.
  intros E L fd s st h n num f d N. unfold lua_event_add. destruct (negb _); [reflexivity|]. unfold get_event_type. cbn [rbind].
  repeat match goal with |- context [case_eqb n ?x] => destruct (case_eqb n x) eqn:?; [exfalso; eapply N; exists x; split; [cbn [In kinds]; tauto | assumption]|] end. reflexivity.
Qed.
(** a script from its start: the static union is zero, nothing is registered *)
Definition ls_start : lstate := mk_ls (zeros 8) [] [] ev_init.
Definition no_text : lenv := {| l_narrow := fun _ => 0; l_strnum := fun _ => LNil |}.
Definition ev_server : server := after_ops env0 (demo_ops ++ [OpTagAdd 5 (str "lr") T_LREAL 1 0; OpTagAdd 5 (str "tm") T_TIME 1 0]).
Lemma ev_reachable : reachable env0 ev_server.
Proof. apply after_reachable. vm_compute. reflexivity. Qed.
Definition h_lr : handle := mk_h 16 0 0 1 8 T_LREAL.
Definition h_tm : handle := mk_h 17 0 0 1 8 T_TIME.
Definition h_foo : handle := mk_h 13 0 0 1 4 T_DINT.
(** the newest event of a tag *)
Definition newest (s : server) (i : Z) : option event := match znth (s_db s) i with Some t => hd_error (t_events t) | None => None end.
(** REFUTED for TIME, whose values have 8 bytes: four are the number, the other four are what an earlier call for another tag has left *)
Theorem C146_time_refuted : exists E L fd s s1 st1 s2 st2 r1 r2 e, reachable E s /\
  lua_event_add E L fd s ls_start h_lr (Some (str "greater")) (LNum (FB 4609434218613702656)) (AFun 1) (AVal LNil) = Done (s1, st1, inl r1) /\
  lua_event_add E L fd s1 st1 h_tm (Some (str "greater")) (LInt 5) (AFun 1) (AVal LNil) = Done (s2, st2, inl r2) /\
  newest s2 (fst r2) = Some e /\ e_etype e = EV_GREATER /\ e_dtype e = T_TIME /\ e_data e <> le_bytes 8 5 /\ le_val (e_data e) = 4609434218613702661.
Proof.
  exists env0, no_text, 5, ev_server.
  assert (X : exists s1 st1 s2 st2 r1 r2 e, lua_event_add env0 no_text 5 ev_server ls_start h_lr (Some (str "greater")) (LNum (FB 4609434218613702656)) (AFun 1) (AVal LNil) = Done (s1, st1, inl r1) /\
    lua_event_add env0 no_text 5 s1 st1 h_tm (Some (str "greater")) (LInt 5) (AFun 1) (AVal LNil) = Done (s2, st2, inl r2) /\
    newest s2 (fst r2) = Some e /\ e_etype e = EV_GREATER /\ e_dtype e = T_TIME /\ e_data e <> le_bytes 8 5 /\ le_val (e_data e) = 4609434218613702661).
  { do 7 eexists. split; [vm_compute; reflexivity|]. split; [vm_compute; reflexivity|]. split; [vm_compute; reflexivity|]. split; [reflexivity|]. split; [reflexivity|]. split; [vm_compute; discriminate | vm_compute; reflexivity]. }
  destruct X as (s1 & st1 & s2 & st2 & r1 & r2 & e & X). exists s1, st1, s2, st2, r1, r2, e. split; [exact ev_reachable | exact X].
Qed.
(** REFUTED without the premise that the call returns: a number outside the range of the tag's type is converted with undefined
    behaviour whatever the kind, and a kind that is no string is a null pointer *)
Theorem C146_range_refuted : exists E L fd s, reachable E s /\
  lua_event_add E L fd s ls_start h_foo (Some (str "change")) (LNum (FZ 3000000000)) (AFun 1) (AVal LNil) = Undef UOverflow /\
  lua_event_add E L fd s ls_start h_foo None (LInt 0) (AFun 1) (AVal LNil) = Undef UNull.
Proof. exists env0, no_text, 5, ev_server. split; [exact ev_reachable|]. split; vm_compute; reflexivity. Qed.
Example C146_ex : exists s' st' id e, lua_event_add env0 no_text 5 ev_server ls_start h_foo (Some (str "Less")) (LNum (FZ (-7))) (AFun 1) (AVal (LInt 3)) = Done (s', st', inl (13, id)) /\
  newest s' 13 = Some e /\ e_etype e = EV_LESS /\ compares EV_LESS /\ e_data e = le_bytes 4 (-7) /\ In (T_DINT, (-2147483648, 2147483647, 4%nat)) int_types /\ forall k, ~ names_kind (str "EQUALS") k.
Proof.
  do 4 eexists. split; [vm_compute; reflexivity|]. split; [vm_compute; reflexivity|]. split; [reflexivity|]. split; [unfold compares; cbn; tauto|]. split; [vm_compute; reflexivity|]. split; [cbn; tauto|].
  intros k (x & I & C). unfold kinds in I. cbn [In] in I. repeat (destruct I as [I|I]; [inversion I; subst; vm_compute in C; discriminate|]). contradiction.
Qed.

(** ** C147 *)
(** what a script has done: events that were made, with function and data, and events that were given up *)
Inductive deed := Made (i id : Z) (f d : larg) | Gone (i id : Z).
(** the state of the script library after these deeds, with any servers and any failed calls in between *)
Inductive history : list deed -> lstate -> Prop :=
| hi_start u1 : history [] (mk_ls u1 [] [] ev_init)
| hi_made l st E L fd s h kind num f d s' st' i id : history l st -> lua_event_add E L fd s st h kind num f d = Done (s', st', inl (i, id)) -> history (l ++ [Made i id f d]) st'
| hi_failed l st E L fd s h kind num f d s' st' : history l st -> lua_event_add E L fd s st h kind num f d = Done (s', st', inr tt) -> history l st'
| hi_gone l st E fd s i id s' st' : history l st -> lua_event_del E fd s st i id = Done (s', st', true) -> history (l ++ [Gone i id]) st'
| hi_kept l st E fd s i id s' st' : history l st -> lua_event_del E fd s st i id = Done (s', st', false) -> history l st'.
(** the functions and data that wait for event [id] of tag [i], the oldest first; giving up takes the oldest *)
Fixpoint waiting (l : list deed) (i id : Z) (w : list (larg * larg)) : list (larg * larg) :=
  match l with
  | [] => w
  | Made i' id' f d :: r => waiting r i id (if (u32 i' =? i) && (u32 id' =? id) then w ++ [(f, d)] else w)
  | Gone i' id' :: r => waiting r i id (if (u32 i' =? i) && (u32 id' =? id) then tl w else w)
  end.
Lemma u32_u32 z : u32 (u32 z) = u32 z.
Proof. unfold u32. apply Z.mod_mod. lia. Qed.
Lemma id32_u32 z : id32 (u32 z).
Proof. unfold id32, u32. apply Z.mod_pos_bound. lia. Qed.
Lemma add_u32 i id cb c : add_event (u32 i) (u32 id) cb c = add_event i id cb c.
Proof. unfold add_event. rewrite !u32_u32. reflexivity. Qed.
Lemma find_u32 i id l : forall n, find_ev (u32 i) (u32 id) l n = find_ev i id l n.
Proof. induction l as [|e l IH]; intros n; cbn [find_ev]; [reflexivity|]. unfold is_ev. rewrite !u32_u32, IH. reflexivity. Qed.
Lemma registry_app a b c : registry (a ++ b) c = (x <-- registry a c ;; registry b x).
Proof. revert c. induction a as [|o a IH]; intros c; cbn [app registry]; [reflexivity|]. destruct o; [|apply IH]. destruct (add_event _ _ _ c); cbn [rbind]; [apply IH | reflexivity]. Qed.
Lemma registered_app i e : forall a b w, registered (a ++ b) i e w = registered b i e (registered a i e w).
Proof. induction a as [|[]]; intros; cbn [app registered]; auto. Qed.
Lemma waiting_app i e : forall a b w, waiting (a ++ b) i e w = waiting b i e (waiting a i e w).
Proof. induction a as [|[]]; intros; cbn [app waiting]; auto. Qed.
(** callback [cb] of the library leads to this function and this data *)
Definition held (refs : list larg) (r : Z) : Prop := r = -1 \/ 0 <= r < zlen refs.
Definition leads (st : lstate) (cb : Z) (w : larg * larg) : Prop :=
  exists rf rd, znth (ls_data st) cb = Some (rf, rd) /\ held (ls_refs st) rf /\ held (ls_refs st) rd /\ rawgeti_ref (ls_refs st) rf = fst w /\ rawgeti_ref (ls_refs st) rd = snd w.
Lemma held_app refs x r : held refs r -> held (refs ++ x) r /\ rawgeti_ref (refs ++ x) r = rawgeti_ref refs r.
Proof.
  intros [->|H]; [split; [left; reflexivity|]; unfold rawgeti_ref; rewrite !(proj2 (znth_none _ _)) by lia; reflexivity|].
  split; [right; rewrite zlen_app; assert (Z := zlen_nonneg x); lia|]. unfold rawgeti_ref. rewrite znth_app1 by lia. reflexivity.
Qed.
Lemma leads_more st u1 x y ev cb w : leads st cb w -> leads (mk_ls u1 (ls_refs st ++ x) (ls_data st ++ y) ev) cb w.
Proof.
  intros (rf & rd & A & B & C & D & F). destruct (held_app _ x _ B) as [B1 B2]. destruct (held_app _ x _ C) as [C1 C2]. exists rf, rd. cbn [ls_data ls_refs].
  split; [rewrite znth_app1; [exact A | eapply znth_range; exact A]|]. rewrite B2, C2. auto.
Qed.
Lemma ref_spec v refs : exists x, fst (lual_ref v refs) = refs ++ x /\ held (refs ++ x) (snd (lual_ref v refs)) /\ rawgeti_ref (refs ++ x) (snd (lual_ref v refs)) = v.
Proof.
  assert (G : exists x, refs ++ [v] = refs ++ x /\ held (refs ++ x) (zlen refs) /\ rawgeti_ref (refs ++ x) (zlen refs) = v).
  { exists [v]. split; [reflexivity|]. split; [right; rewrite zlen_app; change (zlen [v]) with 1; assert (Z := zlen_nonneg refs); lia|]. unfold rawgeti_ref. rewrite znth_last. reflexivity. }
  unfold lual_ref. destruct v as [v|f]; [|exact G]. destruct v; try exact G. exists []. cbn [fst snd]. rewrite app_nil_r. split; [reflexivity|]. split; [left; reflexivity|]. unfold rawgeti_ref. rewrite (proj2 (znth_none _ _)) by lia. reflexivity.
Qed.
Definition kept (l : list deed) (st : lstate) : Prop := exists ops, registry ops ev_init = Done (ls_events st) /\ Forall op_ids ops /\ zlen ops = zlen l /\
  forall i e, Forall2 (leads st) (registered ops i e []) (waiting l i e []).
Lemma forall2_mono {A B} (P Q : A -> B -> Prop) a b : (forall x y, P x y -> Q x y) -> Forall2 P a b -> Forall2 Q a b.
Proof. intros H. induction 1; constructor; auto. Qed.
Lemma refs_two st u1 ev y f d : exists x, (let '(r1, rd) := lual_ref d (ls_refs st) in let '(r2, rf) := lual_ref f r1 in mk_ls u1 r2 (ls_data st ++ y rf rd) ev) =
  mk_ls u1 (ls_refs st ++ x) (ls_data st ++ y (snd (lual_ref f (fst (lual_ref d (ls_refs st))))) (snd (lual_ref d (ls_refs st)))) ev /\
  held (ls_refs st ++ x) (snd (lual_ref f (fst (lual_ref d (ls_refs st))))) /\ held (ls_refs st ++ x) (snd (lual_ref d (ls_refs st))) /\
  rawgeti_ref (ls_refs st ++ x) (snd (lual_ref f (fst (lual_ref d (ls_refs st))))) = f /\ rawgeti_ref (ls_refs st ++ x) (snd (lual_ref d (ls_refs st))) = d.
Proof.
  destruct (ref_spec d (ls_refs st)) as (x & A & B & C). destruct (lual_ref d (ls_refs st)) as [r1 rd]. cbn [fst snd] in *. subst r1.
  destruct (ref_spec f (ls_refs st ++ x)) as (y' & A2 & B2 & C2). destruct (lual_ref f (ls_refs st ++ x)) as [r2 rf]. cbn [fst snd] in *. subst r2. destruct (held_app _ y' _ B) as [B3 C3].
  exists (x ++ y'). rewrite app_assoc. split; [reflexivity|]. split; [exact B2|]. split; [exact B3|]. split; [exact C2|]. congruence.
Qed.
Lemma history_kept l st : history l st -> kept l st.
Proof.
  induction 1 as [u1 | l st E L fd s h kind num f d s' st' i id H IH A | l st E L fd s h kind num f d s' st' H IH A | l st E fd s i id s' st' H IH A | l st E fd s i id s' st' H IH A].
  - exists []. split; [reflexivity|]. split; [constructor|]. split; [reflexivity|]. intros i e. constructor.
  - destruct IH as (ops & G1 & G2 & G3 & G4). unfold lua_event_add in A. destruct (negb _); [discriminate|]. apply rbind_done in A as (ty & _ & A). cbv beta in A. destruct (ty <? 0); [discriminate|].
    apply rbind_done in A as ((u1 & given) & _ & A). cbv beta iota in A.
    destruct (refs_two st u1 (ls_events st) (fun rf rd => [(rf, rd)]) f d) as (x & X1 & X2 & X3 & X4 & X5).
    destruct (lual_ref d (ls_refs st)) as [r1 rd]. cbn [fst snd] in *. destruct (lual_ref f r1) as [r2 rf]. cbn [fst snd] in *. assert (r2 = ls_refs st ++ x) by congruence. subst r2. clear X1.
    apply rbind_done in A as ((s1 & [p|c]) & _ & A); [|discriminate]. cbv beta iota zeta in A. apply rbind_done in A as (ev & Ev & A). cbv beta in A. injection A as _ <- <- <-. set (id := s32 _) in *.
    exists (ops ++ [RAdd (u32 (h_index h)) (u32 id) (zlen (ls_data st))]). cbn [ls_events]. split.
    { rewrite registry_app, G1. cbn [rbind registry]. rewrite add_u32, Ev. reflexivity. }
    split; [apply Forall_app; split; [exact G2 | constructor; [split; apply id32_u32 | constructor]]|]. split; [rewrite !zlen_app, G3; reflexivity|]. intros i e. rewrite registered_app, waiting_app. cbn [registered waiting].
    assert (K : Forall2 (leads (mk_ls u1 (ls_refs st ++ x) (ls_data st ++ [(rf, rd)]) ev)) (registered ops i e []) (waiting l i e [])) by (eapply forall2_mono; [|apply G4]; intros; apply leads_more; assumption).
    destruct (_ && _); [|exact K]. apply Forall2_app; [exact K|]. constructor; [|constructor]. exists rf, rd. cbn [ls_data ls_refs fst snd]. rewrite znth_last. auto.
  - destruct IH as (ops & G1 & G2 & G3 & G4). unfold lua_event_add in A. destruct (negb _); [injection A as _ <-; exists ops; auto|]. apply rbind_done in A as (ty & _ & A). cbv beta in A. destruct (ty <? 0); [injection A as _ <-; exists ops; auto|].
    apply rbind_done in A as ((u1 & given) & _ & A). cbv beta iota in A.
    destruct (refs_two st u1 (ls_events st) (fun _ _ => []) f d) as (x & X1 & _).
    destruct (lual_ref d (ls_refs st)) as [r1 rd]. cbn [fst snd] in *. destruct (lual_ref f r1) as [r2 rf]. cbn [fst snd] in *. assert (r2 = ls_refs st ++ x) by congruence. subst r2. clear X1.
    apply rbind_done in A as ((s1 & [p|c]) & _ & A); [apply rbind_done in A as (ev & _ & A); discriminate|]. cbv beta iota zeta in A. injection A as _ <-.
    exists ops. cbn [ls_events]. split; [exact G1|]. split; [exact G2|]. split; [exact G3|]. intros i e. eapply forall2_mono; [|apply G4]. intros a b Lb. rewrite <- (app_nil_r (ls_data st)). apply leads_more. exact Lb.
  - destruct IH as (ops & G1 & G2 & G3 & G4). unfold lua_event_del in A. apply rbind_done in A as ((s1 & [p|c]) & _ & A); [|discriminate]. cbv beta iota in A. injection A as _ <-.
    exists (ops ++ [RDel (u32 i) (u32 id)]). cbn [ls_events]. split. { rewrite registry_app, G1. cbn [rbind registry]. unfold del_event. rewrite find_u32. reflexivity. }
    split; [apply Forall_app; split; [exact G2 | constructor; [split; apply id32_u32 | constructor]]|]. split; [rewrite !zlen_app, G3; reflexivity|]. intros i' e. rewrite registered_app, waiting_app. cbn [registered waiting].
    destruct (_ && _); [|exact (G4 i' e)]. destruct (G4 i' e); [constructor | cbn [tl]; assumption].
  - destruct IH as (ops & G). unfold lua_event_del in A. apply rbind_done in A as ((s1 & [p|c]) & _ & A); [discriminate|]. cbv beta iota in A. injection A as _ <-. exists ops. exact G.
Qed.
(** an arriving event calls exactly the function that the script gave for it, with the data the script gave for it *)
Theorem C147_called : forall l st kind i id data, history l st -> zlen l <= 1073741823 -> id32 i -> id32 id ->
  lua_dispatch st (mk_cm kind (be_bytes 4 i ++ be_bytes 4 id ++ data)) = Done (match waiting l i id [] with (AFun f, d) :: _ => Called f d | _ :: _ => Raised | [] => Unknown end).
Proof.
  intros l st kind i id data H Ln I1 I2. destruct (history_kept _ _ H) as (ops & G1 & G2 & G3 & G4). destruct (C61 ops kind i id data G2 ltac:(lia) I1 I2) as (c & R & D). assert (c = ls_events st) by congruence. subst c.
  unfold lua_dispatch. rewrite D. specialize (G4 i id). destruct G4 as [|cb w a b (rf & rd & A & _ & _ & B & C) _]; [reflexivity|]. cbn [rbind fst]. rewrite A, B, C. destruct w as [f d]. reflexivity.
Qed.
(** REFUTED for calls that ask for no function: nil, 0, tables and texts are accepted as argument 5 - only other numbers are refused - and the
    first event then raises a Lua error in the middle of the library's dispatch *)
Theorem C147_nothing_refuted : exists E L fd s st h, reachable E s /\ history [] st /\ forall v, In v [LNil; LInt 0; LTab []; LStr (str "x"); LBool true] ->
  exists s' st' i id, lua_event_add E L fd s st h (Some (str "write")) (LInt 0) (AVal v) (AVal LNil) = Done (s', st', inl (i, id)) /\
    lua_dispatch st' (mk_cm 0 (be_bytes 4 (u32 i) ++ be_bytes 4 (u32 id))) = Done Raised.
Proof.
  exists env0, no_text, 5, ev_server, ls_start, h_foo. split; [exact ev_reachable|]. split; [apply hi_start|]. intros v I. cbn [In] in I.
  repeat (destruct I as [<-|I]; [do 4 eexists; split; [vm_compute; reflexivity | vm_compute; reflexivity]|]). contradiction.
Qed.
Example C147_ex : exists s1 st1 r1 s2 st2 r2 s3 st3 l, 
  lua_event_add env0 no_text 5 ev_server ls_start h_foo (Some (str "write")) (LInt 0) (AFun 7) (AVal (LInt 3)) = Done (s1, st1, inl r1) /\
  lua_event_add env0 no_text 5 s1 st1 h_lr (Some (str "change")) (LInt 0) (AFun 8) (AVal LNil) = Done (s2, st2, inl r2) /\
  lua_event_del env0 5 s2 st2 (fst r1) (snd r1) = Done (s3, st3, true) /\ history l st3 /\
  lua_dispatch st3 (mk_cm 0 (be_bytes 4 (u32 (fst r2)) ++ be_bytes 4 (u32 (snd r2)))) = Done (Called 8 (AVal LNil)) /\
  lua_dispatch st3 (mk_cm 0 (be_bytes 4 (u32 (fst r1)) ++ be_bytes 4 (u32 (snd r1)))) = Done Unknown /\
  lua_dispatch st2 (mk_cm 0 (be_bytes 4 (u32 (fst r1)) ++ be_bytes 4 (u32 (snd r1)))) = Done (Called 7 (AVal (LInt 3))).
Proof.
  assert (X : exists s1 st1 i1 e1 s2 st2 i2 e2 s3 st3,
    lua_event_add env0 no_text 5 ev_server ls_start h_foo (Some (str "write")) (LInt 0) (AFun 7) (AVal (LInt 3)) = Done (s1, st1, inl (i1, e1)) /\
    lua_event_add env0 no_text 5 s1 st1 h_lr (Some (str "change")) (LInt 0) (AFun 8) (AVal LNil) = Done (s2, st2, inl (i2, e2)) /\
    lua_event_del env0 5 s2 st2 i1 e1 = Done (s3, st3, true) /\
    lua_dispatch st3 (mk_cm 0 (be_bytes 4 (u32 i2) ++ be_bytes 4 (u32 e2))) = Done (Called 8 (AVal LNil)) /\
    lua_dispatch st3 (mk_cm 0 (be_bytes 4 (u32 i1) ++ be_bytes 4 (u32 e1))) = Done Unknown /\
    lua_dispatch st2 (mk_cm 0 (be_bytes 4 (u32 i1) ++ be_bytes 4 (u32 e1))) = Done (Called 7 (AVal (LInt 3)))).
  { do 10 eexists. split; [vm_compute; reflexivity|]. split; [vm_compute; reflexivity|]. split; [vm_compute; reflexivity|]. split; [vm_compute; reflexivity|]. split; vm_compute; reflexivity. }
  destruct X as (s1 & st1 & i1 & e1 & s2 & st2 & i2 & e2 & s3 & st3 & A & B & C & D & F & G). exists s1, st1, (i1, e1), s2, st2, (i2, e2), s3, st3. eexists.
  split; [exact A|]. split; [exact B|]. split; [exact C|]. split; [|auto]. eapply hi_gone; [|exact C]. eapply hi_made; [|exact B]. eapply hi_made; [|exact A]. apply hi_start.
Qed.

(** ** C148 *)
Lemma plain_format t : ~ In 37 t -> vformat t = Done t.
Proof.
  induction t as [|c t IH]; intros N; [reflexivity|]. assert (Nc : c <> 37) by (intros ->; apply N; left; reflexivity).
  assert (Q : vformat (c :: t) = (x <-- vformat t ;; Done (c :: x))). { cbn [vformat]. destruct c as [|p|p]; try reflexivity. do 6 (destruct p as [p|p|]; try reflexivity). congruence. }
  rewrite Q, IH; [reflexivity|]. intros I. apply N. right. exact I.
Qed.
(** a text without percent signs is logged as it is: to the services that take one of the topics, cut to 255 characters *)
Theorem C148_logged_partial : forall lg nm topic text out, lg_name lg = Some nm -> ~ In 37 text -> lua_log lg (Some topic) (Some text) = Done (inl out) ->
  (lg_services lg <> [] -> delivered nm (firstn 255 text) (u32 topic) (lg_services lg) out) /\
  (lg_services lg = [] -> (takes (lg_default lg) (u32 topic) -> out = [LLine false (the_line nm (u32 topic) (firstn 255 text))]) /\ (~ takes (lg_default lg) (u32 topic) -> out = [])).
Proof.
  intros lg nm topic text out Hn N H. unfold lua_log in H. rewrite (plain_format _ N) in H. cbn [rbind] in H. apply rbind_done in H as (o & Ho & H). cbv beta in H. injection H as ->. exact (C141_delivered _ _ _ _ _ Hn Ho).
Qed.
(** and nothing is undefined then, whatever the arguments, as long as the services are usable *)
Theorem C148_safe_partial : forall lg nm topic text, lg_name lg = Some nm -> Forall usable (lg_services lg) -> (forall t, text = Some t -> ~ In 37 t) -> exists r, lua_log lg topic text = Done r.
Proof.
  intros lg nm topic text Hn U N. unfold lua_log. destruct topic as [t|]; [|eauto]. destruct text as [x|]; [|eauto]. rewrite (plain_format _ (N _ eq_refl)). cbn [rbind].
  destruct (C141_safe_partial lg nm (u32 t) x Hn U) as (o & ->). cbn [rbind]. eauto.
Qed.
(** REFUTED for other texts: the text of the script is used as a format *)
Theorem C148_format_refuted : forall lg topic a b, ~ In 37 a -> hd 0 b <> 37 -> lua_log lg (Some topic) (Some (a ++ 37 :: b)) = Undef UUninit.
Proof.
  intros lg topic a b N B. unfold lua_log. assert (V : vformat (a ++ 37 :: b) = Undef UUninit); [|rewrite V; reflexivity].
  induction a as [|c a IH].
  - cbn [app vformat]. destruct b as [|x b]; [reflexivity|]. cbn [hd] in B. destruct x as [|p|p]; try reflexivity. do 6 (destruct p as [p|p|]; try reflexivity). congruence.
  - assert (Nc : c <> 37) by (intros ->; apply N; left; reflexivity). cbn [app].
    assert (Q : forall t, vformat (c :: t) = (x <-- vformat t ;; Done (c :: x))). { intros t. cbn [vformat]. destruct c as [|p|p]; try reflexivity. do 6 (destruct p as [p|p|]; try reflexivity). congruence. }
    rewrite Q, IH; [reflexivity|]. intros I. apply N. right. exact I.
Qed.
(** a script that writes every percent sign twice gets the text it means *)
Definition doubled (text : name) : name := flat_map (fun c => if c =? 37 then [37; 37] else [c]) text.
Lemma doubled_format t : vformat (doubled t) = Done t.
Proof.
  induction t as [|c t IH]; [reflexivity|]. unfold doubled in *. cbn [flat_map]. destruct (Z.eqb_spec c 37) as [->|N]; cbn [app].
  - cbn [vformat]. rewrite IH. reflexivity.
  - assert (Q : forall t, vformat (c :: t) = (x <-- vformat t ;; Done (c :: x))). { intros u. cbn [vformat]. destruct c as [|p|p]; try reflexivity. do 6 (destruct p as [p|p|]; try reflexivity). congruence. }
    rewrite Q, IH. reflexivity.
Qed.
Theorem C148_doubled : forall lg nm topic text out, lg_name lg = Some nm -> lua_log lg (Some topic) (Some (doubled text)) = Done (inl out) ->
  (lg_services lg <> [] -> delivered nm (firstn 255 text) (u32 topic) (lg_services lg) out) /\
  (lg_services lg = [] -> (takes (lg_default lg) (u32 topic) -> out = [LLine false (the_line nm (u32 topic) (firstn 255 text))]) /\ (~ takes (lg_default lg) (u32 topic) -> out = [])).
Proof.
  intros lg nm topic text out Hn H. unfold lua_log in H. rewrite doubled_format in H. cbn [rbind] in H. apply rbind_done in H as (o & Ho & H). cbv beta in H. injection H as ->. exact (C141_delivered _ _ _ _ _ Hn Ho).
Qed.
Example C148_ex : let lg := dax_init_logger lg_start (Some (str "m")) 0 in
  lua_log lg (Some 8) (Some (str "level low")) = Done (inl [LLine false (str "[m] ERROR: level low" ++ [10])]) /\ lua_log lg (Some 8) (Some (str "level 5% low")) = Undef UUninit /\
  lua_log lg None (Some (str "x")) = Done (inr tt) /\ lua_log lg (Some 8) (Some (doubled (str "5% low"))) = Done (inl [LLine false (str "[m] ERROR: 5% low" ++ [10])]).
Proof. cbv zeta. split; [vm_compute; reflexivity|]. split; [vm_compute; reflexivity|]. split; vm_compute; reflexivity. Qed.
