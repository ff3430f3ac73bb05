(** * Prop_DaxcTags: C157 and C158, LIST TAGS and ADD TAG of the command line client *)
From Coq Require Import Sorted.
From Verif Require Import Base Const Types State Events Atomic Server Lib SearchProofs Shape Inv Reach Spec Frame Effects Out Text Prop_Text Prop_Tags Prop_Data ClientTypes ClientData SafeLoops Prop_ClientOvr Prop_LuaApi Prop_Util Daxc DaxcTags Demo.

(** ** C157 *)
(** the line printed for tag [t] called [nm] *)
Definition describes (r : row) (nm : name) (t : tag) : Prop :=
  r_name r = nm /\ r_type r = u32 (t_type t) /\ r_count r = t_count t /\ r_readonly r = has (t_attr t) A_READONLY /\ r_virtual r = has (t_attr t) A_VIRTUAL /\
  r_retained r = has (t_attr t) A_RETAIN /\ r_override r = has (t_attr t) A_OVR_SET.
(** the tags that exist with an index of at least [n], in the order of their indices *)
Definition tags_from (s : server) (n : Z) (l : list (Z * row)) : Prop :=
  StronglySorted (fun x y => fst x < fst y) l /\
  (forall i, In i (map fst l) <-> n <= i /\ exists nm t, named s i nm t) /\
  (forall i r, In (i, r) l -> exists nm t, named s i nm t /\ describes r nm t).

(** *** the lines of a list of tags *)
Definition line (t : tag) (nm : name) : row :=
  mk_row nm (u32 (t_type t)) (t_count t) (has (t_attr t) A_READONLY) (has (t_attr t) A_VIRTUAL) (has (t_attr t) A_RETAIN) (has (t_attr t) A_OVR_SET).
Fixpoint lines (db : list tag) (i : Z) : list (Z * row) :=
  match db with [] => [] | t :: r => match t_name t with Some nm => (i, line t nm) :: lines r (i + 1) | None => lines r (i + 1) end end.

Lemma has_low a f : 0 <= f < 65536 -> has (a mod 65536) f = has a f.
Proof.
  intros H. unfold has. do 2 f_equal. apply Z.bits_inj'. intros k Hk. rewrite !Z.land_spec. change 65536 with (2 ^ 16).
  destruct (Z_lt_le_dec k 16) as [L|L]; [rewrite Z.mod_pow2_bits_low by exact L; reflexivity|]. rewrite Z.mod_pow2_bits_high by lia.
  replace (Z.testbit f k) with false; [rewrite !andb_false_r; reflexivity|]. symmetry. destruct (Z.eq_dec f 0) as [->|N]; [apply Z.bits_0|]. apply Z.bits_above_log2; [lia|].
  assert (Z.log2 f < 16) by (apply Z.log2_lt_pow2; lia). lia.
Qed.
Lemma skip14 i ty c a nm : skipn 14 (info_bytes (i, ty, c, a, nm)) = nm ++ [0].
Proof. unfold info_bytes. change 14%nat with (4 + (4 + (4 + 2)))%nat. reflexivity. Qed.
Lemma byindex E fd s i t : en_strict E = false -> reachable E s -> znth (s_db s) i = Some t ->
  exists s', dax_tag_byindex E fd s i = Done (s', match t_name t with Some nm => inl (line t nm) | None => inr E_DELETED end) /\ reachable E s' /\ s_db s' = s_db s.
Proof.
  intros NS R H. assert (I := reachable_Inv _ _ R). assert (T := iv_tags _ I _ _ H). assert (Rg := znth_range _ _ _ H). unfold dax_tag_byindex, ask.
  destruct (t_name t) as [nm|] eqn:N.
  - assert (V := it_name _ _ T _ N). assert (L := validate_len _ V). assert (D := dead_not_named _ _ _ T N).
    assert (Q : tag_get_index s i = Done (inl (i, t_type t, t_count t, t_attr t, nm))).
    { unfold tag_get_index. replace ((i <? 0) || (zlen (s_db s) <=? i)) with false by lia. unfold info_at. rewrite H. destruct (t_data t); try congruence; rewrite N; reflexivity. }
    assert (St : step E s (OpTagGetIdx fd i) = Done (after s [OResp fd MSG_TAG_GET (info_bytes (i, t_type t, t_count t, t_attr t, nm))])).
    { unfold step. cbn [handle_op]. rewrite bind_get. unfold h_tag_get. unfold bind, lift. rewrite Q. unfold respond. rewrite info_len. replace (MSG_DATA_SIZE <? 15 + zlen nm) with false by (unfold MSG_DATA_SIZE; lia). reflexivity. }
    eexists. rewrite St. cbn [rbind]. split; [|split; [eapply reachable_step; [exact R | exact St]|]].
    + unfold after. cbn [set_out s_out set_step]. rewrite rev_app_distr. cbn [rev app]. cbv beta iota zeta. rewrite skip14. rewrite cstr_valid by exact V.
      assert (C := it_count _ _ T). unfold line. do 3 f_equal.
      assert (X1 : le_val (slice 4 4 (info_bytes (i, t_type t, t_count t, t_attr t, nm))) = u32 (t_type t)).
      { change (slice 4 4 (info_bytes (i, t_type t, t_count t, t_attr t, nm))) with (le_bytes 4 (t_type t)). rewrite le_val_le_bytes. reflexivity. }
      assert (X2 : le_val (slice 8 4 (info_bytes (i, t_type t, t_count t, t_attr t, nm))) = t_count t).
      { change (slice 8 4 (info_bytes (i, t_type t, t_count t, t_attr t, nm))) with (le_bytes 4 (t_count t)). rewrite le_val_le_bytes. change (256 ^ Z.of_nat 4) with 4294967296. apply Z.mod_small. lia. }
      assert (X3 : le_val (slice 12 2 (info_bytes (i, t_type t, t_count t, t_attr t, nm))) = t_attr t mod 65536).
      { change (slice 12 2 (info_bytes (i, t_type t, t_count t, t_attr t, nm))) with (le_bytes 2 (t_attr t)). rewrite le_val_le_bytes. reflexivity. }
      rewrite X1, X2, X3, !has_low by (unfold A_READONLY, A_VIRTUAL, A_RETAIN, A_OVR_SET; lia). reflexivity.
    + reflexivity.
  - assert (D : t_data t = DNull) by (apply T; exact N).
    assert (St : step E s (OpTagGetIdx fd i) = Done (after s [OErr fd MSG_TAG_GET E_DELETED])).
    { unfold step. cbn [handle_op]. rewrite bind_get. unfold h_tag_get, tag_get_index, info_at. replace ((i <? 0) || (zlen (s_db s) <=? i)) with false by lia. rewrite H, D. unfold bind, lift. rewrite NS. reflexivity. }
    eexists. rewrite St. cbn [rbind]. split; [|split; [eapply reachable_step; [exact R | exact St] | reflexivity]].
    unfold after. cbn [set_out s_out set_step]. rewrite rev_app_distr. reflexivity.
Qed.
Lemma znth_mid {A} (p : list A) x r : znth (p ++ x :: r) (zlen p) = Some x.
Proof. rewrite znth_app2 by lia. rewrite Z.sub_diag. apply znth_0. Qed.
Lemma all_lines E fd : en_strict E = false -> forall l p s k, reachable E s -> s_db s = p ++ l -> (length l < k)%nat ->
  exists s', list_all k E fd s (zlen p) (zlen (s_db s) - 1) = Done (s', lines l (zlen p), 0) /\ reachable E s' /\ s_db s' = s_db s.
Proof.
  intros NS. induction l as [|t l IH]; intros p s k R D K; (destruct k as [|k]; [lia|]); cbn [list_all].
  - replace (zlen (s_db s) - 1 <? zlen p) with true by (rewrite D, app_nil_r; lia). eauto.
  - assert (Lp := zlen_nonneg l). replace (zlen (s_db s) - 1 <? zlen p) with false by (rewrite D, zlen_app, zlen_cons; lia). cbn [length] in K.
    destruct (byindex E fd s (zlen p) t NS R ltac:(rewrite D; apply znth_mid)) as (s1 & B & R1 & D1). rewrite B. cbn [rbind].
    destruct (IH (p ++ [t]) s1 k R1 ltac:(rewrite D1, D, <- app_assoc; reflexivity) ltac:(lia)) as (s2 & A & R2 & D2).
    rewrite zlen_app, zlen_cons, zlen_nil in A. replace (zlen p + (1 + 0)) with (zlen p + 1) in A by lia. rewrite D1 in A.
    cbn [lines]. destruct (t_name t); cbv beta iota zeta; [|change (E_DELETED =? E_DELETED) with true; cbv iota]; rewrite A; cbn [rbind]; exists s2; (split; [reflexivity|]); (split; [exact R2 | congruence]).
Qed.
Lemma page_lines E fd : en_strict E = false -> forall l p s k c n, reachable E s -> s_db s = p ++ l -> (length l < k)%nat -> 0 <= n ->
  exists s' nx, list_page k E fd s c n (zlen p) (zlen (s_db s) - 1) = Done (s', firstn (Z.to_nat (c - n)) (lines l (zlen p)), nx, 0) /\ reachable E s' /\ s_db s' = s_db s /\
    zlen p <= nx <= zlen (s_db s) /\ lines (skipn (Z.to_nat (nx - zlen p)) l) nx = skipn (Z.to_nat (c - n)) (lines l (zlen p)) /\
    (Forall (fun t => t_name t <> None) l -> nx = Z.min (zlen (s_db s)) (zlen p + Z.max 0 (c - n))).
Proof.
  intros NS. induction l as [|t l IH]; intros p s k c n R D K Hn; (destruct k as [|k]; [lia|]); cbn [list_page].
  - replace (zlen p <=? zlen (s_db s) - 1) with false by (rewrite D, app_nil_r; lia). rewrite andb_false_r. exists s, (zlen p). cbn [lines]. rewrite firstn_nil, !skipn_nil. assert (zlen (s_db s) = zlen p) by (rewrite D, app_nil_r; reflexivity).
    split; [reflexivity|]. split; [exact R|]. split; [reflexivity|]. split; [lia|]. split; [reflexivity|]. intros _. lia.
  - assert (Lp := zlen_nonneg l). assert (Lz : zlen (s_db s) = zlen p + 1 + zlen l) by (rewrite D, zlen_app, zlen_cons; lia). replace (zlen p <=? zlen (s_db s) - 1) with true by lia. rewrite andb_true_r. cbn [length] in K.
    destruct (n <? c) eqn:Q.
    2:{ exists s, (zlen p). replace (Z.to_nat (c - n)) with O by lia. replace (Z.to_nat (zlen p - zlen p)) with O by lia. cbn [firstn skipn]. split; [reflexivity|]. split; [exact R|]. split; [reflexivity|]. split; [lia|]. split; [reflexivity|]. intros _. lia. }
    destruct (byindex E fd s (zlen p) t NS R ltac:(rewrite D; apply znth_mid)) as (s1 & B & R1 & D1). rewrite B. cbn [rbind].
    assert (D1' : s_db s1 = (p ++ [t]) ++ l) by (rewrite D1, D, <- app_assoc; reflexivity).
    assert (Zp : zlen (p ++ [t]) = zlen p + 1) by (rewrite zlen_app, zlen_cons, zlen_nil; lia).
    cbn [lines]. destruct (t_name t) as [nm|] eqn:N; cbv beta iota zeta.
    + destruct (IH (p ++ [t]) s1 k c (n + 1) R1 D1' ltac:(lia) ltac:(lia)) as (s2 & nx & A & R2 & D2 & B2 & S2 & F2). rewrite Zp, D1 in A. rewrite A. cbn [rbind]. exists s2, nx.
      replace (Z.to_nat (c - n)) with (Datatypes.S (Z.to_nat (c - (n + 1)))) by lia. cbn [firstn skipn]. split; [reflexivity|]. split; [exact R2|]. split; [congruence|]. rewrite Zp, D1 in *. split; [lia|]. split.
      * rewrite <- S2. f_equal. replace (Z.to_nat (nx - zlen p)) with (Datatypes.S (Z.to_nat (nx - (zlen p + 1)))) by lia. reflexivity.
      * intros F. apply Forall_cons_iff in F as [_ F]. rewrite (F2 F). lia.
    + change (E_DELETED =? E_DELETED) with true. cbv iota. destruct (IH (p ++ [t]) s1 k c n R1 D1' ltac:(lia) ltac:(lia)) as (s2 & nx & A & R2 & D2 & B2 & S2 & F2). rewrite Zp, D1 in A. rewrite A. exists s2, nx.
      split; [reflexivity|]. split; [exact R2|]. split; [congruence|]. rewrite Zp, D1 in *. split; [lia|]. split.
      * rewrite <- S2. f_equal. replace (Z.to_nat (nx - zlen p)) with (Datatypes.S (Z.to_nat (nx - (zlen p + 1)))) by lia. reflexivity.
      * intros F. apply Forall_cons_iff in F as [F _]. congruence.
Qed.
Lemma lines_in : forall l n i r, In (i, r) (lines l n) <-> exists t nm, znth l (i - n) = Some t /\ t_name t = Some nm /\ r = line t nm.
Proof.
  induction l as [|t l IH]; intros n i r; cbn [lines].
  - split; [intros []|]. intros (t & nm & H & _). apply znth_range in H. unfold zlen in H. cbn [length] in H. lia.
  - assert (K : (exists t' nm, znth (t :: l) (i - n) = Some t' /\ t_name t' = Some nm /\ r = line t' nm) <->
               ((i = n /\ exists nm, t_name t = Some nm /\ r = line t nm) \/ (exists t' nm, znth l (i - (n + 1)) = Some t' /\ t_name t' = Some nm /\ r = line t' nm))).
    { split.
      - intros (t' & nm & H & N & ->). assert (Rg := znth_range _ _ _ H). destruct (Z.eq_dec i n) as [->|Ne].
        + left. rewrite Z.sub_diag, znth_0 in H. injection H as <-. eauto.
        + right. replace (i - n) with (i - (n + 1) + 1) in H by lia. rewrite znth_S in H by lia. eauto.
      - intros [(-> & nm & N & ->)|(t' & nm & H & N & ->)].
        + exists t, nm. rewrite Z.sub_diag, znth_0. auto.
        + exists t', nm. assert (Rg := znth_range _ _ _ H). replace (i - n) with (i - (n + 1) + 1) by lia. rewrite znth_S by lia. auto. }
    rewrite K. destruct (t_name t) as [nm|].
    + cbn [In]. rewrite IH. split; intros [H|H]; auto.
      * injection H as <- <-. left. eauto.
      * left. destruct H as (-> & nm' & N & ->). congruence.
    + rewrite IH. split; [auto|]. intros [(_ & nm & N & _)|H]; [discriminate | exact H].
Qed.
Lemma lines_sorted : forall l n, StronglySorted (fun x y => fst x < fst y) (lines l n).
Proof.
  induction l as [|t l IH]; intros n; cbn [lines]; [constructor|]. destruct (t_name t); [|apply IH]. constructor; [apply IH|]. apply Forall_forall. intros [i r] H. apply lines_in in H as (t' & nm & H & _). apply znth_range in H. cbn [fst]. lia.
Qed.
Lemma znth_split {A} (p l : list A) i : zlen p <= i -> znth (p ++ l) i = znth l (i - zlen p).
Proof. apply znth_app2. Qed.
Lemma lines_from s p l : s_db s = p ++ l -> tags_from s (zlen p) (lines l (zlen p)).
Proof.
  intros D. split; [apply lines_sorted|]. split.
  - intros i. split.
    + intros H. apply in_map_iff in H as ([j r] & <- & H). cbn [fst]. apply lines_in in H as (t & nm & H & N & _). assert (Rg := znth_range _ _ _ H). split; [lia|]. exists nm, t. split; [rewrite D, znth_split by lia; exact H | exact N].
    + intros (Hi & nm & t & N1 & N2). rewrite D, znth_split in N1 by exact Hi. apply in_map_iff. exists (i, line t nm). split; [reflexivity|]. apply lines_in. eauto.
  - intros i r H. apply lines_in in H as (t & nm & H & N & ->). assert (Rg := znth_range _ _ _ H). exists nm, t. split; [split; [rewrite D, znth_split by lia; exact H | exact N]|]. repeat (split; [reflexivity|]). reflexivity.
Qed.
Lemma lines_at s n : 0 <= n <= zlen (s_db s) -> tags_from s n (lines (skipn (Z.to_nat n) (s_db s)) n).
Proof.
  intros H. assert (Zf : zlen (firstn (Z.to_nat n) (s_db s)) = n) by (unfold zlen in *; rewrite firstn_length; lia).
  assert (X := lines_from s (firstn (Z.to_nat n) (s_db s)) (skipn (Z.to_nat n) (s_db s)) (eq_sym (firstn_skipn _ _))). rewrite Zf in X. exact X.
Qed.
Lemma skipn_twice {A} : forall b a (l : list A), skipn a (skipn b l) = skipn (b + a) l.
Proof. induction b as [|b IH]; intros a l; [reflexivity|]. destruct l as [|x l]; [rewrite !skipn_nil; reflexivity|]. cbn [skipn Nat.add]. apply IH. Qed.
(** the tag _lastindex holds what the server writes there: the index of the last tag that was added *)
Definition last_known (s : server) : Prop := stored s 1 (le_bytes 4 (zlen (s_db s) - 1)) /\ no_override s 1 /\ zlen (s_db s) < 2147483648.
Lemma known_db s s' : s_db s' = s_db s -> last_known s -> last_known s'.
Proof. unfold last_known, stored, no_override. intros ->. auto. Qed.
Lemma ask_last E fd s : reachable E s -> last_known s -> exists s', ask E s (OpRead fd 1 0 4) = Done (s', inl (le_bytes 4 (zlen (s_db s) - 1))) /\ reachable E s' /\ s_db s' = s_db s.
Proof.
  intros R (S & N & Z). assert (St := C04_read_stored E s fd 1 0 4 _ R S N ltac:(lia) ltac:(unfold MSG_DATA_SIZE; lia) ltac:(rewrite zlen_le_bytes; lia) ltac:(rewrite zlen_le_bytes; lia)).
  eexists. unfold ask. rewrite St. cbn [rbind]. unfold after. cbn [set_out s_out set_step]. rewrite rev_app_distr. cbn [rev app]. split; [reflexivity|]. split; [eapply reachable_step; [exact R | exact St] | reflexivity].
Qed.
Lemma last_val s : last_known s -> 0 < zlen (s_db s) -> s32 (le_val (le_bytes 4 (zlen (s_db s) - 1))) = zlen (s_db s) - 1.
Proof. intros (_ & _ & Z) P. rewrite le_val_le_bytes. change (256 ^ Z.of_nat 4) with 4294967296. rewrite Z.mod_small by lia. unfold s32. rewrite Z.mod_small by lia. destruct (_ <? _) eqn:Q; lia. Qed.
Lemma db_pos s : last_known s -> 0 < zlen (s_db s).
Proof. intros ((t & H & _) & _). apply znth_range in H. lia. Qed.

(** FULL STATEMENT (false, see below): LIST TAGS prints every tag once, in the order of the indices, all at once or, with a number, a
    page at a time, each page beginning where the one before ended.  What holds: without a number so it is *)
Theorem C157_all : forall E fd s next, en_strict E = false -> reachable E s -> last_known s ->
  exists s' l, list_tags E fd s next LAll = Done (s', l, 0, 0) /\ s_db s' = s_db s /\ tags_from s 0 l.
Proof.
  intros E fd s next NS R K. destruct (ask_last E fd s R K) as (s1 & A & R1 & D1). assert (P := db_pos _ K). unfold list_tags. rewrite A. cbn [rbind]. cbv zeta. rewrite (last_val _ K P).
  destruct (all_lines E fd NS (s_db s1) [] s1 (Datatypes.S (Z.to_nat (zlen (s_db s) - 1 + 1))) R1 eq_refl ltac:(rewrite D1; unfold zlen; lia)) as (s2 & L & R2 & D2).
  rewrite zlen_nil, D1 in L. rewrite L. cbn [rbind]. cbv beta iota zeta. exists s2, (lines (s_db s) 0). split; [reflexivity|]. split; [congruence|]. exact (lines_from s [] (s_db s) eq_refl).
Qed.
(** a page: with a start, it has the first tags from there on; without, it begins where the one before ended, except that the list
    begins anew if that was the last tag or later *)
Theorem C157_page_partial : forall E fd s next count start a, en_strict E = false -> reachable E s -> last_known s -> 0 <= start < zlen (s_db s) ->
  a = LFrom start count \/ (a = LNext count /\ 0 <= next /\ start = if next <? zlen (s_db s) - 1 then next else 0) ->
  exists s' l l' next', list_tags E fd s next a = Done (s', l, next', 0) /\ s_db s' = s_db s /\
    tags_from s start (l ++ l') /\ tags_from s next' l' /\ zlen l <= Z.max 0 count /\ (zlen l < count -> l' = []).
Proof.
  intros E fd s next count start a NS R K Hst Ha. destruct (ask_last E fd s R K) as (s1 & A & R1 & D1). assert (P := db_pos _ K). unfold list_tags. rewrite A. cbn [rbind]. cbv zeta. rewrite (last_val _ K P).
  assert (Zf : zlen (firstn (Z.to_nat start) (s_db s1)) = start) by (rewrite D1; unfold zlen in *; rewrite firstn_length; lia).
  destruct (page_lines E fd NS (skipn (Z.to_nat start) (s_db s1)) (firstn (Z.to_nat start) (s_db s1)) s1 (Datatypes.S (Z.to_nat (zlen (s_db s) - 1 + 1 - start))) count 0 R1) as (s2 & nx & L & R2 & D2 & Bn & Sk & _).
  { symmetry. apply firstn_skipn. } { rewrite skipn_length, D1. unfold zlen. lia. } { lia. }
  rewrite Zf, D1 in L. rewrite Zf, D1 in Bn, Sk. rewrite Z.sub_0_r in L, Sk.
  set (al := lines (skipn (Z.to_nat start) (s_db s)) start) in *. exists s2, (firstn (Z.to_nat count) al), (skipn (Z.to_nat count) al), nx. split.
  { destruct Ha as [->|(-> & Hn & Es)]; [exact L|]. replace (if zlen (s_db s) - 1 <=? next then 0 else next) with start by (rewrite Es; destruct (next <? _) eqn:Q, (_ <=? next) eqn:Q2; lia). exact L. }
  split; [congruence|]. split; [|split; [|split]].
  - rewrite firstn_skipn. apply lines_at. lia.
  - rewrite <- Sk. rewrite skipn_twice. replace (Z.to_nat start + Z.to_nat (nx - start))%nat with (Z.to_nat nx) by lia. apply lines_at. lia.
  - unfold zlen. rewrite firstn_length. lia.
  - unfold zlen. rewrite firstn_length. intros Hc. apply skipn_all2. lia.
Qed.
(** REFUTED: where a page ends just before the last tag, the next one begins at the start again: if no tag was deleted and the number of the
    other tags is a multiple of the size of a page, the last tag is never printed, however often the command is given *)
Lemma again_inv E fd k : en_strict E = false -> 0 < k -> forall m s nx, reachable E s -> last_known s -> Forall (fun t => t_name t <> None) (s_db s) ->
  (zlen (s_db s) - 1) mod k = 0 -> 0 <= nx < zlen (s_db s) -> nx mod k = 0 -> 1 < zlen (s_db s) ->
  exists l, list_again m E fd s nx k = Done l /\ ~ In (zlen (s_db s) - 1) (map fst l).
Proof.
  intros NS Hk. induction m as [|m IH]; intros s nx R K F M Hn Mn Z1; cbn [list_again]; [exists []; split; [reflexivity | intros []]|].
  destruct (ask_last E fd s R K) as (s1 & A & R1 & D1). unfold list_tags. rewrite A. cbn [rbind]. cbv zeta. rewrite (last_val _ K (db_pos _ K)).
  set (st := if zlen (s_db s) - 1 <=? nx then 0 else nx).
  assert (Hs : 0 <= st < zlen (s_db s) - 1 /\ st mod k = 0) by (unfold st; destruct (_ <=? nx) eqn:Q; [rewrite Z.mod_0_l by lia|]; lia). destruct Hs as (Hs & Ms).
  assert (Zf : zlen (firstn (Z.to_nat st) (s_db s1)) = st) by (rewrite D1; unfold zlen in *; rewrite firstn_length; lia).
  destruct (page_lines E fd NS (skipn (Z.to_nat st) (s_db s1)) (firstn (Z.to_nat st) (s_db s1)) s1 (Datatypes.S (Z.to_nat (zlen (s_db s) - 1 + 1 - st))) k 0 R1) as (s2 & nx2 & L & R2 & D2 & Bn & Sk & Nx).
  { symmetry. apply firstn_skipn. } { rewrite skipn_length, D1. unfold zlen. lia. } { lia. }
  rewrite Zf, D1 in L. rewrite Zf, D1 in Bn, Sk. rewrite Zf, D1 in Nx. rewrite Z.sub_0_r in L, Sk, Nx.
  assert (N2 : nx2 = st + k).
  { rewrite Nx by (rewrite <- (firstn_skipn (Z.to_nat st) (s_db s)) in F; apply Forall_app in F as [_ F]; exact F).
    assert (st + k <= zlen (s_db s) - 1); [|lia].
    assert (Q1 := Z.div_mod st k ltac:(lia)). assert (Q2 := Z.div_mod (zlen (s_db s) - 1) k ltac:(lia)). rewrite Ms in Q1. rewrite M in Q2. assert (st / k < (zlen (s_db s) - 1) / k) by nia. nia. }
  assert (Hl : st + k <= zlen (s_db s) - 1).
  { assert (Q1 := Z.div_mod st k ltac:(lia)). assert (Q2 := Z.div_mod (zlen (s_db s) - 1) k ltac:(lia)). rewrite Ms in Q1. rewrite M in Q2. assert (st / k < (zlen (s_db s) - 1) / k) by nia. nia. }
  rewrite L. cbn [rbind]. cbv beta iota zeta.
  assert (D3 : s_db s2 = s_db s) by congruence. destruct (IH s2 nx2 R2 (known_db s s2 D3 K)) as (l2 & L2 & N3); rewrite ?D2, ?D1; try assumption; try lia.
  { rewrite N2. rewrite Z.add_mod, Ms, Z.mod_same by lia. apply Z.mod_0_l. lia. }
  rewrite L2. cbn [rbind]. eexists. split; [reflexivity|]. rewrite D2, D1 in N3. rewrite map_app, in_app_iff. intros [H|H]; [|exact (N3 H)].
  set (al := lines (skipn (Z.to_nat st) (s_db s)) st) in *. apply in_map_iff in H as ([i r] & Hi & H). cbn [fst] in Hi.
  assert (So : StronglySorted (fun x y : Z * row => fst x < fst y) al) by apply lines_sorted. rewrite <- (firstn_skipn (Z.to_nat k) al) in So.
  assert (J : In (zlen (s_db s) - 1) (map fst (lines (skipn (Z.to_nat nx2) (s_db s)) nx2))).
  { apply (proj1 (proj2 (lines_at s nx2 ltac:(lia)))). split; [lia|]. destruct (znth_some (s_db s) (zlen (s_db s) - 1) ltac:(lia)) as (t & Ht). assert (Nn : t_name t <> None) by (rewrite Forall_forall in F; apply F; eapply znth_In; exact Ht).
    destruct (t_name t) as [nm|] eqn:N; [|congruence]. exists nm, t. split; assumption. }
  rewrite skipn_twice in Sk. replace (Z.to_nat st + Z.to_nat (nx2 - st))%nat with (Z.to_nat nx2) in Sk by lia. rewrite Sk in J. apply in_map_iff in J as ([j r'] & Hj & J). cbn [fst] in Hj.
  assert (Lt : i < j).
  { clear - So H J. set (a := firstn (Z.to_nat k) al) in *. set (b := skipn (Z.to_nat k) al) in *. clearbody a b. induction a as [|x a IHa]; [destruct H|]. cbn [app] in So. apply StronglySorted_inv in So as (So & Fa). destruct H as [->|H]; [|apply IHa; assumption].
    rewrite Forall_forall in Fa. apply (Fa (j, r')). apply in_or_app. right. exact J. }
  lia.
Qed.
Theorem C157_last_refuted : forall E fd s k m, en_strict E = false -> reachable E s -> last_known s -> (forall i, 0 <= i < zlen (s_db s) -> exists nm t, named s i nm t) ->
  1 < zlen (s_db s) -> 0 < k -> (zlen (s_db s) - 1) mod k = 0 -> exists l, list_again m E fd s 0 k = Done l /\ ~ In (zlen (s_db s) - 1) (map fst l).
Proof.
  intros E fd s k m NS R K A Z1 Hk M. apply again_inv; try assumption; [|lia | apply Z.mod_0_l; lia].
  apply Forall_forall. intros t I. apply In_nth_error in I as (n & I). assert (Hz : znth (s_db s) (Z.of_nat n) = Some t) by (apply znth_iff; split; [lia | rewrite Nat2Z.id; exact I]).
  destruct (A _ (znth_range _ _ _ Hz)) as (nm & t' & N1 & N2). congruence.
Qed.
Example C157_ex : en_strict env0 = false /\ reachable env0 demo /\ last_known demo /\ zlen (s_db demo) = 16 /\ (zlen (s_db demo) - 1) mod 5 = 0 /\ (forall i, 0 <= i < zlen (s_db demo) -> exists nm t, named demo i nm t) /\
  exists s' l, list_tags env0 5 demo 0 LAll = Done (s', l, 0, 0) /\ zlen l = 16 /\ map (fun x => r_name (snd x)) (skipn 13 l) = [str "foo"; str "bar"; str "baz"].
Proof.
  split; [reflexivity|]. split; [exact demo_reachable|]. split; [split; [eexists; split; [vm_compute; reflexivity|]; split; vm_compute; reflexivity|]; split; [intros t H; vm_compute in H; injection H as <-; vm_compute; reflexivity | vm_compute; reflexivity]|].
  split; [vm_compute; reflexivity|]. split; [vm_compute; reflexivity|]. split.
  - assert (X : forallb (fun t => match t_name t with Some _ => true | None => false end) (s_db demo) = true) by (vm_compute; reflexivity). intros i Hi. destruct (znth_some (s_db demo) i Hi) as (t & Ht).
    rewrite forallb_forall in X. assert (Y := X t (znth_In _ _ _ Ht)). cbv beta in Y. destruct (t_name t) as [nm|] eqn:N; [|discriminate]. exists nm, t. split; assumption.
  - do 2 eexists. split; [vm_compute; reflexivity|]. split; vm_compute; reflexivity.
Qed.

(** ** C158 *)
Definition retain (w : name) : Prop := case_eqb w (str "retain") = true.
(** what the words after the type ask for: count and attributes (4: retained) *)
Inductive asks : list name -> Z -> Z -> Prop :=
| a_none : asks [] 1 0
| a_count c : 1 <= number c < 2147483648 -> asks [c] (number c) 0
| a_count_retain c w ws : 1 <= number c < 2147483648 -> retain w -> Forall retain ws -> asks (c :: w :: ws) (number c) 4
| a_retain w ws : retain w -> Forall retain ws -> asks (w :: ws) 1 4.
Lemma count_is c : 1 <= number c < 2147483648 -> s32 (strtol0 c) = number c.
Proof. intros H. rewrite strtol0_number. unfold sat64. replace (Z.max _ _) with (number c) by lia. apply SafeLoops.s32_id. lia. Qed.
Lemma retain_starts w : retain w -> starts 6 w (str "retain") = true /\ s32 (strtol0 w) = 0.
Proof.
  unfold retain, starts. intros H. unfold case_eqb in *. apply name_eqb_eq in H. split; [apply name_eqb_eq; rewrite <- !firstn_map; rewrite H; reflexivity|].
  destruct w as [|c w]; [discriminate|]. cbn [map] in H. assert (Hc : lower c = 114) by (injection H as H _; exact H). assert (C : c = 114 \/ c = 82) by (unfold lower in Hc; destruct (_ && _) eqn:Q; lia). destruct C as [-> | ->]; reflexivity.
Qed.
Lemma retains ws : forall a, Forall retain ws -> (ws <> [] \/ Z.lor a 4 = a) -> get_attributes ws a = Z.lor a 4.
Proof.
  induction ws as [|w ws IH]; intros a F H; [destruct H as [H|H]; [destruct H; reflexivity | symmetry; exact H]|]. apply Forall_cons_iff in F as [W F]. cbn [get_attributes]. destruct (retain_starts _ W) as (-> & _). rewrite IH; [|exact F | right]; unfold A_RETAIN; rewrite <- Z.lor_assoc, Z.lor_diag; reflexivity.
Qed.
Lemma retains0 w ws : retain w -> Forall retain ws -> get_attributes (w :: ws) 0 = 4.
Proof. intros W F. rewrite retains; [reflexivity | constructor; assumption | left; discriminate]. Qed.
Lemma cmd_request E cc fd s nm tn ws n attr cc1 t : asks ws n attr -> zlen nm <= 28 -> dax_string_to_type (s_types s) cc tn = Done (cc1, t) ->
  tag_add_cmd E cc fd s (nm :: tn :: ws) = (r <-- ask E s (OpTagAdd fd nm t n attr) ;; match r with (s, inr e) => Done (cc1, s, inr e) | (s, inl p) => Done (cc1, s, inl (s32 (le_val (slice 0 4 p)))) end).
Proof.
  intros A L T. unfold tag_add_cmd. rewrite T. cbn [rbind]. cbv beta iota zeta.
  assert (G : forall c a, c <> 0 -> (y <-- dax_tag_add E fd s nm t c a ;; Done (cc1, fst y, snd y)) = (r <-- ask E s (OpTagAdd fd nm t c a) ;; match r with (s, inr e) => Done (cc1, s, inr e) | (s, inl p) => Done (cc1, s, inl (s32 (le_val (slice 0 4 p)))) end)).
  { intros c a Hc. unfold dax_tag_add. replace (c =? 0) with false by lia. replace (32 <? zlen nm) with false by lia. replace (41 <? 12 + zlen nm + 1) with false by lia. destruct (ask _ _ _) as [[s1 [p|e]]|]; reflexivity. }
  destruct A as [|c Hc|c w ws Hc W F|w ws W F].
  - apply G. lia.
  - rewrite count_is by exact Hc. replace (number c =? 0) with false by lia. cbn [get_attributes]. apply G. lia.
  - rewrite count_is by exact Hc. replace (number c =? 0) with false by lia. rewrite (retains0 _ _ W F). apply G. lia.
  - destruct (retain_starts _ W) as (_ & ->). change (0 =? 0) with true. cbv iota. rewrite (retains0 _ _ W F). change (4 =? 0) with false. cbv iota. apply G. lia.
Qed.
(** FULL STATEMENT (false, see below): ADD TAG makes the tag described, or reports an error and changes no tag.
    What holds: so it is for names of at most 28 characters and attributes that exist *)
Theorem C158_added_partial : forall E cc fd s nm tn ws n attr cc1 t cc' s' r,
  reachable E s -> asks ws n attr -> zlen nm <= 28 -> dax_string_to_type (s_types s) cc tn = Done (cc1, t) ->
  tag_add_cmd E cc fd s (nm :: tn :: ws) = Done (cc', s', r) -> zlen (s_db s') < 2147483648 ->
  step E s (OpTagAdd fd nm t n attr) = Done s' /\
  match r with
  | inl i => (exists g, named s' i nm g /\ t_type g = u32 t /\ n <= t_count g) /\ forall j m, (exists g, named s' j m g) <-> ((exists g, named s j m g) \/ (j = i /\ m = nm))
  | inr e => e < 0 /\ forall j m, (exists g, named s' j m g) <-> (exists g, named s j m g)
  end.
Proof.
  intros E cc fd s nm tn ws n attr cc1 t cc' s' r R A L T H Z. rewrite (cmd_request _ _ _ _ _ _ _ _ _ _ _ A L T) in H. unfold ask in H. destruct (step E s (OpTagAdd fd nm t n attr)) as [s1|] eqn:St; [|discriminate]. cbn [rbind] in H.
  assert (R1 := reachable_step _ _ _ _ R St). destruct (C01_add _ _ _ _ _ _ _ _ R St) as [(code & Hc & An & K)|(i & Hi & An & (g & N & Ty) & K)]; destruct (answered_last _ _ _ An) as (l & Hl); rewrite Hl in H.
  - assert (s' = s1 /\ r = inr code) as (-> & ->) by (split; congruence). split; [reflexivity|]. split; assumption.
  - assert (X : s32 (le_val (slice 0 4 (le_bytes 4 i))) = i -> s' = s1 /\ r = inl i) by (intros X; rewrite X in H; split; congruence).
    assert (s' = s1) by (destruct r; congruence). subst s'. assert (Rg := znth_range _ _ _ (proj1 N)).
    destruct X as (_ & ->). { change (slice 0 4 (le_bytes 4 i)) with (le_bytes 4 i). apply Prop_LuaApi.s32_id. lia. } split; [reflexivity|]. split; [|exact K].
    exists g. split; [exact N|]. split; [exact Ty|]. assert (Hn : 0 <= n < 2147483648) by (destruct A; lia).
    apply step_inv in St as (s2 & u & Ho & E1). apply h_tag_add_effect in Ho as [[_ E2]|(U & s3 & r3 & Ha & E2)].
    + exfalso. assert (Y : rev (s_out s1) = OErr fd MSG_TAG_ADD E_ILLEGAL :: rev (s_out s)) by (rewrite E1, E2; cbn [set_step set_out s_out]; apply rev_app_distr). congruence.
    + assert (Y : rev (s_out s1) = (if r3 <? 0 then OErr fd MSG_TAG_ADD r3 else OResp fd MSG_TAG_ADD (le_bytes 4 r3)) :: rev (s_out s3)) by (rewrite E1, E2; cbn [set_step set_out s_out]; apply rev_app_distr).
      destruct (r3 <? 0) eqn:Q; [congruence|]. destruct (tag_add_post _ _ _ _ _ _ _ _ _ (reachable_Inv _ _ R) (u32_range n) Ha ltac:(lia)) as (g2 & Z1 & Z2 & Z3 & Z4).
      assert (N2 : named s1 r3 nm g2) by (rewrite E1, E2; split; assumption). assert (i = r3) by (eapply C01_unique_names; [exact R1 | exact N | exact N2]). subst r3.
      assert (g2 = g) by (destruct N, N2; congruence). subst g2. unfold u32 in Z4. rewrite Z.mod_small in Z4 by lia. exact Z4.
Qed.
(** a type that does not exist is not noticed by the client, but by the server *)
Theorem C158_type : forall E cc fd s nm tn ws n attr cc1 cc' s' r,
  reachable E s -> asks ws n attr -> zlen nm <= 28 -> dax_string_to_type (s_types s) cc tn = Done (cc1, 0) ->
  tag_add_cmd E cc fd s (nm :: tn :: ws) = Done (cc', s', r) -> zlen (s_db s') < 2147483648 -> exists e, r = inr e /\ e < 0 /\ forall j m, (exists g, named s' j m g) <-> (exists g, named s j m g).
Proof.
  intros E cc fd s nm tn ws n attr cc1 cc' s' r R A L T H Z. assert (X := C158_added_partial _ _ _ _ _ _ _ _ _ _ _ _ _ _ R A L T H Z). destruct X as (St & X). destruct r as [i|e]; [|exists e; tauto]. exfalso. destruct X as ((g & N & Ty & _) & _).
  assert (Rs := reachable_step _ _ _ _ R St).
  assert (C := it_type _ _ (iv_tags _ (reachable_Inv _ _ Rs) _ _ (proj1 N))). rewrite Ty in C. vm_compute in C. discriminate.
Qed.
(** REFUTED: after a count, a word that is no attribute is reported, but the tag is made without any attribute *)
Theorem C158_attribute_refuted : forall E cc fd s nm tn c w ws cc1 t, starts 6 w (str "retain") = false -> 1 <= number c < 2147483648 -> zlen nm <= 28 ->
  dax_string_to_type (s_types s) cc tn = Done (cc1, t) -> tag_add_cmd E cc fd s (nm :: tn :: c :: w :: ws) = tag_add_cmd E cc fd s [nm; tn; c].
Proof. intros E cc fd s nm tn c w ws cc1 t W Hc L T. unfold tag_add_cmd. rewrite T. cbn [rbind]. cbv beta iota zeta. rewrite count_is by exact Hc. replace (number c =? 0) with false by lia. cbn [get_attributes]. rewrite W. reflexivity. Qed.
(** a third word that is neither a count nor an attribute is refused and nothing is sent *)
Theorem C158_word : forall E cc fd s nm tn w ws cc1 t, number w = 0 -> starts 6 w (str "retain") = false -> dax_string_to_type (s_types s) cc tn = Done (cc1, t) ->
  tag_add_cmd E cc fd s (nm :: tn :: w :: ws) = Done (cc1, s, inr 1).
Proof. intros E cc fd s nm tn w ws cc1 t N W T. unfold tag_add_cmd. rewrite T. cbn [rbind]. cbv beta iota zeta. rewrite strtol0_number, N. change (s32 (sat64 0) =? 0) with true. cbv iota. cbn [get_attributes]. rewrite W. reflexivity. Qed.
(** REFUTED: a name of 29 to 32 characters, which the server takes, is written past a buffer of the library *)
Theorem C158_name_refuted : forall E cc fd s nm tn cc1 t, 29 <= zlen nm <= 32 -> dax_string_to_type (s_types s) cc tn = Done (cc1, t) -> tag_add_cmd E cc fd s [nm; tn] = Undef UOob.
Proof. intros E cc fd s nm tn cc1 t L T. unfold tag_add_cmd. rewrite T. cbn [rbind]. unfold dax_tag_add. change (1 =? 0) with false. replace (32 <? zlen nm) with false by lia. replace (41 <? 12 + zlen nm + 1) with true by lia. reflexivity. Qed.
Example C158_ex : asks [str "0x10"; str "Retain"] 16 4 /\ (exists s', tag_add_cmd env0 [] 5 demo [str "qux"; str "int"; str "0x10"; str "Retain"] = Done ([], s', inl 16) /\ exists g, named s' 16 (str "qux") g /\ t_count g = 16) /\
  (exists s', tag_add_cmd env0 [] 5 demo [str "qux"; str "int"; str "3"; str "retian"] = Done ([], s', inl 16)) /\ exists cc1 s', tag_add_cmd env0 [] 5 demo [str "qux"; str "itn"] = Done (cc1, s', inr E_BADTYPE).
Proof.
  split; [apply (a_count_retain (str "0x10")); [vm_compute; split; congruence | vm_compute; reflexivity | constructor]|].
  split; [eexists; split; [vm_compute; reflexivity|]; eexists; split; [split; vm_compute; reflexivity | reflexivity]|]. split; [eexists; vm_compute; reflexivity|]. do 2 eexists. vm_compute. reflexivity.
Qed.
