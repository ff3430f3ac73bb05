(** * Prop_DaxcCompound: C166, READ of compound tags *)
From Verif Require Import LuaConv LuaConvProofs LuaApi LuaApiProofs Prop_LuaApi.
From Verif Require Import Base Const Types State Events Atomic Server Lib Spec Shape Inv Reach TypeFrame TypesProofs ClientTypes ClientTypesProofs ClientMsg ClientData Prop_Data Prop_ClientData Demo Prop_Types Prop_ClientOvr CdtNew Prop_CdtNew Text Prop_Text Cache Path Prop_Path DaxcRead Prop_Wire Prop_DaxcCmd Prop_DaxcRead CdtIter Prop_CdtIter.

(** ** Words of the statements *)
(** the text that shows the values of a member that the layout puts at bit [p] of the data [d] *)
Inductive body (d : list Z) (m : cmember) (p : Z) : name -> Prop :=
| body_bits : cm_type m = T_BOOL -> body d m p (flat_map (fun k => if bit d (p + Z.of_nat k) then str "true " else str "false ") (seq 0 (Z.to_nat (cm_count m))))
| body_text : cm_type m = T_CHAR -> body d m p (slice (p / 8) (cm_count m) d)
| body_ints lo hi w ws : int_type (cm_type m) lo hi w -> cm_type m <> T_CHAR -> zlen ws = cm_count m ->
    (forall k, 0 <= k < cm_count m -> exists x, znth ws k = Some x /\ decimal x /\ Prop_Text.number x = Prop_Text.value lo w (slice (p / 8 + w * k) w d)) ->
    body d m p (flat_map (fun x => x ++ [32]) ws).
(** the lines that show the data [d] of type [t], indented by [ind]: a line for each member; the members of a compound member follow it, indented further *)
Inductive shows (s : server) : nat -> list Z -> Z -> list name -> Prop :=
| sh_type ind d t c size pl ls : denotes s t c -> type_size (s_types s) t = Done size -> layout (s_types s) (c_members c) size pl -> packed 0 pl -> shows_all s ind d ls pl -> shows s ind d t (concat ls)
with shows_all (s : server) : nat -> list Z -> list (list name) -> placement -> Prop :=
| sa_end ind d : shows_all s ind d [] []
| sa_more ind d l ls x pl : shows_member s ind d l x -> shows_all s ind d ls pl -> shows_all s ind d (l :: ls) (x :: pl)
with shows_member (s : server) : nat -> list Z -> list name -> cmember * Z * Z -> Prop :=
| sm_plain ind d m p l txt : body d m p txt -> shows_member s ind d [repeat 32 ind ++ cm_name m ++ [32] ++ txt] (m, p, l)
| sm_into ind d m p l ls : cm_count m = 1 -> shows s (ind + 2) (skipn (Z.to_nat (p / 8)) d) (cm_type m) ls -> shows_member s ind d ((repeat 32 ind ++ cm_name m ++ [32]) :: ls) (m, p, l).
(** data for which this is so: bits, whole numbers, texts without zeros, and single compound members of such *)
Definition printable (d : list Z) (m : cmember) (p : Z) : Prop :=
  cm_type m = T_BOOL \/ (cm_type m = T_CHAR /\ ~ In 0 (slice (p / 8) (cm_count m) d)) \/ (exists lo hi w, int_type (cm_type m) lo hi w /\ cm_type m <> T_CHAR).
Inductive tidy (s : server) : list Z -> Z -> Prop :=
| tidy_type d t c size pl : denotes s t c -> type_size (s_types s) t = Done size -> layout (s_types s) (c_members c) size pl -> packed 0 pl ->
    (forall m p l, In (m, p, l) pl -> is_custom (cm_type m) = false -> printable d m p) ->
    (forall m p l, In (m, p, l) pl -> is_custom (cm_type m) = true -> cm_count m = 1) ->
    (forall m p l, In (m, p, l) pl -> is_custom (cm_type m) = true -> tidy s (skipn (Z.to_nat (p / 8)) d) (cm_type m)) -> tidy s d t.

(** ** Helpers *)
Lemma words_map (f : Z -> run name) (g : nat -> name) : forall k n, (forall i, (n <= i < n + k)%nat -> f (Z.of_nat i) = Done (g i)) -> words f k (Z.of_nat n) = Done (flat_map g (seq n k)).
Proof.
  induction k as [|k IH]; intros n H; cbn [words seq flat_map]; [reflexivity|]. rewrite (H n) by lia. cbn [rbind]. replace (Z.of_nat n + 1) with (Z.of_nat (Datatypes.S n)) by lia. rewrite IH by (intros i Hi; apply H; lia). reflexivity.
Qed.
Lemma words_list (f : Z -> run name) (P : Z -> name -> Prop) : forall k n, (forall i, n <= i < n + Z.of_nat k -> exists x, f i = Done (x ++ [32]) /\ P i x) ->
  exists ws, words f k n = Done (flat_map (fun x => x ++ [32]) ws) /\ zlen ws = Z.of_nat k /\ forall i, 0 <= i < Z.of_nat k -> exists x, znth ws i = Some x /\ P (n + i) x.
Proof.
  induction k as [|k IH]; intros n H; cbn [words]; [exists []; split; [reflexivity|]; split; [reflexivity|]; intros i Hi; lia|].
  destruct (H n ltac:(lia)) as (x & -> & Px). cbn [rbind]. destruct (IH (n + 1)) as (ws & -> & L & A); [intros i Hi; apply H; lia|]. cbn [rbind]. exists (x :: ws).
  split; [reflexivity|]. split; [rewrite zlen_cons; lia|]. intros i Hi. destruct (Z.eq_dec i 0) as [->|N]; [exists x; split; [apply znth_0 | replace (n + 0) with n by lia; exact Px]|].
  destruct (A (i - 1) ltac:(lia)) as (y & Zy & Py). exists y. replace i with (i - 1 + 1) at 1 by lia. rewrite znth_S by lia. split; [exact Zy|]. replace (n + i) with (n + 1 + (i - 1)) by lia. exact Py.
Qed.
Lemma zlen_skip {A} n (l : list A) : 0 <= n <= zlen l -> zlen (skipn (Z.to_nat n) l) = zlen l - n.
Proof. intros H. unfold zlen in *. rewrite skipn_length. lia. Qed.
Lemma slice_skip n a k (l : list Z) : 0 <= n -> 0 <= a -> slice a k (skipn (Z.to_nat n) l) = slice (n + a) k l.
Proof. intros. unfold slice. rewrite Prop_Groups.skipn_skipn'. f_equal. f_equal. lia. Qed.
Lemma no_zeros l : ~ In 0 l -> flat_map (fun c => if c =? 0 then [32; c] else [c]) l = l.
Proof. induction l as [|c l IH]; intros N; [reflexivity|]. cbn [flat_map]. replace (c =? 0) with false by (symmetry; apply Z.eqb_neq; intros ->; apply N; left; reflexivity). rewrite IH by (intros I; apply N; right; exact I). reflexivity. Qed.
Lemma tells_same it m p l m' p' l' : tells it (m, p, l) -> tells it (m', p', l') -> m = m' /\ p = p'.
Proof. unfold tells. intros -> H. injection H as H1 H2 H3 H4 H5. split; [destruct m, m'; cbn in *; congruence | lia]. Qed.
Lemma bytes_skip n d : bytes_ok d -> bytes_ok (skipn n d).
Proof. intros H. unfold bytes_ok in *. rewrite Forall_forall in *. intros x I. apply H. rewrite <- (firstn_skipn n d). apply in_or_app. right. exact I. Qed.
Section Lines.
Context (E : env) (s : server) (R : reachable E s) (F : few s) (Rd : readable s) (T : tenv).
Lemma lines_ok : forall k i c size d cc ind, (Z.to_nat i < k)%nat -> znth (s_types s) i = Some c -> type_size (s_types s) (cdt_type i) = Done size -> size <= zlen d -> bytes_ok d -> agrees s cc -> tidy s d (cdt_type i) ->
  exists cc' ls, compound_lines k (s_types s) T ind d cc (cdt_type i) = Done (cc', ls) /\ agrees s cc' /\ shows s ind d (cdt_type i) ls.
Proof.
  induction k as [|k IH]; intros i c size d cc ind Hk Zi Ts Ld Bd A Td; [lia|]. assert (W := reachable_wf _ _ R). assert (Rg := readable_regular _ Rd). assert (F0 := F). unfold few in F0. assert (Ri := znth_range _ _ _ Zi).
  inversion Td as [d0 t0 c0 size0 pl (i0 & Ei & Z0) Ts0 Ly Pk Hp Hs Ht]; subst d0 t0.
  assert (i0 = i). { destruct (custom_type i ltac:(lia)) as [_ C2]. assert (R0 := znth_range _ _ _ Z0). destruct (custom_type i0 ltac:(lia)) as [_ C3]. congruence. } subst i0. assert (c0 = c) by congruence. subst c0. assert (size0 = size) by congruence. subst size0.
  assert (Fs := all_sound (s_types s) W ltac:(lia) Rg i c size pl Zi Ts Ly). rewrite Forall_forall in Fs.
  assert (Ly0 := Ly). destruct Ly0 as (Sz & Mp & Al & _). rewrite Forall_forall in Al.
  assert (Mk := ty_members _ _ (wf_type _ W _ _ Zi)). rewrite Forall_forall in Mk.
  cbn [compound_lines].
  match goal with |- context [cdt_iter _ ?cb _ _] => destruct (C165_places E s cc (cdt_type i) c size pl cb (fun it a => forall x, In x pl -> tells it x -> shows_member s ind d a x) R F Rd A) as (cc' & l & H & A' & Fl) end;
    [exists i; auto | exact Ts | exact Ly | exact Pk | |].
  - intros cc0 [[m p] l] it I Te A0. assert (So := Fs _ I). destruct So as (K & C & Nd & Lp & Pp & Bp & A8). destruct (Al _ I) as (_ & _ & B1 & _).
    assert (Im : In m (c_members c)) by (rewrite <- Mp; exact (in_map (fun x => fst (fst x)) _ _ I)).
    assert (Only : forall a, shows_member s ind d a (m, p, l) -> forall x, In x pl -> tells it x -> shows_member s ind d a x).
    { intros a Sm [[m' p'] l'] _ Te'. destruct (tells_same _ _ _ _ _ _ _ Te Te') as [<- <-]. inversion Sm; subst; constructor; assumption. }
    cbn in Te. subst it. cbn [it_byte it_bit it_type it_count it_name]. replace ((p / 8 <? 0) || (zlen d <? p / 8)) with false by lia.
    assert (Ls : zlen (skipn (Z.to_nat (p / 8)) d) = zlen d - p / 8) by (apply zlen_skip; lia).
    destruct (needs_width _ _ _ Nd) as (w & Wd & El). destruct (is_custom (cm_type m)) eqn:Cu.
    + assert (C1 := Hs _ _ _ I Cu). assert (Tn := Ht _ _ _ I Cu). destruct (Mk m Im) as (_ & _ & Ty).
      destruct Ty as [B|(j & Hj & Ej)]; [apply base_not_custom in B as [B _]; congruence|].
      inversion Wd as [w0 Iw|n Cw Sw]; subst; [apply widths_fun in Iw as (_ & _ & X & _); congruence|].
      assert (Am : p mod 8 = 0) by (apply A8; intros Q; rewrite Q in Cu; discriminate).
      destruct (znth (s_types s) j) as [cj|] eqn:Zj; [|apply znth_none in Zj; lia].
      rewrite Ej in *. destruct (IH j cj n (skipn (Z.to_nat (p / 8)) d) cc0 (ind + 2)%nat ltac:(lia) Zj Sw ltac:(lia) (bytes_skip _ _ Bd) A0 Tn) as (cc1 & ls & Hl & A1 & Sh).
      rewrite Hl. cbn [rbind]. do 2 eexists. split; [reflexivity|]. split; [exact A1|]. apply Only. constructor; [exact C1 | rewrite Ej; exact Sh].
    + destruct (Hp _ _ _ I Cu) as [Tb|[[Tc Nz]|(lo & hi & w1 & It & Nc)]].
      * replace (cm_type m =? T_CHAR) with false by (rewrite Tb; reflexivity). replace (cm_type m =? T_BOOL) with true by (rewrite Tb; reflexivity). rewrite (width_bool _ _ _ Tb Wd) in El.
        rewrite (words_map _ (fun k => if bit d (p + Z.of_nat k) then str "true " else str "false ") (Z.to_nat (cm_count m)) 0).
        2: { intros n Hn. unfold bool_word. destruct (znth_some d (p / 8 + (p mod 8 + Z.of_nat n) / 8) ltac:(lia)) as (x & Hx). rewrite Hx. unfold bit. replace ((p + Z.of_nat n) / 8) with (p / 8 + (p mod 8 + Z.of_nat n) / 8) by lia.
             rewrite (nthb_znth _ _ _ Hx). replace ((p + Z.of_nat n) mod 8) with ((p mod 8 + Z.of_nat n) mod 8) by lia. reflexivity. }
        cbn [rbind]. do 2 eexists. split; [reflexivity|]. split; [exact A0|]. apply Only. rewrite <- !app_assoc. constructor. apply body_bits. exact Tb.
      * replace (cm_type m =? T_CHAR) with true by (rewrite Tc; reflexivity). assert (Ww : w = 8). { rewrite Tc in Wd. inversion Wd as [w0 Iw|n Cw Sw]; subst; [apply widths_fun in Iw as (-> & _); reflexivity | discriminate]. }
        assert (Am : p mod 8 = 0) by (apply A8; rewrite Tc; discriminate). replace (zlen (skipn (Z.to_nat (p / 8)) d) <? cm_count m) with false by lia.
        do 2 eexists. split; [reflexivity|]. split; [exact A0|]. apply Only. change (firstn (Z.to_nat (cm_count m)) (skipn (Z.to_nat (p / 8)) d)) with (slice (p / 8) (cm_count m) d). rewrite (no_zeros _ Nz), <- !app_assoc. constructor. apply body_text. exact Tc.
      * replace (cm_type m =? T_CHAR) with false by lia. assert (Nb : cm_type m <> T_BOOL) by (destruct It; discriminate). replace (cm_type m =? T_BOOL) with false by lia. assert (Am := A8 Nb).
        assert (Ww : w = 8 * w1). { inversion Wd as [w0 Iw|n Cw Sw]; subst; [|congruence]. apply widths_fun in Iw as (-> & _). destruct It; reflexivity. }
        assert (W1 := width_cases _ _ _ _ It).
        match goal with |- context [words ?f ?k 0] => destruct (words_list f (fun i x => decimal x /\ Prop_Text.number x = Prop_Text.value lo w1 (slice (p / 8 + w1 * i) w1 d)) k 0) as (ws & Hw & Lw & Aw) end.
        { intros n Hn. assert (Hn' : 0 <= n < cm_count m) by lia. assert (Es : slice (n * w1) w1 (skipn (Z.to_nat (p / 8)) d) = slice (p / 8 + w1 * n) w1 d) by (rewrite slice_skip by (destruct W1 as [->|[->|[->| ->]]]; lia); f_equal; lia).
          assert (Bx : bytes_ok (slice (n * w1) w1 (skipn (Z.to_nat (p / 8)) d))) by (apply bytes_ok_slice, bytes_skip; exact Bd).
          assert (Bi : in_bounds (n * w1) w1 (zlen (skipn (Z.to_nat (p / 8)) d)) = true) by (apply in_bounds_iff; rewrite Ls; destruct W1 as [->|[->|[->| ->]]]; lia).
          destruct (shown_value T _ lo hi w1 _ n It Nc Bx Bi) as (line & V1 & V2 & V3 & V4). exists line. rewrite V1. cbn [rbind]. rewrite V2. rewrite Es in V4. auto. }
        rewrite Hw. cbn [rbind]. do 2 eexists. split; [reflexivity|]. split; [exact A0|]. apply Only. rewrite <- !app_assoc. constructor. apply (body_ints _ _ _ lo hi w1 ws It Nc); [etransitivity; [exact Lw | apply Z2Nat.id; lia]|]. intros n Hn. destruct (Aw n) as (x & X1 & X2); [rewrite Z2Nat.id; lia|]. exists x. exact (conj X1 X2).
  - rewrite H. cbn [rbind]. exists cc', (concat l). split; [reflexivity|]. split; [exact A'|]. apply (sh_type s ind d (cdt_type i) c size pl l); [exists i; auto | exact Ts | exact Ly | exact Pk|].
    assert (G : forall l0 pl0, Forall2 (fun (a : list name) x => exists it, tells it x /\ (forall x, In x pl -> tells it x -> shows_member s ind d a x)) l0 pl0 -> incl pl0 pl -> shows_all s ind d l0 pl0).
    { induction 1 as [|a x l0 pl0 (it & Te & Q) _ IHf]; intros Ic; constructor; [apply Q; [apply Ic; left; reflexivity | exact Te] | apply IHf; intros y I; apply Ic; right; exact I]. }
    apply (G l pl Fl). apply incl_refl.
Qed.
End Lines.
(** FULL STATEMENT (false, see below): READ of a compound tag prints all values in it.  What holds: for data with single compound members, numbers, bits and texts without zeros the lines show all of it *)
Theorem C166_lines_partial : forall E s T t c size d cc ind, reachable E s -> few s -> readable s -> agrees s cc -> denotes s t c -> type_size (s_types s) t = Done size -> size <= zlen d -> bytes_ok d -> tidy s d t ->
  exists cc' ls, compound_lines (Datatypes.S (length (s_types s))) (s_types s) T ind d cc t = Done (cc', ls) /\ agrees s cc' /\ shows s ind d t ls.
Proof.
  intros E s T t c size d cc ind R F Rd A (i & -> & Zi) Ts Ld Bd Td. assert (Ri := znth_range _ _ _ Zi). apply (lines_ok E s R F Rd T _ i c size); try assumption. unfold zlen in Ri. lia.
Qed.
(** the elements of the tag follow each other *)
Theorem C166_elements_partial : forall E s T t c size d cc k n, reachable E s -> few s -> readable s -> agrees s cc -> denotes s t c -> type_size (s_types s) t = Done size -> 0 < size -> 0 <= n -> size * (n + Z.of_nat k) <= zlen d -> bytes_ok d ->
  (forall j, n <= j < n + Z.of_nat k -> tidy s (skipn (Z.to_nat (size * j)) d) t) ->
  exists cc' ls, element_lines (s_types s) T d cc t k n = Done (cc', concat ls) /\ agrees s cc' /\ zlen ls = Z.of_nat k /\
    forall j, 0 <= j < Z.of_nat k -> exists l, znth ls j = Some l /\ shows s 0 (skipn (Z.to_nat (size * (n + j))) d) t l.
Proof.
  intros E s T t c size d cc k n R F Rd A D Ts Ps. revert cc A n. induction k as [|k IH]; intros cc A n Hn Ld Bd Td; cbn [element_lines].
  - exists cc, []. split; [reflexivity|]. split; [exact A|]. split; [reflexivity|]. intros j Hj. lia.
  - destruct (C38_partial E s cc t size R F Rd A (or_intror (ex_intro _ c D)) Ts Ps) as (cc1 & -> & A1). cbn [rbind]. replace (zlen d <? size * n) with false by nia.
    destruct (C166_lines_partial E s T t c size (skipn (Z.to_nat (size * n)) d) cc1 0%nat R F Rd A1 D Ts) as (cc2 & l & -> & A2 & Sh);
      [rewrite zlen_skip by nia; nia | apply bytes_skip; exact Bd | apply Td; lia|]. cbn [rbind].
    destruct (IH cc2 A2 (n + 1) ltac:(lia) ltac:(nia) Bd) as (cc3 & ls & -> & A3 & Ll & Al); [intros j Hj; apply Td; lia|]. cbn [rbind]. exists cc3, (l :: ls).
    split; [reflexivity|]. split; [exact A3|]. split; [rewrite zlen_cons; lia|]. intros j Hj. destruct (Z.eq_dec j 0) as [->|N]; [exists l; split; [apply znth_0 | replace (n + 0) with n by lia; exact Sh]|].
    destruct (Al (j - 1) ltac:(lia)) as (x & Zx & Px). exists x. replace j with (j - 1 + 1) at 1 by lia. rewrite znth_S by lia. split; [exact Zx|]. replace (n + j) with (n + 1 + (j - 1)) by lia. exact Px.
Qed.
(** the data printed are those that are stored *)
Theorem C166_data : forall E T G db cc fd s nm a n h b cc1 cc' s' sh, reachable E s -> stored s (h_index h) b -> no_override s (h_index h) -> zlen b < 2147483648 -> inside h b -> is_custom (h_type h) = true -> asked a n ->
  tag_handle (s_types s) db cc nm n = Done (cc1, inl h) -> tag_read_cmd E T G db cc fd s (nm :: a) = Done (cc', s', Some sh, 0) -> sh = ShCompound (slice (h_byte h) (h_size h) b) /\ s_db s' = s_db s.
Proof.
  intros E T G db cc fd s nm a n h b cc1 cc' s' sh R St No Hz In C A Th H. unfold tag_read_cmd in H. cbv zeta in H. rewrite (asked_count _ _ A), Th in H. cbn [rbind] in H.
  apply rbind_done in H as ([[s1 buf] e] & Hr & H). destruct (e =? 0) eqn:Q; cbn [negb] in H; [|injection H as _ _ K _; discriminate K]. rewrite C in H. injection H as _ <- <-. assert (e = 0) by lia. subst e.
  assert (In0 := In). destruct In0 as (I1 & I2 & I3). assert (Lf : zlen (fresh G (h_size h + 1)) = h_size h + 1) by (apply zlen_fresh; lia).
  assert (Lb : h_size h <= zlen (fresh G (h_size h + 1))) by lia. assert (Nb : h_type h <> T_BOOL) by (intros X; rewrite X in C; discriminate).
  destruct (C45_read _ _ _ _ _ _ b _ _ R St No Hz In Lb Nb Hr) as (D & L & Sl & _). split; [|exact D].
  rewrite <- Sl. reflexivity.
Qed.
(** REFUTED: of a member that is an array of a compound type only the first element is printed: data that differ in the second one give the same lines *)
Theorem C166_array_refuted : exists E s T t c d d' r, reachable E s /\ few s /\ readable s /\ agrees s [] /\ denotes s t c /\ type_size (s_types s) t = Done 12 /\ zlen d = 12 /\ zlen d' = 12 /\ d <> d' /\
  c_members c = [mk_cm (str "n") T_INT 1; mk_cm (str "p") (cdt_type 2) 2] /\ compound_lines (Datatypes.S (length (s_types s))) (s_types s) T 0 d [] t = Done r /\ compound_lines (Datatypes.S (length (s_types s))) (s_types s) T 0 d' [] t = Done r /\
  snd r = [str "n 258 "; str "p "; str "  flag true false true "; str "  x 1 2 "].
Proof.
  exists envS, pa_state, te0, (cdt_type 4), c_flat, [2; 1; 5; 1; 0; 2; 0; 0; 0; 0; 0; 0], [2; 1; 5; 1; 0; 2; 0; 7; 9; 9; 9; 9]. eexists. split; [exact pa_reachable|]. split; [apply few_check; vm_compute; reflexivity|]. split; [apply readable_check; vm_compute; reflexivity|]. split; [apply agrees_empty|].
  split; [apply denotes_check; vm_compute; reflexivity|]. split; [vm_compute; reflexivity|]. split; [reflexivity|]. split; [reflexivity|]. split; [discriminate|]. split; [reflexivity|]. split; [vm_compute; reflexivity|]. split; [vm_compute; reflexivity|]. vm_compute. reflexivity.
Qed.
Example C166_ex : exists cc, tidy pa_state [5; 1; 0; 254; 255] (cdt_type 2) /\
  compound_lines (Datatypes.S (length (s_types pa_state))) (s_types pa_state) te0 2 [5; 1; 0; 254; 255] [] (cdt_type 2) = Done (cc, [str "  flag true false true "; str "  x 1 -2 "]).
Proof.
  eexists. split.
  - apply (tidy_type pa_state _ (cdt_type 2) c_pt 5 pl_pt); [apply denotes_check; vm_compute; reflexivity | exact pt5 | exact lay_pt | repeat split; cbn; lia | | |].
    + intros m p l [I|[I|[]]] _; injection I as <- <- <-; [left; reflexivity | right; right; exists (-32768), 32767, 2; split; [constructor | discriminate]].
    + intros m p l [I|[I|[]]]; injection I as <- <- <-; discriminate.
    + intros m p l [I|[I|[]]]; injection I as <- <- <-; discriminate.
  - vm_compute. reflexivity.
Qed.
