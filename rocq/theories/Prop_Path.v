(** * Prop_Path: tag paths resolve to the documented location (C49) *)
From Verif Require Import Base Const Types State Events Atomic Server Lib SearchProofs Shape Inv Reach Spec Frame Effects Out DataFrame WRel ModInv IdInv Demo
  Prop_Tags TypeFrame TypesProofs ClientTypes ClientTypesProofs Prop_Types Cache Path.

(** ** What a path means *)
(** one item of a path: a name and possibly an index *)
Record seg := mk_seg { sg_name : name; sg_at : option Z }.
Definition show_seg (g : seg) : name := sg_name g ++ match sg_at g with None => [] | Some i => [91] ++ dec_str i ++ [93] end.
Fixpoint show (g : seg) (r : list seg) : name := match r with [] => show_seg g | g' :: r => show_seg g ++ 46 :: show g' r end.
Definition idx (g : seg) : Z := match sg_at g with Some i => i | None => 0 end.
(** names are identifiers, indices are numbers that fit an int *)
Definition seg_ok (g : seg) : Prop := validate_name (sg_name g) = 0 /\ 0 <= idx g < 2147483648.
(** bits of one element of type [t] *)
Inductive width (ts : list cdt) (t : Z) : Z -> Prop :=
| width_base w : In (t, w) widths -> width ts t w
| width_cdt n : is_custom t = true -> type_size ts t = Done n -> width ts t (8 * n).
(** type [t] has, in the layout of C37, the member [m] at bit [p]; [before] are the members placed before it *)
Definition member_at (s : server) (t : Z) (before : placement) (m : cmember) (p : Z) : Prop :=
  exists c size pl l after, denotes s t c /\ type_size (s_types s) t = Done size /\ layout (s_types s) (c_members c) size pl /\ packed 0 pl /\
    pl = before ++ (m, p, l) :: after.
(** one step into a type: what lies before the member, the member, its first bit, the item of the path *)
Record walk := mk_walk { wk_before : placement; wk_member : cmember; wk_pos : Z; wk_seg : seg }.
(** the path [segs] inside an element of type [t] designates bit [q] *)
Inductive leads (s : server) : Z -> list walk -> Z -> Prop :=
| leads_here t k w : member_at s t (wk_before k) (wk_member k) (wk_pos k) -> cm_name (wk_member k) = sg_name (wk_seg k) ->
    width (s_types s) (cm_type (wk_member k)) w -> leads s t [k] (wk_pos k + w * idx (wk_seg k))
| leads_into t k w ks q : member_at s t (wk_before k) (wk_member k) (wk_pos k) -> cm_name (wk_member k) = sg_name (wk_seg k) ->
    width (s_types s) (cm_type (wk_member k)) w -> idx (wk_seg k) < cm_count (wk_member k) ->
    leads s (cm_type (wk_member k)) ks q -> leads s t (k :: ks) (wk_pos k + w * idx (wk_seg k) + q).

(** ** Text *)
Lemma cut_app d a r : ~ In d a -> cut_at d (a ++ d :: r) = (a, Some r).
Proof. induction a as [|c a IH]; intros N; cbn [app cut_at]; [rewrite Z.eqb_refl; reflexivity|]. replace (c =? d) with false by (symmetry; apply Z.eqb_neq; intros ->; apply N; left; reflexivity). rewrite IH by (intros I; apply N; right; exact I). reflexivity. Qed.
Lemma cut_none d a : ~ In d a -> cut_at d a = (a, None).
Proof. induction a as [|c a IH]; intros N; cbn [cut_at]; [reflexivity|]. replace (c =? d) with false by (symmetry; apply Z.eqb_neq; intros ->; apply N; left; reflexivity). rewrite IH by (intros I; apply N; right; exact I). reflexivity. Qed.
Lemma split_cut s : split_tagname s = cut_at 46 s.
Proof. induction s as [|c s IH]; cbn [split_tagname cut_at]; [reflexivity|]. rewrite IH. reflexivity. Qed.
Lemma valid_chars n c : validate_name n = 0 -> In c n -> c <> 46 /\ c <> 91 /\ c <> 93.
Proof.
  intros H I. destruct (valid_plain n H) as (_ & P & _). rewrite forallb_forall in P. specialize (P c I). unfold plain, isalpha, isdigit in P.
  repeat split; intros ->; discriminate P.
Qed.
Lemma valid_first n : validate_name n = 0 -> exists c r, n = c :: r /\ isdigit c = false.
Proof.
  unfold validate_name. destruct (_ <? _); [discriminate|]. destruct n as [|c r]; [discriminate|]. destruct (_ && _) eqn:Q; [discriminate|]. intros _. exists c, r. split; [reflexivity|].
  unfold isalpha, isdigit in *. lia.
Qed.
Lemma dec_chars i c : 0 <= i < 2147483648 -> In c (dec_str i) -> isdigit c = true.
Proof. intros H I. destruct (dec_str_spec i ltac:(lia)) as (A & _). rewrite forallb_forall in A. auto. Qed.
Lemma digits_stop b s c r : forall acc, forallb isdigit s = true -> isdigit c = false -> isalpha c = false -> b = 10 -> digits b acc (s ++ c :: r) = digits b acc s.
Proof.
  induction s as [|x s IH]; intros acc D N A ->; cbn [app digits].
  - unfold digit_val. rewrite N. unfold isalpha in A. replace ((97 <=? c) && (c <=? 122)) with false by lia. replace ((65 <=? c) && (c <=? 90)) with false by lia. reflexivity.
  - cbn [forallb] in D. apply andb_true_iff in D as [D1 D2]. destruct (digit_val x) as [d|]; [|reflexivity]. destruct (d <? 10); [|reflexivity]. apply IH; auto.
Qed.
Lemma strtol10_dec i r : 0 <= i < 2147483648 -> (r = [] \/ exists c r', r = c :: r' /\ isdigit c = false /\ isalpha c = false) -> strtol10 (dec_str i ++ r) = i.
Proof.
  intros H R. destruct (dec_str_spec i ltac:(lia)) as (A & B & _ & D). assert (G : digits 10 0 (dec_str i ++ r) = i).
  { destruct R as [->|(c & r' & -> & N & Al)]; [rewrite app_nil_r; exact B|]. rewrite digits_stop by auto. exact B. }
  unfold strtol10. destruct (dec_str i) as [|c l]; [congruence|]. cbn [app] in *. cbn [forallb] in A. apply andb_true_iff in A as [A _].
  cbn [skip_space]. replace (isspace c) with false by (unfold isdigit, isspace in *; lia).
  assert (S : sat64 (digits 10 0 (c :: l ++ r)) = i) by (rewrite G; unfold sat64; lia).
  destruct c as [|c|c]; try exact S. repeat match goal with |- match ?x with _ => _ end = _ => is_var x; destruct x; try exact S end; exfalso; unfold isdigit in A; lia.
Qed.
Definition index_of (g : seg) : Z := match sg_at g with Some i => i | None => E_NOTFOUND end.
Lemma get_index_show g : seg_ok g -> get_index (show_seg g) = (sg_name g, index_of g).
Proof.
  intros [V I]. unfold get_index, show_seg, idx, index_of in *. destruct (sg_at g) as [i|].
  - cbn [app]. rewrite cut_app by (intros K; destruct (valid_chars _ _ V K) as (_ & N & _); congruence).
    rewrite cut_app by (intros K; apply dec_chars in K; [discriminate K | lia]). cbn [fst]. destruct (dec_str_spec i ltac:(lia)) as (A & _). rewrite A.
    rewrite strtol10_dec by (auto; right; exists 93, []; auto). f_equal. unfold s32. cbv zeta. rewrite Z.mod_small by lia. replace (i <? 2147483648) with true by lia. reflexivity.
  - rewrite app_nil_r. rewrite cut_none by (intros K; destruct (valid_chars _ _ V K) as (_ & N & _); congruence). reflexivity.
Qed.
Lemma show_seg_dot g : seg_ok g -> ~ In 46 (show_seg g).
Proof.
  intros [V I] K. unfold show_seg, idx in *. apply in_app_iff in K as [K|K]; [apply (valid_chars _ _ V) in K; lia|]. destruct (sg_at g) as [i|]; [|destruct K].
  cbn [app In] in K. destruct K as [K|K]; [discriminate|]. apply in_app_iff in K as [K|[K|[]]]; [apply dec_chars in K; [discriminate K | lia] | discriminate].
Qed.
Lemma split_show g r : seg_ok g -> split_tagname (show g r) = (show_seg g, match r with [] => None | g' :: r => Some (show g' r) end).
Proof. intros O. rewrite split_cut. destruct r as [|g' r]; cbn [show]; [apply cut_none | apply cut_app]; apply show_seg_dot; exact O. Qed.
Lemma show_first g r : seg_ok g -> isdigit (nthb (show g r) 0) = false.
Proof. intros [V _]. destruct (valid_first _ V) as (c & l & E & D). destruct r; cbn [show]; unfold show_seg; rewrite E; exact D. Qed.
Lemma show_len g r : (length r <= length (show g r))%nat.
Proof. revert g. induction r as [|g' r IH]; intros g; cbn [show length]; [lia|]. rewrite app_length. cbn [length]. specialize (IH g'). lia. Qed.

(** ** The walk through one type *)
(** the bit after the members [pl], starting at [pos] *)
Fixpoint ends (pos : Z) (pl : placement) : Z := match pl with [] => pos | (_, p, l) :: r => ends (p + l) r end.
(** the handle stands at bit [P]; inside a byte only behind a BOOL *)
Definition stands (h : handle) (P : Z) : Prop := 8 * h_byte h + h_bit h = P /\ 0 <= h_bit h < 8 /\ 0 <= h_byte h < 536870912 /\ (0 < h_bit h -> h_type h = T_BOOL).
Lemma stands_at h byte bit P t : 8 * byte + bit = P -> 0 <= bit < 8 -> 0 <= byte < 536870912 -> (0 < bit -> t = T_BOOL) -> stands (of_type (at_pos h byte bit) t) P.
Proof. intros. repeat split; cbn; auto; lia. Qed.
Lemma cint_ok x : -2147483648 <= x < 2147483648 -> cint x = Done x.
Proof. intros H. unfold cint, fits32. replace ((-2147483648 <=? x) && (x <? 2147483648)) with true by lia. reflexivity. Qed.

Section Walk.
Context (ts : list cdt) (W : wf ts) (L : zlen ts <= 1073741824) (Rg : regular ts).
Notation mirror := (mirrors ts).
Definition known (t : Z) : Prop := In t base_types \/ exists j, 0 <= j < zlen ts /\ t = cdt_type j.
Lemma base_size t w : In (t, w) widths -> t <> T_BOOL -> type_size ts t = Done (w / 8) /\ w = 8 * (w / 8) /\ 0 < w / 8.
Proof.
  intros I N. assert (B : In t base_types) by (cbn in I; cbn; intuition (try congruence); repeat match goal with H : (_, _) = (_, _) |- _ => injection H as <- <- end; tauto).
  destruct (widths_fun t w I) as (Ew & P & Nc & _ & M). specialize (M N). unfold type_size. cbn [type_size_f].
  assert (Ck : checktype ts t = true). { unfold checktype. destruct (base_noqueue t B) as [Nq _]. cbv zeta. rewrite (noqueue_clear _ Nq). apply orb_true_iff. left. apply existsb_exists. exists t. split; [exact B | lia]. }
  rewrite Ck, Nc. cbn [negb]. rewrite <- Ew. split; [reflexivity | lia].
Qed.
(** the client's size of a type that is not BOOL *)
Lemma client_size t w cc : known t -> width ts t w -> t <> T_BOOL -> 0 < w -> mirror cc -> exists n cc', dax_get_typesize ts cc t = Done (cc', n) /\ mirror cc' /\ w = 8 * n /\ 0 < n.
Proof.
  intros K Wd N P M. assert (exists n, type_size ts t = Done n /\ w = 8 * n /\ 0 < n) as (n & Sz & E & Pn).
  { destruct Wd as [w I|n C S]; [exists (w / 8); apply base_size; assumption | exists n; split; [exact S | lia]]. }
  destruct (sizes_agree ts W L Rg (S (length ts)) t n cc K Sz Pn M) as (cc' & Ec & Mc). exists n, cc'. auto.
Qed.
Lemma needs_width m l : needs ts m l -> exists w, width ts (cm_type m) w /\ l = w * cm_count m.
Proof. intros [w I|n C S]; [exists w; split; [left; exact I | reflexivity] | exists (8 * n); split; [right; assumption | reflexivity]]. Qed.
Lemma width_fun t w w' : width ts t w -> width ts t w' -> w = w'.
Proof.
  intros [w1 I|n C S] [w2 I'|n' C' S'].
  - apply widths_fun in I as (-> & _). apply widths_fun in I' as (-> & _). reflexivity.
  - apply widths_fun in I as (_ & _ & K & _). congruence.
  - apply widths_fun in I' as (_ & _ & K & _). congruence.
  - congruence.
Qed.
Lemma width_bool t w : t = T_BOOL -> width ts t w -> w = 1.
Proof. intros -> [w1 I|n C S]; [apply widths_fun in I as (_ & _ & _ & B & _); auto | discriminate]. Qed.

(** a member on the way: known type of positive size, positive count; not so many BOOLs that the 8 bit counter overflows *)
Definition plain_member (base : Z) (x : cmember * Z * Z) : Prop := let '(m, p, l) := x in known (cm_type m) /\ 1 <= cm_count m < 2147483648 /\ needs ts m l /\ 0 < l /\ 0 <= p /\ base + p + l <= 2147483647 /\
  (cm_type m <> T_BOOL -> p mod 8 = 0).
Definition few_bools (x : cmember * Z * Z) : Prop := let '(m, _, _) := x in cm_type m = T_BOOL -> cm_count m <= 248.
Lemma seek_ok base nm m p l after : 0 <= base -> base mod 8 = 0 -> forall a pos cc h, packed pos (a ++ (m, p, l) :: after) -> Forall (plain_member base) a -> Forall few_bools a -> cm_name m = nm ->
  Forall (fun x => cm_name (fst (fst x)) <> nm) a -> mirror cc -> stands h (base + pos) ->
  exists cc' h', seek ts cc nm (map (fun x => fst (fst x)) (a ++ (m, p, l) :: after)) h = Done (cc', h', Some m) /\ mirror cc' /\ stands h' (base + ends pos a) /\ h_index h' = h_index h /\
    (if cm_type m =? T_BOOL then p = ends pos a else ends pos a <= p < ends pos a + 8).
Proof.
  intros Hb Hb8. induction a as [|[[x px] lx] a IH]; intros pos cc h P F B Nm D M S; cbn [app map fst seek packed ends] in *.
  - rewrite Nm. assert (Q : name_eqb nm nm = true) by (apply name_eqb_eq; reflexivity). rewrite Q. exists cc, h. split; [reflexivity|]. split; [exact M|]. split; [exact S|]. split; [reflexivity|]. destruct P as [P _]. exact P.
  - destruct P as [P1 P2]. assert (F1 := Forall_inv F). apply Forall_inv_tail in F. assert (B1 := Forall_inv B). apply Forall_inv_tail in B. assert (D1 := Forall_inv D). apply Forall_inv_tail in D.
    cbn [fst] in D1. destruct (name_eqb nm (cm_name x)) eqn:Q; [apply name_eqb_eq in Q; congruence|]. destruct F1 as (K & C & Nd & Lp & Pp & Bd & Al). cbn in B1. destruct S as (S1 & S2 & S3 & S4).
    destruct (needs_width _ _ Nd) as (w & Wd & El). destruct (cm_type x =? T_BOOL) eqn:T.
    + assert (Tb : cm_type x = T_BOOL) by lia. specialize (B1 Tb). rewrite (width_bool _ _ Tb Wd) in El. cbv zeta.
      assert (U : u8 (h_bit h + cm_count x) = h_bit h + cm_count x) by (unfold u8; rewrite Z.mod_small; lia). rewrite U.
      match goal with |- context [seek ts cc nm _ ?h1] => assert (S' : stands h1 (base + (px + lx))); [|destruct (IH (px + lx) cc h1 P2 F B Nm D M S') as (cc' & h' & E & M' & S'' & Ix & Pm)] end.
      { destruct (7 <? h_bit h + cm_count x) eqn:G; apply stands_at; try lia.
        - unfold u32. rewrite Z.mod_small by lia. lia.
        - unfold u32. rewrite Z.mod_small by lia. lia. }
      exists cc', h'. split; [exact E|]. split; [exact M'|]. split; [exact S''|]. split; [rewrite Ix; destruct (7 <? _); reflexivity | exact Pm].
    + cbv zeta. assert (Nb : cm_type x <> T_BOOL) by lia. specialize (Al Nb). assert (Wp : 0 < w) by nia.
      destruct (client_size _ _ cc K Wd Nb Wp M) as (n & cc1 & E1 & M1 & Ew & Pn). rewrite E1. cbn [rbind].
      assert (El' : lx = 8 * (n * cm_count x)) by lia. clear El. rewrite cint_ok by lia. cbn [rbind].
      assert (Nx : 8 * (if (h_type h =? T_BOOL) && (0 <? h_bit h) then u32 (h_byte h + 1) else h_byte h) = base + px).
      { destruct (h_type h =? T_BOOL) eqn:G; destruct (0 <? h_bit h) eqn:G2; cbn [andb]; try lia.
        - unfold u32. rewrite Z.mod_small by lia. lia. }
      match goal with |- context [seek ts cc1 nm _ ?h1] => assert (S' : stands h1 (base + (px + lx))); [|destruct (IH (px + lx) cc1 h1 P2 F B Nm D M1 S') as (cc' & h' & E & M' & S'' & Ix & Pm)] end.
      { revert Nx. generalize (if (h_type h =? T_BOOL) && (0 <? h_bit h) then u32 (h_byte h + 1) else h_byte h). intros b Nx.
        apply stands_at; try lia; unfold u32; rewrite Z.mod_small by lia; lia. }
      exists cc', h'. split; [exact E|]. split; [exact M'|]. split; [exact S''|]. split; [rewrite Ix; reflexivity | exact Pm].
Qed.

Lemma members_positive k : forall ms pos e, members_bits (type_size_f k ts) ms pos = Done e -> Forall (fun m => is_custom (cm_type m) = true -> exists n, type_size_f k ts (cm_type m) = Done n /\ 0 < n) ms.
Proof.
  induction ms as [|m ms IH]; intros pos e H; [constructor|]. cbn [members_bits] in H. destruct (cm_type m =? T_BOOL) eqn:B.
  - constructor; [|eapply IH; exact H]. intros C. replace (cm_type m) with T_BOOL in C by lia. discriminate.
  - cbv zeta in H. destruct (is_custom (cm_type m)) eqn:C.
    + apply rbind_done in H as (z & Hz & H). destruct (0 <? z) eqn:Zp; [|discriminate]. constructor; [intros _; exists z; split; [exact Hz | lia] | eapply IH; exact H].
    + constructor; [intros K; congruence | eapply IH; exact H].
Qed.
Lemma type_facts i c size : znth ts i = Some c -> type_size ts (cdt_type i) = Done size -> 0 <= size -> forall m, In m (c_members c) ->
  known (cm_type m) /\ 1 <= cm_count m < 2147483648 /\ forall w, width ts (cm_type m) w -> 0 < w.
Proof.
  intros Z H Sz m I. assert (R := znth_range _ _ _ Z). destruct (custom_type i ltac:(lia)) as [C1 C2]. assert (T := wf_type _ W _ _ Z).
  assert (Mk := ty_members _ _ T). rewrite Forall_forall in Mk. destruct (Mk m I) as (_ & _ & K). split; [destruct K as [K|(j & Hj & K)]; [left; exact K | right; exists j; split; [lia | exact K]]|].
  split; [eapply rg_count; eassumption|]. intros w [w1 In1|n Cu Ts]; [apply widths_fun in In1; tauto|].
  unfold type_size in H. cbn [type_size_f] in H. destruct (negb (checktype ts (cdt_type i))); [injection H as <-; unfold E_NOTFOUND in Sz; lia|]. rewrite C1, C2, Z in H.
  apply rbind_done in H as (e & He & _). apply members_positive in He. rewrite Forall_forall in He. destruct (He m I Cu) as (n' & Hn & Pn). apply size_f_more in Hn. unfold type_size in Ts. assert (n = n') by congruence. lia.
Qed.
Definition at_member (t : Z) (before : placement) (m : cmember) (p : Z) : Prop :=
  exists c i size pl l after, t = cdt_type i /\ znth ts i = Some c /\ type_size ts t = Done size /\ layout ts (c_members c) size pl /\ packed 0 pl /\ pl = before ++ (m, p, l) :: after.
Lemma member_facts base t a m p size0 : at_member t a m p -> type_size ts t = Done size0 -> base + 8 * size0 <= 2147483647 ->
  exists c i l after, t = cdt_type i /\ znth ts i = Some c /\ c_members c = map (fun x => fst (fst x)) (a ++ (m, p, l) :: after) /\ packed 0 (a ++ (m, p, l) :: after) /\
    Forall (plain_member base) a /\ plain_member base (m, p, l) /\ p + l <= 8 * size0 /\ Forall (fun x => cm_name (fst (fst x)) <> cm_name m) a.
Proof.
  intros (c & i & size & pl & l & after & -> & Z & Ts & (Sz & Mp & Al & Od) & Pk & ->) Ts0 Sm. assert (size = size0) by congruence. subst size0. exists c, i, l, after. split; [reflexivity|]. split; [exact Z|]. split; [symmetry; exact Mp|]. split; [exact Pk|].
  assert (G : Forall (plain_member base) (a ++ (m, p, l) :: after)).
  { rewrite Forall_forall in Al |- *. intros [[m1 p1] l1] I. destruct (Al _ I) as (Nd & P1 & B1 & A1).
    assert (Im : In m1 (c_members c)) by (rewrite <- Mp; exact (in_map (fun x => fst (fst x)) _ _ I)).
    destruct (type_facts _ _ _ Z Ts Sz m1 Im) as (K & C & Wp). destruct (needs_width _ _ Nd) as (w & Wd & El). specialize (Wp w Wd).
    split; [exact K|]. split; [exact C|]. split; [exact Nd|]. split; [nia|]. split; [exact P1|]. split; [lia | exact A1]. }
  rewrite Forall_app in G, Al. destruct G as [G1 G2]. destruct Al as [_ Al]. split; [exact G1|]. split; [exact (Forall_inv G2)|]. split; [apply Forall_inv in Al; cbn in Al; tauto|].
  assert (Nd := ty_distinct _ _ (wf_type _ W _ _ Z)). rewrite <- Mp, map_map, map_app in Nd. cbn [map fst] in Nd. apply NoDup_remove_2 in Nd. rewrite Forall_forall. intros x I Q. apply Nd, in_or_app. left.
  apply in_map_iff. exists x. split; [rewrite Q; reflexivity | exact I].
Qed.

(** how many elements and how many bytes a path with the requested [count] covers *)
Definition howmany (g : seg) (m : cmember) (count : Z) : Z := if count =? 0 then match sg_at g with Some _ => 1 | None => cm_count m end else count.
Definition covers (q w cnt : Z) : Z := (q + w * cnt - 1) / 8 - q / 8 + 1.
Lemma index_neq g : 0 <= idx g -> (sg_at g = None -> index_of g = E_NOTFOUND /\ idx g = 0) /\ (forall i, sg_at g = Some i -> index_of g = i /\ idx g = i /\ (i =? E_NOTFOUND) = false).
Proof. intros H. unfold idx, index_of in *. split; [intros E; rewrite E; auto | intros i E; rewrite E in *; unfold E_NOTFOUND; repeat split; lia]. Qed.
Lemma bit_bytes_ok b n : 0 <= b < 256 -> 1 <= n -> b + n <= 2147483648 -> bit_bytes b n = Done ((b + n - 1) / 8 - b / 8 + 1).
Proof. intros H1 H2 H3. unfold bit_bytes. rewrite cint_ok by lia. cbn [rbind]. rewrite Z.quot_div_nonneg by lia. unfold u32. rewrite Z.mod_small by lia. reflexivity. Qed.
Lemma last_ok base cc h m g count P p l w : 0 <= base -> base mod 8 = 0 ->
  plain_member base (m, p, l) -> stands h (base + P) -> (if cm_type m =? T_BOOL then p = P else P <= p < P + 8) -> width ts (cm_type m) w -> 0 <= idx g -> 0 <= count ->
  idx g + howmany g m count <= cm_count m -> mirror cc ->
  exists cc' h', last_item ts cc h m (index_of g) count = Done (cc', inl h') /\ mirror cc' /\ h_index h' = h_index h /\ h_type h' = cm_type m /\
    8 * h_byte h' + h_bit h' = base + p + w * idx g /\ 0 <= h_bit h' /\ (h_bit h' < 8 \/ cm_type m = T_BOOL /\ sg_at g <> None /\ h_bit h' = p mod 8 + idx g mod 8) /\ 0 <= h_byte h' /\
    h_count h' = howmany g m count /\ h_size h' = covers (p + w * idx g) w (howmany g m count).
Proof.
  intros Hb Hb8 (K & C & Nd & Lp & Pp & Bd & Al) (S1 & S2 & S3 & S4) Pm Wd I0 C0 Fit M. destruct (index_neq g I0) as [IN IS].
  destruct (needs_width _ _ Nd) as (w' & Wd' & El). assert (w' = w) by (eapply width_fun; eassumption). subst w'. unfold last_item.
  assert (Hm : 1 <= howmany g m count) by (unfold howmany in *; destruct (count =? 0) eqn:Q; [destruct (sg_at g) eqn:Sg; [|lia] | lia]; lia).
  destruct (cm_type m =? T_BOOL) eqn:T; cbn [negb]; rewrite ?andb_false_r, ?andb_true_r; cbn [andb]; cbv zeta.
  - assert (Tb : cm_type m = T_BOOL) by lia. assert (w = 1) by (eapply width_bool; eassumption). subst w.
    destruct (sg_at g) as [i|] eqn:Sg.
    + destruct (IS i eq_refl) as (-> & Ei & Ne). rewrite Ne. cbn [negb]. set (cnt := if count =? 0 then 1 else count).
      assert (Ec : cnt = howmany g m count) by (unfold howmany, cnt; rewrite Sg; reflexivity). rewrite <- Ec in *. rewrite Ei in *.
      rewrite cint_ok by lia. cbn [rbind]. replace (cm_count m <? i + cnt) with false by lia. cbn [of_type at_pos h_byte h_bit].
      assert (Ub : u8 (h_bit h + i mod 8) = h_bit h + i mod 8) by (unfold u8; rewrite Z.mod_small by lia; reflexivity).
      assert (Uy : u32 (h_byte h + i / 8) = h_byte h + i / 8) by (unfold u32; rewrite Z.mod_small by lia; reflexivity). rewrite Ub, Uy.
      rewrite bit_bytes_ok by lia. cbn [rbind]. do 2 eexists. split; [reflexivity|]. split; [exact M|]. cbn [extent at_pos of_type h_index h_byte h_bit h_type h_count h_size].
      split; [reflexivity|]. split; [reflexivity|]. split; [lia|]. split; [lia|]. split; [right; split; [exact Tb|]; split; [congruence | lia]|]. split; [lia|]. split; [unfold u32; rewrite Z.mod_small by lia; reflexivity|].
      unfold covers, u32. rewrite Z.mod_small by lia. lia.
    + destruct (IN eq_refl) as [-> E0]. cbn [Z.eqb E_NOTFOUND Pos.eqb negb]. set (cnt := if count =? 0 then cm_count m else count).
      assert (Ec : cnt = howmany g m count) by (unfold howmany, cnt; rewrite Sg; reflexivity). rewrite <- Ec in *. rewrite E0 in *.
      replace (cm_count m <? count) with false by (unfold cnt in *; destruct (count =? 0) eqn:Q; lia). cbn [of_type h_bit].
      rewrite bit_bytes_ok by lia. cbn [rbind]. do 2 eexists. split; [reflexivity|]. split; [exact M|]. cbn [extent at_pos of_type h_index h_byte h_bit h_type h_count h_size].
      split; [reflexivity|]. split; [reflexivity|]. split; [lia|]. split; [lia|]. split; [left; lia|]. split; [lia|]. split; [unfold u32; rewrite Z.mod_small by lia; reflexivity|].
      unfold covers, u32. rewrite Z.mod_small by lia. lia.
  - assert (Nb : cm_type m <> T_BOOL) by lia. assert (Wp : 0 < w) by nia. specialize (Al Nb).
    destruct (client_size _ _ cc K Wd Nb Wp M) as (n & cc1 & E1 & M1 & Ew & Pn).
    set (h1 := if (h_type h =? T_BOOL) && (0 <? h_bit h) then at_pos h (u32 (h_byte h + 1)) 0 else h).
    assert (X : 8 * h_byte h1 = base + p /\ h_index h1 = h_index h).
    { unfold h1. destruct (h_type h =? T_BOOL) eqn:G; destruct (0 <? h_bit h) eqn:G2; cbn [andb at_pos h_byte h_index]; split; try reflexivity; try lia. unfold u32. rewrite Z.mod_small by lia. lia. }
    destruct X as [X1 X2]. clearbody h1. assert (Bn : n * cm_count m <= 268435455) by nia.
    assert (Cv : forall j cnt, 0 <= j -> 1 <= cnt -> covers (p + w * j) w cnt = n * cnt). { intros j cnt Hj Hc. unfold covers. rewrite Ew. assert (p = 8 * (p / 8)) by lia. replace (p + 8 * n * j + 8 * n * cnt - 1) with ((p / 8 + n * j + n * cnt - 1) * 8 + 7) by lia. replace (p + 8 * n * j) with ((p / 8 + n * j) * 8) by lia. rewrite Z.div_mul, Z.div_add_l by lia. change (7 / 8) with 0. lia. }
    destruct (sg_at g) as [i|] eqn:Sg.
    + destruct (IS i eq_refl) as (-> & Ei & Ne). rewrite Ne. cbn [negb]. set (cnt := if count =? 0 then 1 else count).
      assert (Ec : cnt = howmany g m count) by (unfold howmany, cnt; rewrite Sg; reflexivity). rewrite <- Ec in *. rewrite Ei in *.
      rewrite cint_ok by lia. cbn [rbind]. replace (cm_count m <? i + cnt) with false by lia. rewrite E1. cbn [rbind].
      assert (B1 : n * cnt <= n * cm_count m) by nia. assert (B2 : n * i <= n * cm_count m) by nia. assert (B3 : 0 <= n * i) by nia. assert (B4 : 0 < n * cnt) by nia.
      rewrite (cint_ok (n * cnt)) by lia. cbn [rbind]. rewrite cint_ok by lia. cbn [rbind].
      do 2 eexists. split; [reflexivity|]. split; [exact M1|]. cbn [extent at_pos of_type h_index h_byte h_bit h_type h_count h_size].
      assert (Uy : u32 (h_byte h1 + n * i) = h_byte h1 + n * i) by (unfold u32; rewrite Z.mod_small by lia; reflexivity). rewrite Uy.
      split; [exact X2|]. split; [reflexivity|]. split; [lia|]. split; [lia|]. split; [left; lia|]. split; [lia|]. split; [unfold u32; rewrite Z.mod_small by lia; reflexivity|].
      rewrite Cv by lia. unfold u32. rewrite Z.mod_small by lia. reflexivity.
    + destruct (IN eq_refl) as [-> E0]. cbn [Z.eqb E_NOTFOUND Pos.eqb negb]. set (cnt := if count =? 0 then cm_count m else count).
      assert (Ec : cnt = howmany g m count) by (unfold howmany, cnt; rewrite Sg; reflexivity). rewrite <- Ec in *. rewrite E0 in *.
      replace (cm_count m <? count) with false by (unfold cnt in *; destruct (count =? 0) eqn:Q; lia). rewrite E1. cbn [rbind].
      assert (B1 : n * cnt <= n * cm_count m) by nia. assert (B4 : 0 < n * cnt) by nia.
      rewrite (cint_ok (n * cnt)) by lia. cbn [rbind].
      do 2 eexists. split; [reflexivity|]. split; [exact M1|]. cbn [extent at_pos of_type h_index h_byte h_bit h_type h_count h_size].
      split; [exact X2|]. split; [reflexivity|]. split; [lia|]. split; [lia|]. split; [left; lia|]. split; [lia|]. split; [unfold u32; rewrite Z.mod_small by lia; reflexivity|].
      rewrite Cv by lia. unfold u32. rewrite Z.mod_small by lia. reflexivity.
Qed.
End Walk.

(** ** Whole paths *)
Definition last_walk (ks : list walk) : walk := last ks (mk_walk [] (mk_cm [] 0 0) 0 (mk_seg [] None)).
(** the elements asked for exist: the last item has [count] elements from its index on (all of them when [count] is 0 and there is no index) *)
Definition last_fits (ks : list walk) (count : Z) : Prop :=
  idx (wk_seg (last_walk ks)) + howmany (wk_seg (last_walk ks)) (wk_member (last_walk ks)) count <= cm_count (wk_member (last_walk ks)).
(** What the proof needs of the types on the way:
    no BOOL member with more than 248 elements comes before a member of the path (the bit counter has 8 bits);
    a member that is stepped into begins where the members before it end (otherwise the code forgets to align);
    the count asked for fits in the array of every member with an index on the way (the code compares it with each). *)
Fixpoint tame (count : Z) (ks : list walk) : Prop :=
  match ks with
  | [] => True
  | k :: r => seg_ok (wk_seg k) /\ Forall few_bools (wk_before k) /\
      (r <> [] -> ends 0 (wk_before k) mod 8 = 0 /\ (sg_at (wk_seg k) <> None -> idx (wk_seg k) + (if count =? 0 then 1 else count) <= cm_count (wk_member k))) /\ tame count r
  end.
Lemma member_at_in s t a m p : member_at s t a m p -> at_member (s_types s) t a m p.
Proof. intros (c & size & pl & l & af & (i & Et & Z) & H1 & H2 & H3 & H4). exists c, i, size, pl, l, af. auto 10. Qed.
Lemma leads_ok s (W : wf (s_types s)) (L : zlen (s_types s) <= 1073741824) (Rg : regular (s_types s)) : forall t ks q, leads s t ks q ->
  forall count g r base size0 cc h fuel, tame count ks -> last_fits ks count -> 0 <= count -> map wk_seg ks = g :: r -> type_size (s_types s) t = Done size0 ->
  base + 8 * size0 <= 2147483647 -> 0 <= base -> base mod 8 = 0 -> stands h base -> (length r < fuel)%nat -> mirrors (s_types s) cc ->
  exists cc' h', next_member fuel (s_types s) cc t h (show g r) count = Done (cc', inl h') /\ mirrors (s_types s) cc' /\ h_index h' = h_index h /\
    h_type h' = cm_type (wk_member (last_walk ks)) /\ 8 * h_byte h' + h_bit h' = base + q /\ 0 <= h_bit h' /\ 0 <= h_byte h' /\ 0 <= q <= 8 * size0 /\
    (h_bit h' < 8 \/ cm_type (wk_member (last_walk ks)) = T_BOOL /\ sg_at (wk_seg (last_walk ks)) <> None /\ h_bit h' = wk_pos (last_walk ks) mod 8 + idx (wk_seg (last_walk ks)) mod 8) /\
    h_count h' = howmany (wk_seg (last_walk ks)) (wk_member (last_walk ks)) count /\
    forall w, width (s_types s) (cm_type (wk_member (last_walk ks))) w -> h_size h' = covers q w (howmany (wk_seg (last_walk ks)) (wk_member (last_walk ks)) count).
Proof.
  set (ts := s_types s) in *. induction 1 as [t k w MA Nm Wd|t k w ks q MA Nm Wd Ix Ld IH]; intros count g r base size0 cc h fuel Tm Lf C0 Mp Ts Bd B0 B8 St Fu Mi.
  - cbn [map] in Mp. injection Mp as <- <-. destruct fuel as [|fuel]; [lia|]. cbn [tame] in Tm. destruct Tm as (Sk & Fb & _). unfold last_fits in Lf. change (last_walk [k]) with k in *.
    destruct (member_facts ts W L Rg base t _ _ _ size0 (member_at_in _ _ _ _ _ MA) Ts Bd) as (c & i & l & af & Et & Zi & Mb & Pk & Fa & Pm & Bl & Nms).
    cbn [next_member]. rewrite split_show by exact Sk. rewrite get_index_show by exact Sk. cbn iota. destruct Sk as [Sv Si].
    assert (Neg : (index_of (wk_seg k) <? 0) && negb (index_of (wk_seg k) =? E_NOTFOUND) = false) by (unfold index_of, idx in *; destruct (sg_at (wk_seg k)) as [z|]; [replace (z <? 0) with false by lia|]; reflexivity).
    rewrite Neg. rewrite Et. destruct (mirror_slot ts W L Rg cc i c Mi Zi) as (cc1 & E1 & M1 & Hs & Zs). rewrite E1. cbn [rbind].
    assert (Ri := znth_range _ _ _ Zi). destruct (custom_type i ltac:(lia)) as [C1 C2]. rewrite C2, Zs. unfold holds in Hs. rewrite Hs. cbn [cs_members]. rewrite Mb.
    assert (S0 : stands h (base + 0)) by (rewrite Z.add_0_r; exact St). rewrite <- Nm.
    destruct (seek_ok ts W L Rg base (cm_name (wk_member k)) (wk_member k) (wk_pos k) l af B0 B8 (wk_before k) 0 cc1 h Pk Fa Fb eq_refl Nms M1 S0) as (cc2 & h2 & E2 & M2 & S2 & X2 & P2).
    rewrite E2. cbn [rbind]. destruct (last_ok ts W L Rg base cc2 h2 (wk_member k) (wk_seg k) count (ends 0 (wk_before k)) (wk_pos k) l w B0 B8 Pm S2 P2 Wd ltac:(lia) C0 Lf M2) as (cc3 & h3 & E3 & M3 & A1 & A2 & A3 & A4 & A5 & A6 & A7 & A8).
    exists cc3, h3. split; [exact E3|]. split; [exact M3|]. split; [congruence|]. split; [exact A2|]. split; [lia|]. split; [exact A4|]. split; [exact A6|].
    split.
    { destruct Pm as (_ & Cn & Nd & Lp & Pp & _). destruct (needs_width _ _ _ Nd) as (w' & Wd' & El). assert (w' = w) by (eapply width_fun; eassumption). subst w'.
      assert (0 < w) by nia. assert (1 <= howmany (wk_seg k) (wk_member k) count) by (unfold howmany; destruct (count =? 0) eqn:Q; [destruct (sg_at _)|]; lia). nia. }
    split; [exact A5|]. split; [exact A7|]. intros w' Wd'. assert (w' = w) by (eapply width_fun; eassumption). subst w'. exact A8.
  - destruct fuel as [|fuel]; [cbn in Fu; lia|]. assert (Nk : ks <> []) by (inversion Ld; discriminate).
    cbn [map] in Mp. injection Mp as <- <-. cbn [tame] in Tm. destruct Tm as (Sk & Fb & Fl & Tm). destruct (Fl Nk) as [Flush Cn]. clear Fl.
    destruct (member_facts ts W L Rg base t _ _ _ size0 (member_at_in _ _ _ _ _ MA) Ts Bd) as (c & i & l & af & Et & Zi & Mb & Pk & Fa & Pm & Bl & Nms).
    assert (Lw : last_walk (k :: ks) = last_walk ks) by (unfold last_walk; destruct ks; [congruence | reflexivity]). unfold last_fits in Lf. rewrite Lw in *.
    destruct ks as [|k2 ks]; [congruence|]. set (kk := k2 :: ks) in *. assert (Mk : map wk_seg kk = wk_seg k2 :: map wk_seg ks) by reflexivity. rewrite Mk in *.
    assert (S2k : seg_ok (wk_seg k2)) by (unfold kk in Tm; cbn [tame] in Tm; tauto).
    cbn [next_member]. rewrite split_show by exact Sk. rewrite get_index_show by exact Sk. cbn iota. destruct Sk as [Sv Si].
    assert (Neg : (index_of (wk_seg k) <? 0) && negb (index_of (wk_seg k) =? E_NOTFOUND) = false) by (unfold index_of, idx in *; destruct (sg_at (wk_seg k)) as [z|]; [replace (z <? 0) with false by lia|]; reflexivity).
    rewrite Neg. rewrite Et. destruct (mirror_slot ts W L Rg cc i c Mi Zi) as (cc1 & E1 & M1 & Hs & Zs). rewrite E1. cbn [rbind].
    assert (Ri := znth_range _ _ _ Zi). destruct (custom_type i ltac:(lia)) as [C1 C2]. rewrite C2, Zs. unfold holds in Hs. rewrite Hs. cbn [cs_members]. rewrite Mb.
    assert (S0 : stands h (base + 0)) by (rewrite Z.add_0_r; exact St). rewrite <- Nm.
    destruct (seek_ok ts W L Rg base (cm_name (wk_member k)) (wk_member k) (wk_pos k) l af B0 B8 (wk_before k) 0 cc1 h Pk Fa Fb eq_refl Nms M1 S0) as (cc2 & h2 & E2 & M2 & S2 & X2 & P2).
    rewrite E2. cbn [rbind]. rewrite show_first by exact S2k.
    (* the inner type *)
    assert (Cu : is_custom (cm_type (wk_member k)) = true /\ cm_type (wk_member k) <> T_BOOL).
    { assert (exists j c', cm_type (wk_member k) = cdt_type j /\ znth ts j = Some c') as (j & c' & Ej & Zj) by (inversion Ld as [? ? ? (c' & ? & ? & ? & ? & (j & Ej & Zj) & _)|? ? ? ? ? (c' & ? & ? & ? & ? & (j & Ej & Zj) & _)]; subst; exists j, c'; auto).
      assert (Rj := znth_range _ _ _ Zj). assert (Cj : is_custom (cdt_type j) = true) by (apply custom_type; lia). rewrite Ej. split; [exact Cj|]. intros Q. rewrite Q in Cj. discriminate. }
    destruct Cu as [Cu Nb]. assert (exists n, w = 8 * n /\ type_size ts (cm_type (wk_member k)) = Done n) as (n & Ew & Tn).
    { destruct Wd as [w I|n _ Tn]; [apply widths_fun in I as (_ & _ & I & _); congruence | exists n; auto]. }
    replace (cm_type (wk_member k) =? T_BOOL) with false in P2 by lia.
    assert (Pl := Pm). destruct Pl as (Kn & Cc & Nd & Lp & Pp & Bp & Al). specialize (Al Nb). assert (Ep : ends 0 (wk_before k) = wk_pos k) by lia. rewrite Ep in *.
    destruct (needs_width _ _ _ Nd) as (w' & Wd' & El). assert (w' = w) by (eapply width_fun; [exact Wd' | exact Wd]). subst w'.
    assert (Wp : 0 < w) by nia. assert (Wi : w * idx (wk_seg k) + w <= l) by nia. assert (Wi0 : 0 <= w * idx (wk_seg k)) by nia.
    destruct (IH count (wk_seg k2) (map wk_seg ks) (base + wk_pos k) n cc2 h2 fuel Tm Lf C0 eq_refl Tn ltac:(lia) ltac:(lia) ltac:(lia) S2 ltac:(cbn [length] in Fu; lia) M2) as (cc3 & h3 & E3 & M3 & A1 & A2 & A3 & A4 & A5 & A6 & A7 & A8 & A9).
    rewrite E3. cbn [rbind].
    assert (Cv : forall w2, covers (wk_pos k + w * idx (wk_seg k) + q) w2 (howmany (wk_seg (last_walk kk)) (wk_member (last_walk kk)) count) = covers q w2 (howmany (wk_seg (last_walk kk)) (wk_member (last_walk kk)) count)).
    { intros w2. unfold covers. generalize (w2 * howmany (wk_seg (last_walk kk)) (wk_member (last_walk kk)) count). intros z. assert (Y : wk_pos k + w * idx (wk_seg k) = (wk_pos k / 8 + n * idx (wk_seg k)) * 8) by (rewrite Ew; lia).
      rewrite Y. generalize (wk_pos k / 8 + n * idx (wk_seg k)). intros y. replace (y * 8 + q + z - 1) with (y * 8 + (q + z - 1)) by lia. rewrite !Z.div_add_l by lia. lia. }
    destruct (index_neq (wk_seg k) ltac:(lia)) as [IN IS]. destruct (sg_at (wk_seg k)) as [ii|] eqn:Sg.
    + destruct (IS ii eq_refl) as (-> & Ei & Ne). rewrite Ne. specialize (Cn ltac:(discriminate)). rewrite Ei in *. assert (Bi : (if count =? 0 then 1 else count) >= 1) by (destruct (count =? 0) eqn:Q; lia).
      cbv zeta. rewrite cint_ok by lia. cbn [rbind]. replace (cm_count (wk_member k) <? ii + (if count =? 0 then 1 else count)) with false by lia.
      destruct (client_size ts W L Rg _ _ cc3 Kn Wd Nb Wp M3) as (n' & cc4 & E4 & M4 & Ew' & Pn). assert (n' = n) by lia. subst n'. rewrite E4. cbn [rbind].
      rewrite cint_ok by lia. cbn [rbind]. do 2 eexists. split; [reflexivity|]. split; [exact M4|]. cbn [at_pos h_index h_type h_byte h_bit h_count h_size].
      split; [congruence|]. split; [exact A2|]. assert (Uy : u32 (h_byte h3 + n * ii) = h_byte h3 + n * ii) by (unfold u32; rewrite Z.mod_small by lia; reflexivity). rewrite Uy.
      split; [lia|]. split; [exact A4|]. split; [lia|]. split; [lia|]. split; [exact A7|]. split; [exact A8|]. intros w2 Wd2. rewrite Cv. apply A9. exact Wd2.
    + destruct (IN eq_refl) as [-> E0]. cbn [Z.eqb E_NOTFOUND Pos.eqb]. rewrite E0 in *. exists cc3, h3. split; [reflexivity|]. split; [exact M3|].
      split; [congruence|]. split; [exact A2|]. split; [lia|]. split; [exact A4|]. split; [exact A5|]. split; [lia|]. split; [exact A7|]. split; [exact A8|]. intros w2 Wd2. rewrite Cv. apply A9. exact Wd2.
Qed.

(** ** C49 *)
Lemma agrees_mirrors s cc : agrees s cc <-> mirrors (s_types s) cc.
Proof. reflexivity. Qed.
(** what a handle says: tag, type, first bit, number of elements and of bytes.  The bit number is below 8, except
    for an indexed BOOL member that does not begin on a byte boundary. *)
Definition points (h : handle) (tag : ctag) (t q w cnt : Z) : Prop :=
  h_index h = ct_idx tag /\ h_type h = t /\ 8 * h_byte h + h_bit h = q /\ 0 <= h_bit h /\ 0 <= h_byte h /\ h_count h = cnt /\ h_size h = covers q w cnt.
(** A path tag.member.member... designates the place where the layout of C37 puts that element. *)
Theorem C49_member_partial : forall E s cc db tg tag ks q w count size,
  reachable E s -> few s -> readable s -> agrees s cc -> seg_ok tg -> db (sg_name tg) = Some tag ->
  match sg_at tg with Some i => i < ct_count tag | None => ct_count tag <= 1 end ->
  leads s (ct_type tag) ks q -> width (s_types s) (cm_type (wk_member (last_walk ks))) w -> 0 <= count -> last_fits ks count -> tame count ks ->
  type_size (s_types s) (ct_type tag) = Done size -> 8 * size * Z.max 1 (ct_count tag) <= 2147483647 ->
  exists cc' h, tag_handle (s_types s) db cc (show tg (map wk_seg ks)) count = Done (cc', inl h) /\ agrees s cc' /\
    points h tag (cm_type (wk_member (last_walk ks))) (8 * size * idx tg + q) w (howmany (wk_seg (last_walk ks)) (wk_member (last_walk ks)) count) /\
    (h_bit h < 8 \/ cm_type (wk_member (last_walk ks)) = T_BOOL /\ sg_at (wk_seg (last_walk ks)) <> None /\ wk_pos (last_walk ks) mod 8 <> 0).
Proof.
  intros E s cc db tg tag ks q w count size R Fw Rd A So Db Ti Ld Wd C0 Lf Tm Ts Bd. assert (W := reachable_wf _ _ R). assert (Rg := readable_regular _ Rd). unfold few in Fw. rewrite agrees_mirrors in A.
  assert (exists i c, ct_type tag = cdt_type i /\ znth (s_types s) i = Some c) as (i & c & Et & Zi) by (inversion Ld as [? ? ? (c' & ? & ? & ? & ? & (j & Ej & Zj) & _)|? ? ? ? ? (c' & ? & ? & ? & ? & (j & Ej & Zj) & _)]; subst; exists j, c'; auto).
  assert (Ri := znth_range _ _ _ Zi). assert (Cu : is_custom (ct_type tag) = true) by (rewrite Et; apply custom_type; lia).
  destruct ks as [|k ks]; [inversion Ld|]. assert (Sk : seg_ok (wk_seg k)) by (cbn [tame] in Tm; tauto).
  assert (S0 : stands (mk_h (ct_idx tag) 0 0 0 0 0) 0) by (repeat split; cbn; lia).
  destruct (leads_ok s W ltac:(lia) Rg _ _ _ Ld count (wk_seg k) (map wk_seg ks) 0 size cc (mk_h (ct_idx tag) 0 0 0 0 0) (S (length (show (wk_seg k) (map wk_seg ks)))) Tm Lf C0 eq_refl Ts ltac:(nia) ltac:(lia) eq_refl S0
    ltac:(assert (Q := show_len (wk_seg k) (map wk_seg ks)); lia) A) as (cc1 & h1 & E1 & M1 & A1 & A2 & A3 & A4 & A5 & A6 & A7 & A8 & A9).
  unfold tag_handle. change (map wk_seg (k :: ks)) with (wk_seg k :: map wk_seg ks). rewrite split_show, get_index_show by exact So. cbn iota. rewrite Db. destruct So as [Sv Si].
  assert (Neg : (index_of tg <? 0) && negb (index_of tg =? E_NOTFOUND) = false) by (unfold index_of, idx in *; destruct (sg_at tg) as [z|]; [replace (z <? 0) with false by lia|]; reflexivity).
  rewrite Neg, show_first by exact Sk. rewrite Cu. cbn [negb].
  assert (Am : (1 <? ct_count tag) && (index_of tg =? E_NOTFOUND) = false) by (unfold index_of, idx in *; destruct (sg_at tg) as [z|]; [replace (z =? E_NOTFOUND) with false by (unfold E_NOTFOUND; lia); apply andb_false_r | replace (1 <? ct_count tag) with false by lia; reflexivity]).
  rewrite Am, E1. cbn [rbind]. set (lw := last_walk (k :: ks)) in *. set (cnt := howmany (wk_seg lw) (wk_member lw) count) in *.
  assert (Bt : h_bit h1 < 8 \/ cm_type (wk_member lw) = T_BOOL /\ sg_at (wk_seg lw) <> None /\ wk_pos lw mod 8 <> 0).
  { destruct A7 as [A7|(B1 & B2 & B3)]; [auto|]. destruct (Z.eq_dec (wk_pos lw mod 8) 0) as [Q|Q]; [left; rewrite B3, Q; lia | right; auto]. }
  destruct (index_neq tg ltac:(lia)) as [IN IS]. destruct (sg_at tg) as [ii|] eqn:Sg.
  - destruct (IS ii eq_refl) as (-> & Ei & Ne). rewrite Ne. rewrite Ei in *. assert (Sz : 0 < size \/ size = 0) by lia.
    destruct Sz as [Sz|Sz].
    + destruct (sizes_agree (s_types s) W ltac:(lia) Rg (S (length (s_types s))) (ct_type tag) size cc1 ltac:(right; exists i; auto) Ts Sz M1) as (cc2 & E2 & M2).
      unfold dax_get_typesize. rewrite E2. cbn [rbind]. assert (B1 : size * ii <= 268435455) by nia. assert (B2 : 0 <= size * ii) by nia. rewrite cint_ok by lia. cbn [rbind].
      do 2 eexists. split; [reflexivity|]. split; [exact M2|]. split; [|exact Bt]. unfold points. cbn [at_pos h_index h_type h_byte h_bit h_count h_size].
      assert (Uy : u32 (h_byte h1 + size * ii) = h_byte h1 + size * ii) by (unfold u32; rewrite Z.mod_small by nia; reflexivity). rewrite Uy.
      split; [exact A1|]. split; [exact A2|]. split; [lia|]. split; [exact A4|]. split; [lia|]. split; [exact A8|]. rewrite (A9 w Wd). unfold covers.
      replace (8 * size * ii + q + w * cnt - 1) with (size * ii * 8 + (q + w * cnt - 1)) by lia. replace (8 * size * ii + q) with (size * ii * 8 + q) by lia. rewrite !Z.div_add_l by lia. lia.
    + exfalso. inversion Ld as [? ? ? MA|? ? ? ? ? MA]; subst; destruct (member_facts _ W ltac:(lia) Rg 0 _ _ _ _ _ (member_at_in _ _ _ _ _ MA) Ts ltac:(lia)) as (? & ? & l & ? & _ & _ & _ & _ & _ & (_ & _ & _ & Lp & Pp & _) & Bl & _); lia.
  - destruct (IN eq_refl) as [-> E0]. cbn [Z.eqb E_NOTFOUND Pos.eqb]. rewrite E0 in *. replace (8 * size * 0 + q) with q by lia. exists cc1, h1. split; [reflexivity|]. split; [exact M1|]. split; [|exact Bt].
    unfold points. cbn [h_index] in A1. split; [exact A1|]. split; [exact A2|]. split; [lia|]. split; [exact A4|]. split; [exact A5|]. split; [exact A8|]. exact (A9 w Wd).
Qed.
(** A tag without members, or an element of it. *)
Theorem C49_tag : forall E s cc db tg tag w count,
  reachable E s -> few s -> readable s -> agrees s cc -> seg_ok tg -> db (sg_name tg) = Some tag ->
  (In (ct_type tag) base_types \/ exists c, denotes s (ct_type tag) c) -> width (s_types s) (ct_type tag) w -> 0 < w -> 1 <= ct_count tag -> w * ct_count tag <= 2147483640 ->
  0 <= count -> idx tg + howmany tg (mk_cm [] 0 (ct_count tag)) count <= ct_count tag ->
  exists cc' h, tag_handle (s_types s) db cc (show tg []) count = Done (cc', inl h) /\ agrees s cc' /\ h_bit h < 8 /\
    points h tag (ct_type tag) (w * idx tg) w (howmany tg (mk_cm [] 0 (ct_count tag)) count).
Proof.
  intros E s cc db tg tag w count R Fw Rd A So Db Ty Wd Wp Ct Bd C0 Fit. assert (W := reachable_wf _ _ R). assert (Rg := readable_regular _ Rd). unfold few in Fw. rewrite agrees_mirrors in A.
  assert (Kn : known (s_types s) (ct_type tag)) by (destruct Ty as [B|(c & i & Ei & Z)]; [left; exact B | right; exists i; split; [exact (znth_range _ _ _ Z) | exact Ei]]).
  unfold tag_handle. rewrite split_show, get_index_show by exact So. cbn iota. rewrite Db. destruct So as [Sv Si].
  assert (Neg : (index_of tg <? 0) && negb (index_of tg =? E_NOTFOUND) = false) by (unfold index_of, idx in *; destruct (sg_at tg) as [z|]; [replace (z <? 0) with false by lia|]; reflexivity).
  rewrite Neg. unfold whole_tag. destruct (index_neq tg ltac:(lia)) as [IN IS]. cbn [cm_count] in *.
  assert (B1 : ct_count tag <= 2147483640) by nia.
  assert (Cv : forall n j cnt, w = 8 * n -> covers (w * j) w cnt = n * cnt).
  { intros n j cnt ->. unfold covers. replace (8 * n * j + 8 * n * cnt - 1) with ((n * j + n * cnt - 1) * 8 + 7) by lia. replace (8 * n * j) with (n * j * 8) by lia. rewrite Z.div_mul, Z.div_add_l by lia. change (7 / 8) with 0. lia. }
  unfold howmany in *. cbn [cm_count] in *. destruct (sg_at tg) as [ii|] eqn:Sg.
  - destruct (IS ii eq_refl) as (-> & Ei & Ne). rewrite Ne. cbn [negb]. rewrite Ei in *. set (cnt := if count =? 0 then 1 else count) in *. assert (Cp : 1 <= cnt) by (unfold cnt; destruct (count =? 0) eqn:Q; lia).
    rewrite cint_ok by lia. cbn [rbind]. assert (Ue : u32 (ii + cnt) = ii + cnt) by (unfold u32; rewrite Z.mod_small by lia; reflexivity). rewrite Ue. replace (ct_count tag <? ii + cnt) with false by lia.
    destruct (ct_type tag =? T_BOOL) eqn:T.
    + assert (w = 1) by (eapply width_bool; [|exact Wd]; lia). subst w. rewrite bit_bytes_ok by lia. cbn [rbind]. do 2 eexists. split; [reflexivity|]. split; [exact A|].
      unfold points. cbn [extent at_pos h_index h_type h_byte h_bit h_count h_size]. split; [lia|]. split; [reflexivity|]. split; [reflexivity|]. split; [lia|]. split; [lia|]. split; [lia|].
      split; [unfold u32; rewrite Z.mod_small by lia; reflexivity|]. unfold covers, u32. rewrite Z.mod_small by lia. lia.
    + destruct (client_size _ W ltac:(lia) Rg _ _ cc Kn Wd ltac:(lia) Wp A) as (n & cc1 & E1 & M1 & Ew & Pn). rewrite E1. cbn [rbind]. assert (X1 : n * cnt <= 268435455) by nia. assert (X2 : n * ii <= 268435455) by nia. assert (X3 : 0 < n * cnt) by nia. assert (X4 : 0 <= n * ii) by nia.
      rewrite (cint_ok (n * cnt)) by lia. cbn [rbind]. rewrite cint_ok by lia. cbn [rbind]. do 2 eexists. split; [reflexivity|]. split; [exact M1|].
      unfold points. cbn [extent at_pos h_index h_type h_byte h_bit h_count h_size]. assert (Uy : u32 (n * ii) = n * ii) by (unfold u32; rewrite Z.mod_small by lia; reflexivity). rewrite Uy.
      split; [lia|]. split; [reflexivity|]. split; [reflexivity|]. split; [lia|]. split; [lia|]. split; [lia|]. split; [unfold u32; rewrite Z.mod_small by lia; reflexivity|]. rewrite (Cv n) by exact Ew. unfold u32. rewrite Z.mod_small by lia. reflexivity.
  - destruct (IN eq_refl) as [-> E0]. cbn [Z.eqb E_NOTFOUND Pos.eqb negb]. rewrite E0 in *. assert (Uc : u32 count = count) by (unfold u32; rewrite Z.mod_small; [reflexivity|]; destruct (count =? 0) eqn:Q; lia). rewrite Uc.
    replace (ct_count tag <? count) with false by (destruct (count =? 0) eqn:Q; lia).
    assert (Sc : s32 (ct_count tag) = ct_count tag) by (unfold s32; cbv zeta; rewrite Z.mod_small by lia; replace (ct_count tag <? 2147483648) with true by lia; reflexivity). rewrite Sc.
    set (cnt := if count =? 0 then ct_count tag else count) in *. assert (Cp : 1 <= cnt) by (unfold cnt; destruct (count =? 0) eqn:Q; lia).
    destruct (ct_type tag =? T_BOOL) eqn:T.
    + assert (w = 1) by (eapply width_bool; [|exact Wd]; lia). subst w. rewrite bit_bytes_ok by lia. cbn [rbind]. do 2 eexists. split; [reflexivity|]. split; [exact A|].
      unfold points. cbn [extent at_pos h_index h_type h_byte h_bit h_count h_size]. split; [lia|]. split; [reflexivity|]. split; [reflexivity|]. split; [lia|]. split; [lia|]. split; [lia|].
      split; [unfold u32; rewrite Z.mod_small by lia; reflexivity|]. unfold covers, u32. rewrite Z.mod_small by lia. f_equal. f_equal. lia.
    + destruct (client_size _ W ltac:(lia) Rg _ _ cc Kn Wd ltac:(lia) Wp A) as (n & cc1 & E1 & M1 & Ew & Pn). rewrite E1. cbn [rbind]. assert (X1 : n * cnt <= 268435455) by nia. assert (X3 : 0 < n * cnt) by nia.
      rewrite (cint_ok (n * cnt)) by lia. cbn [rbind]. do 2 eexists. split; [reflexivity|]. split; [exact M1|].
      unfold points. cbn [extent at_pos h_index h_type h_byte h_bit h_count h_size]. split; [lia|]. split; [reflexivity|]. split; [lia|]. split; [lia|]. split; [lia|]. split; [lia|]. split; [unfold u32; rewrite Z.mod_small by lia; reflexivity|].
      rewrite (Cv n) by exact Ew. unfold u32. rewrite Z.mod_small by lia. reflexivity.
Qed.
(** Bit [b] of a tag of a type with bits (or of an element of it). *)
Theorem C49_bit : forall E s cc db tg tag w b count,
  reachable E s -> few s -> readable s -> agrees s cc -> seg_ok tg -> db (sg_name tg) = Some tag ->
  In (ct_type tag) [T_BYTE; T_SINT; T_CHAR; T_WORD; T_INT; T_UINT; T_DWORD; T_DINT; T_UDINT; T_LWORD; T_LINT; T_ULINT] -> In (ct_type tag, w) widths ->
  match sg_at tg with Some i => i < ct_count tag | None => ct_count tag = 1 end -> w * ct_count tag <= 2147483640 ->
  0 <= b -> 0 <= count -> b + Z.max 1 count <= w ->
  exists cc' h, tag_handle (s_types s) db cc (show_seg tg ++ 46 :: dec_str b) count = Done (cc', inl h) /\ agrees s cc' /\ h_bit h < 8 /\
    points h tag T_BOOL (w * idx tg + b) 1 (Z.max 1 count).
Proof.
  intros E s cc db tg tag w b count R Fw Rd A So Db Ty Wd Ti Bd B0 C0 Fit. assert (W := reachable_wf _ _ R). assert (Rg := readable_regular _ Rd). unfold few in Fw. rewrite agrees_mirrors in A.
  assert (Kn : known (s_types s) (ct_type tag)) by (left; cbn in Ty |- *; tauto).
  assert (Nb : (ct_type tag =? T_BOOL) || (ct_type tag =? T_TIME) || (ct_type tag =? T_REAL) || (ct_type tag =? T_LREAL) || is_custom (ct_type tag) = false).
  { cbn in Ty. repeat (destruct Ty as [<-|Ty]; [reflexivity|]). destruct Ty. }
  assert (Wb : 8 <= w <= 64 /\ 0 < w) by (cbn in Wd; repeat (destruct Wd as [Wd|Wd]; [injection Wd as Q <-; try lia; exfalso; rewrite <- Q in Nb; discriminate Nb|]); destruct Wd).
  unfold tag_handle. rewrite split_cut, cut_app by (apply show_seg_dot; exact So). rewrite get_index_show by exact So. cbn iota. rewrite Db. destruct So as [Sv Si].
  assert (Neg : (index_of tg <? 0) && negb (index_of tg =? E_NOTFOUND) = false) by (unfold index_of, idx in *; destruct (sg_at tg) as [z|]; [replace (z <? 0) with false by lia|]; reflexivity).
  rewrite Neg. destruct (dec_str_spec b ltac:(lia)) as (D1 & _ & _ & D2). assert (Fd : isdigit (nthb (dec_str b) 0) = true).
  { destruct (dec_str b) as [|x r]; [congruence|]. cbn [forallb] in D1. apply andb_true_iff in D1 as [D1 _]. exact D1. }
  rewrite Fd. assert (Am : (1 <? ct_count tag) && (index_of tg <? 0) = false) by (unfold index_of, idx in *; destruct (sg_at tg) as [z|]; [replace (z <? 0) with false by lia; apply andb_false_r | replace (1 <? ct_count tag) with false by lia; reflexivity]).
  rewrite Am. unfold parse_bit_index. rewrite Nb. assert (Bs : strtol10 (dec_str b) = b) by (rewrite <- (app_nil_r (dec_str b)); apply strtol10_dec; [lia | auto]). rewrite Bs.
  assert (Ad : after_digits (dec_str b) = []) by (clear -D1; induction (dec_str b) as [|x r IH]; [reflexivity|]; cbn [forallb] in D1; apply andb_true_iff in D1 as [D D1]; cbn [after_digits]; rewrite D; auto).
  rewrite Ad. cbn [is_nil negb]. assert (Ix : (if index_of tg <? 0 then 0 else index_of tg) = idx tg) by (unfold index_of, idx in *; destruct (sg_at tg) as [z|]; [replace (z <? 0) with false by lia|]; reflexivity). rewrite Ix.
  destruct (client_size _ W ltac:(lia) Rg _ w cc Kn ltac:(left; exact Wd) ltac:(intros Q; rewrite Q in Nb; discriminate) ltac:(lia) A) as (n & cc1 & E1 & M1 & Ew & Pn). rewrite E1. cbn [rbind].
  assert (Ub : u8 b = b) by (unfold u8; rewrite Z.mod_small by lia; reflexivity). rewrite Ub. replace (n * 8 <? b) with false by lia. cbv zeta.
  replace (if count =? 0 then 1 else count) with (Z.max 1 count) by (destruct (count =? 0) eqn:Q; lia). rewrite cint_ok by lia. cbn [rbind]. replace (n * 8 <? b + Z.max 1 count) with false by lia.
  assert (Ib : idx tg < ct_count tag) by (unfold idx in *; destruct (sg_at tg); lia). assert (X1 : n * idx tg <= 268435455) by nia. assert (X2 : 0 <= n * idx tg) by nia.
  rewrite (cint_ok (n * idx tg)) by lia. cbn [rbind]. rewrite cint_ok by lia. cbn [rbind]. rewrite bit_bytes_ok by lia. cbn [rbind]. do 2 eexists. split; [reflexivity|]. split; [exact M1|].
  unfold points. cbn [of_type extent at_pos h_index h_type h_byte h_bit h_count h_size]. split; [lia|]. split; [reflexivity|]. split; [reflexivity|].
  assert (Uy : u32 (0 + (n * idx tg + b / 8)) = n * idx tg + b / 8) by (unfold u32; rewrite Z.mod_small by lia; reflexivity). rewrite Uy.
  split; [lia|]. split; [lia|]. split; [lia|]. split; [unfold u32; rewrite Z.mod_small by lia; reflexivity|]. unfold covers, u32. rewrite Z.mod_small by lia.
  replace (w * idx tg + b + 1 * Z.max 1 count - 1) with (n * idx tg * 8 + (b + Z.max 1 count - 1)) by lia. replace (w * idx tg + b) with (n * idx tg * 8 + b) by lia. rewrite !Z.div_add_l by lia. lia.
Qed.

(** ** What does not exist *)
Lemma seek_absent ts nm fake : cm_name fake = nm -> forall ms cc h cc' h', Forall (fun m => cm_name m <> nm) ms -> seek ts cc nm (ms ++ [fake]) h = Done (cc', h', Some fake) -> seek ts cc nm ms h = Done (cc', h', None).
Proof.
  intros Hf. induction ms as [|m ms IH]; intros cc h cc' h' F H; cbn [app seek] in *.
  - rewrite Hf in H. rewrite (proj2 (name_eqb_eq nm nm) eq_refl) in H. congruence.
  - assert (F1 := Forall_inv F). apply Forall_inv_tail in F. destruct (name_eqb nm (cm_name m)) eqn:Q; [apply name_eqb_eq in Q; congruence|].
    destruct (cm_type m =? T_BOOL); [apply IH; assumption|]. apply rbind_done in H as ([cc1 sz] & E1 & H). rewrite E1. cbn [rbind]. apply rbind_done in H as (o & E2 & H). rewrite E2. cbn [rbind]. apply IH; assumption.
Qed.
(** a name that is not a tag; a name that is not a member of the tag's type; more elements than there are *)
Theorem C49_no_tag : forall ts db cc tg r count, seg_ok tg -> db (sg_name tg) = None -> tag_handle ts db cc (show tg r) count = Done (cc, inr E_NOTFOUND).
Proof.
  intros ts db cc tg r count So Db. unfold tag_handle. rewrite split_show, get_index_show by exact So. cbn iota. destruct So as [Sv Si].
  assert (Neg : (index_of tg <? 0) && negb (index_of tg =? E_NOTFOUND) = false) by (unfold index_of, idx in *; destruct (sg_at tg) as [z|]; [replace (z <? 0) with false by lia|]; reflexivity).
  rewrite Neg, Db. reflexivity.
Qed.
Theorem C49_no_member_partial : forall E s cc db tg tag g c size pl count,
  reachable E s -> few s -> readable s -> agrees s cc -> seg_ok tg -> seg_ok g -> db (sg_name tg) = Some tag ->
  match sg_at tg with Some _ => True | None => ct_count tag <= 1 end ->
  denotes s (ct_type tag) c -> ~ In (sg_name g) (map cm_name (c_members c)) ->
  type_size (s_types s) (ct_type tag) = Done size -> layout (s_types s) (c_members c) size pl -> packed 0 pl -> Forall few_bools pl -> 8 * size <= 2147483647 ->
  exists cc', tag_handle (s_types s) db cc (show tg [g]) count = Done (cc', inr E_NOTFOUND).
Proof.
  intros E s cc db tg tag g c size pl count R Fw Rd A So Sg Db Ti (i & Et & Zi) Ni Ts Ly Pk Fb Bd. assert (W := reachable_wf _ _ R). assert (Rg := readable_regular _ Rd). unfold few in Fw. rewrite agrees_mirrors in A.
  assert (Ri := znth_range _ _ _ Zi). destruct (custom_type i ltac:(lia)) as [C1 C2]. unfold tag_handle. rewrite split_show, get_index_show by exact So. cbn iota. rewrite Db. destruct So as [Sv Si].
  assert (Neg : forall g, 0 <= idx g -> (index_of g <? 0) && negb (index_of g =? E_NOTFOUND) = false) by (intros x Hx; unfold index_of, idx in *; destruct (sg_at x) as [z|]; [replace (z <? 0) with false by lia|]; reflexivity).
  rewrite Neg by lia. rewrite show_first by exact Sg. rewrite Et, C1. cbn [negb].
  assert (Am : (1 <? ct_count tag) && (index_of tg =? E_NOTFOUND) = false) by (unfold index_of, idx in *; destruct (sg_at tg) as [z|]; [replace (z =? E_NOTFOUND) with false by (unfold E_NOTFOUND; lia); apply andb_false_r | replace (1 <? ct_count tag) with false by lia; reflexivity]).
  rewrite Am. cbn [next_member]. rewrite split_show, get_index_show by exact Sg. cbn iota. rewrite Neg by (destruct Sg; lia).
  destruct (mirror_slot _ W ltac:(lia) Rg cc i c A Zi) as (cc1 & E1 & M1 & Hs & Zs). rewrite E1. cbn [rbind]. rewrite C2, Zs. unfold holds in Hs. rewrite Hs. cbn [cs_members].
  set (fake := mk_cm (sg_name g) T_BOOL 1). destruct Ly as (Sz & Mp & Al & Od).
  assert (Pa : forall pos l, packed pos l -> packed pos (l ++ [(fake, ends pos l, 1)])).
  { intros pos l. revert pos. induction l as [|[[m p] q] l IH]; intros pos H; cbn [app packed ends] in *; [split; [reflexivity | exact I]|]. destruct H as [H1 H2]. split; [exact H1 | apply IH; exact H2]. }
  assert (G : Forall (plain_member (s_types s) 0) pl).
  { rewrite Forall_forall in Al |- *. intros [[m1 p1] l1] In1. destruct (Al _ In1) as (Nd & P1 & B1 & A1).
    assert (Im : In m1 (c_members c)) by (rewrite <- Mp; exact (in_map (fun x => fst (fst x)) _ _ In1)). rewrite Et in Ts.
    destruct (type_facts _ W ltac:(lia) Rg _ _ _ Zi Ts Sz m1 Im) as (K & C & Wp). destruct (needs_width _ _ _ Nd) as (w & Wd & El). specialize (Wp w Wd).
    split; [exact K|]. split; [exact C|]. split; [exact Nd|]. split; [nia|]. split; [exact P1|]. split; [lia | exact A1]. }
  assert (Nn : Forall (fun x : cmember * Z * Z => cm_name (fst (fst x)) <> sg_name g) pl).
  { rewrite Forall_forall. intros x In1 Q. apply Ni. rewrite <- Mp, map_map. rewrite <- Q. exact (in_map (fun x => cm_name (fst (fst x))) _ _ In1). }
  assert (S0 : stands (mk_h (ct_idx tag) 0 0 0 0 0) (0 + 0)) by (repeat split; cbn; lia).
  destruct (seek_ok _ W ltac:(lia) Rg 0 (sg_name g) fake (ends 0 pl) 1 [] ltac:(lia) eq_refl pl 0 cc1 _ (Pa 0 pl Pk) G Fb eq_refl Nn M1 S0) as (cc2 & h2 & E2 & _).
  rewrite map_app, Mp in E2. cbn [map fst] in E2. assert (Nm : Forall (fun m => cm_name m <> sg_name g) (c_members c)) by (rewrite <- Mp; apply Forall_map; exact Nn). rewrite (seek_absent _ (sg_name g) fake eq_refl _ _ _ _ _ Nm E2). cbn [rbind]. eauto.
Qed.
Theorem C49_too_many : forall ts db cc tg tag count, seg_ok tg -> db (sg_name tg) = Some tag -> 0 <= ct_count tag < 2147483648 -> 0 <= count < 2147483648 -> idx tg + Z.max 1 count < 2147483648 ->
  ct_count tag < idx tg + Z.max (match sg_at tg with Some _ => 1 | None => 0 end) count -> tag_handle ts db cc (show tg []) count = Done (cc, inr E_2BIG).
Proof.
  intros ts db cc tg tag count So Db Ct C0 Ov Big. unfold tag_handle. rewrite split_show, get_index_show by exact So. cbn iota. rewrite Db. destruct So as [Sv Si].
  assert (Neg : (index_of tg <? 0) && negb (index_of tg =? E_NOTFOUND) = false) by (unfold index_of, idx in *; destruct (sg_at tg) as [z|]; [replace (z <? 0) with false by lia|]; reflexivity).
  rewrite Neg. unfold whole_tag. destruct (index_neq tg ltac:(lia)) as [IN IS]. destruct (sg_at tg) as [ii|] eqn:Sg.
  - destruct (IS ii eq_refl) as (-> & Ei & Ne). rewrite Ne. cbn [negb]. rewrite Ei in *. replace (if count =? 0 then 1 else count) with (Z.max 1 count) by (destruct (count =? 0) eqn:Q; lia).
    rewrite cint_ok by lia. cbn [rbind]. unfold u32. rewrite Z.mod_small by lia. replace (ct_count tag <? ii + Z.max 1 count) with true by lia. reflexivity.
  - destruct (IN eq_refl) as [-> E0]. cbn [Z.eqb E_NOTFOUND Pos.eqb negb]. rewrite E0 in *. unfold u32. rewrite Z.mod_small by lia. replace (ct_count tag <? count) with true by lia. reflexivity.
Qed.

(** ** Where the claim fails, on concrete types *)
Definition pa_state : server := after_ops envS (ty_ops ++ [OpCdtCreate 5 (str "Flat:n,INT,1:p,Pt,2"); OpCdtCreate 5 (str "Two:a,BOOL,3:b,BOOL,8"); OpCdtCreate 5 (str "Many:a,BOOL,300:b,BOOL,1")]).
Lemma pa_reachable : reachable envS pa_state.
Proof. apply after_reachable. vm_compute. reflexivity. Qed.
Definition c_flat : cdt := mk_cdt (str "Flat") [mk_cm (str "n") T_INT 1; mk_cm (str "p") (cdt_type 2) 2].
Definition c_two : cdt := mk_cdt (str "Two") [mk_cm (str "a") T_BOOL 3; mk_cm (str "b") T_BOOL 8].
Definition c_many : cdt := mk_cdt (str "Many") [mk_cm (str "a") T_BOOL 300; mk_cm (str "b") T_BOOL 1].
Lemma pa_types : map (fun i => znth (s_types pa_state) i) [2; 3; 4; 5; 6] = [Some c_pt; Some c_box; Some c_flat; Some c_two; Some c_many].
Proof. vm_compute. reflexivity. Qed.
Lemma pa_sizes : map (fun i => type_size (s_types pa_state) (cdt_type i)) [2; 3; 4; 5; 6] = [Done 5; Done 13; Done 12; Done 2; Done 38].
Proof. vm_compute. reflexivity. Qed.
Definition some_tag (t n : Z) : name -> option ctag := fun _ => Some (mk_ct (str "t") 20 t n 0).
Lemma needs_is ts m w l : In (cm_type m, w) widths -> l = w * cm_count m -> needs ts m l.
Proof. intros I ->. constructor. exact I. Qed.
Lemma needs_pt s : type_size (s_types s) (cdt_type 2) = Done 5 -> forall nm n l, l = 8 * 5 * n -> needs (s_types s) (mk_cm nm (cdt_type 2) n) l.
Proof. intros H nm n l ->. apply (needs_cdt _ (mk_cm nm (cdt_type 2) n) 5); [reflexivity | exact H]. Qed.
Definition k_on := (mk_cm (str "on") T_BOOL 1, 0, 1).
Definition pl_pt : placement := [(mk_cm (str "flag") T_BOOL 3, 0, 3); (mk_cm (str "x") T_INT 2, 8, 32)].
Definition pl_box : placement := [k_on; (mk_cm (str "p") (cdt_type 2) 2, 8, 80); (mk_cm (str "ok") T_BOOL 9, 88, 9)].
Definition pl_flat : placement := [(mk_cm (str "n") T_INT 1, 0, 16); (mk_cm (str "p") (cdt_type 2) 2, 16, 80)].
Definition pl_two : placement := [(mk_cm (str "a") T_BOOL 3, 0, 3); (mk_cm (str "b") T_BOOL 8, 3, 8)].
Definition pl_many : placement := [(mk_cm (str "a") T_BOOL 300, 0, 300); (mk_cm (str "b") T_BOOL 1, 300, 1)].
Lemma pt5 : type_size (s_types pa_state) (cdt_type 2) = Done 5.
Proof. vm_compute. reflexivity. Qed.
Lemma placed i c sz pl a m p l af : znth (s_types pa_state) i = Some c -> type_size (s_types pa_state) (cdt_type i) = Done sz -> layout (s_types pa_state) (c_members c) sz pl -> packed 0 pl -> pl = a ++ (m, p, l) :: af -> member_at pa_state (cdt_type i) a m p.
Proof. intros H1 H2 H3 H4 H5. exists c, sz, pl, l, af. split; [exists i; auto | auto]. Qed.
Ltac lay := split; [lia|]; split; [reflexivity|]; split;
  [repeat (constructor; [split; [first [apply (needs_pt pa_state pt5); reflexivity | eapply needs_is; [cbn; tauto | reflexivity]] | repeat split; cbn; try lia; try discriminate]|]); constructor
  | repeat constructor; cbn; lia].
Lemma lay_pt : layout (s_types pa_state) (c_members c_pt) 5 pl_pt.
Proof. lay. Qed.
Lemma lay_box : layout (s_types pa_state) (c_members c_box) 13 pl_box.
Proof. lay. Qed.
Lemma lay_flat : layout (s_types pa_state) (c_members c_flat) 12 pl_flat.
Proof. lay. Qed.
Lemma lay_two : layout (s_types pa_state) (c_members c_two) 2 pl_two.
Proof. lay. Qed.
Lemma lay_many : layout (s_types pa_state) (c_members c_many) 38 pl_many.
Proof. lay. Qed.
Definition w_x i : walk := mk_walk [(mk_cm (str "flag") T_BOOL 3, 0, 3)] (mk_cm (str "x") T_INT 2) 8 (mk_seg (str "x") i).
Definition w_flag : walk := mk_walk [] (mk_cm (str "flag") T_BOOL 3) 0 (mk_seg (str "flag") None).
Definition w_p a p i : walk := mk_walk a (mk_cm (str "p") (cdt_type 2) 2) p (mk_seg (str "p") i).
Lemma at_x i : member_at pa_state (cdt_type 2) (wk_before (w_x i)) (wk_member (w_x i)) (wk_pos (w_x i)).
Proof. eapply placed; [vm_compute; reflexivity | exact pt5 | exact lay_pt | repeat split; cbn; lia | reflexivity]. Qed.
Lemma at_flag : member_at pa_state (cdt_type 2) (wk_before w_flag) (wk_member w_flag) (wk_pos w_flag).
Proof. eapply placed; [vm_compute; reflexivity | exact pt5 | exact lay_pt | repeat split; cbn; lia | reflexivity]. Qed.
Lemma wd_int : width (s_types pa_state) T_INT 16.
Proof. constructor. cbn. tauto. Qed.
Lemma wd_bool : width (s_types pa_state) T_BOOL 1.
Proof. constructor. cbn. tauto. Qed.
Lemma wd_pt : width (s_types pa_state) (cdt_type 2) (8 * 5).
Proof. apply width_cdt; [reflexivity | exact pt5]. Qed.
(** t.p.flag in a Box: the flags of p begin at bit 8, the handle says bit 1 *)
Theorem C49_align_refuted : leads pa_state (cdt_type 3) [w_p [k_on] 8 None; w_flag] 8 /\
  exists cc h, tag_handle (s_types pa_state) (some_tag (cdt_type 3) 1) [] (str "t.p.flag") 0 = Done (cc, inl h) /\ h_byte h = 0 /\ h_bit h = 1.
Proof.
  split.
  - apply (leads_into pa_state (cdt_type 3) (w_p [k_on] 8 None) (8 * 5) [w_flag] 0).
    + eapply placed; [vm_compute; reflexivity | vm_compute; reflexivity | exact lay_box | repeat split; cbn; lia | reflexivity].
    + reflexivity.
    + exact wd_pt.
    + reflexivity.
    + apply (leads_here pa_state (cdt_type 2) w_flag 1); [exact at_flag | reflexivity | exact wd_bool].
  - do 2 eexists. split; [vm_compute; reflexivity | split; reflexivity].
Qed.
(** t.x[0].3 in a Pt: x begins at bit 8, its bit 3 is bit 11; the handle says bit 3 *)
Theorem C49_member_bit_refuted : leads pa_state (cdt_type 2) [w_x (Some 0)] 8 /\
  exists cc h, tag_handle (s_types pa_state) (some_tag (cdt_type 2) 1) [] (str "t.x[0].3") 0 = Done (cc, inl h) /\ h_byte h = 0 /\ h_bit h = 3.
Proof.
  split; [apply (leads_here pa_state (cdt_type 2) (w_x (Some 0)) 16); [apply at_x | reflexivity | exact wd_int]|].
  do 2 eexists. split; [vm_compute; reflexivity | split; reflexivity].
Qed.
(** t.b in a Many: bit 300; the 8 bit counter says 44 *)
Theorem C49_bits_wrap_refuted : (exists a, member_at pa_state (cdt_type 6) a (mk_cm (str "b") T_BOOL 1) 300) /\
  exists cc h, tag_handle (s_types pa_state) (some_tag (cdt_type 6) 1) [] (str "t.b") 0 = Done (cc, inl h) /\ 8 * h_byte h + h_bit h = 44.
Proof.
  split; [eexists; eapply (placed 6 c_many 38 pl_many [_]); [vm_compute; reflexivity | vm_compute; reflexivity | exact lay_many | repeat split; cbn; lia | reflexivity]|].
  do 2 eexists. split; [vm_compute; reflexivity | reflexivity].
Qed.
(** t.b[6] in a Two: the handle's bit number is 9, in the byte before the one that holds the bit *)
Theorem C49_bit_number_refuted : exists cc h, tag_handle (s_types pa_state) (some_tag (cdt_type 5) 1) [] (str "t.b[6]") 1 = Done (cc, inl h) /\ h_byte h = 0 /\ h_bit h = 9 /\ h_size h = 1.
Proof. do 2 eexists. split; [vm_compute; reflexivity | repeat split; reflexivity]. Qed.
(** elements that do not exist: element 100 of one Pt, bit 256 of a DINT, bit 0 of element 7 of two INTs *)
Theorem C49_index_refuted : exists cc h, tag_handle (s_types pa_state) (some_tag (cdt_type 2) 1) [] (str "t[100].x") 0 = Done (cc, inl h) /\ h_byte h = 501.
Proof. do 2 eexists. split; [vm_compute; reflexivity | reflexivity]. Qed.
Theorem C49_bit_index_refuted : exists cc h, tag_handle (s_types pa_state) (some_tag T_DINT 1) [] (str "t.256") 0 = Done (cc, inl h) /\ h_byte h = 0 /\ h_bit h = 0.
Proof. do 2 eexists. split; [vm_compute; reflexivity | split; reflexivity]. Qed.
Theorem C49_element_bit_refuted : exists cc h, tag_handle (s_types pa_state) (some_tag T_INT 2) [] (str "t[7].0") 0 = Done (cc, inl h) /\ h_byte h = 14.
Proof. do 2 eexists. split; [vm_compute; reflexivity | reflexivity]. Qed.
(** elements that exist but are refused: both x of the second p of a Flat *)
Theorem C49_count_refuted : exists cc, tag_handle (s_types pa_state) (some_tag (cdt_type 4) 1) [] (str "t.p[1].x") 2 = Done (cc, inr E_2BIG).
Proof. eexists. vm_compute. reflexivity. Qed.
(** a member of something that has no members: the type table is read outside its bounds *)
Theorem C49_outside_refuted : tag_handle (s_types pa_state) (some_tag (cdt_type 2) 1) [] (str "t.x.y") 0 = Undef UOob.
Proof. vm_compute. reflexivity. Qed.

(** ** the hypotheses are met: t[2].p[1].x[1] in an array of three Flats *)
Example C49_ex : reachable envS pa_state /\ few pa_state /\ readable pa_state /\ agrees pa_state [] /\
  (let ks := [w_p [(mk_cm (str "n") T_INT 1, 0, 16)] 16 (Some 1); w_x (Some 1)] in
   leads pa_state (cdt_type 4) ks 80 /\ tame 0 ks /\ last_fits ks 0 /\ seg_ok (mk_seg (str "t") (Some 2)) /\ show (mk_seg (str "t") (Some 2)) (map wk_seg ks) = str "t[2].p[1].x[1]" /\
   type_size (s_types pa_state) (cdt_type 4) = Done 12) /\
  exists cc, tag_handle (s_types pa_state) (some_tag (cdt_type 4) 3) [] (str "t[2].p[1].x[1]") 0 = Done (cc, inl (mk_h 20 34 0 1 2 T_INT)).
Proof.
  split; [exact pa_reachable|]. split; [apply few_check; vm_compute; reflexivity|]. split; [apply readable_check; vm_compute; reflexivity|]. split; [apply agrees_empty|].
  split; [|eexists; vm_compute; reflexivity]. cbv zeta. split.
  { apply (leads_into pa_state (cdt_type 4) (w_p [(mk_cm (str "n") T_INT 1, 0, 16)] 16 (Some 1)) (8 * 5) [w_x (Some 1)] 24).
    - eapply placed; [vm_compute; reflexivity | vm_compute; reflexivity | exact lay_flat | repeat split; cbn; lia | reflexivity].
    - reflexivity.
    - exact wd_pt.
    - reflexivity.
    - apply (leads_here pa_state (cdt_type 2) (w_x (Some 1)) 16); [apply at_x | reflexivity | exact wd_int]. }
  split; [cbn; repeat split; try lia; try discriminate; try congruence; repeat constructor; cbn; try discriminate; lia|]. split; [cbv; discriminate|]. split; [split; [reflexivity | cbn; lia]|]. split; [reflexivity | vm_compute; reflexivity].
Qed.
