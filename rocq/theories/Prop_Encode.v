(** * Prop_Encode: what the library sends is what the server executes (C44) *)
From Verif Require Import Base Const Types State Events Atomic Server Lib Buffer Wire BufProofs Prop_Wire Conv ClientMsg.

(** [carried fd x o]: the library call [x] sends one message, and a server that receives it on the socket [fd] in one read executes the
    request [o] and nothing else *)
Definition carried (fd : Z) (x : run call) (o : op) : Prop :=
  exists cmd p, x = Done (Send cmd p) /\
    forall E B bs s, bufs_reach B bs -> fd <> 0 -> view bs fd = None ->
      exists bs', serve E B (bs, s) (RxRead fd (message cmd p)) = (s' <-- step E s o ;; Done (bs', s')).
Definition c_string (n : name) : Prop := Forall (fun c => 0 < c < 256) n.
Definition is32 (x : Z) : Prop := 0 <= x < 4294967296.
Definition int32 (x : Z) : Prop := -2147483648 <= x < 2147483648.
(** the fields of a handle fit their C types *)
Definition handle_ok (h : handle) : Prop :=
  int32 (h_index h) /\ is32 (h_byte h) /\ 0 <= h_bit h < 256 /\ is32 (h_count h) /\ is32 (h_size h) /\ is32 (h_type h).

Lemma message_wire cmd p : message cmd p = wire (cmd, p).
Proof. unfold message, wire. cbn [fst snd]. rewrite Z.add_comm. reflexivity. Qed.
Lemma carried_intro fd x cmd p o : x = Done (Send cmd p) -> valid (cmd, p) -> decode fd cmd p = Done o -> carried fd x o.
Proof.
  intros X V D. exists cmd, p. split; [exact X|]. intros E B bs s R N W. destruct (C42_separate_partial B bs fd [(cmd, p)] R N W) as [bs' H]; [constructor; [exact V | constructor]|].
  exists bs'. cbn [map rx_exec fst snd] in H. unfold serve. cbn [fst]. rewrite message_wire. destruct (rx_step B bs (RxRead fd (wire (cmd, p)))) as [[b f]|]; cbn in H; [|discriminate].
  injection H as -> H. rewrite app_nil_r in H. subst f. cbn [rbind snd serve_frames serve_frame fst]. rewrite D. cbn [rbind]. destruct (step E s o); reflexivity.
Qed.

(** ** Reading fields *)
Lemma zlen_le4 z : zlen (le4 z) = 4.
Proof. reflexivity. Qed.
Lemma ib_skip (a d : list Z) k n : zlen a <= k -> in_bounds k n (zlen (a ++ d)) = in_bounds (k - zlen a) n (zlen d).
Proof. intros H. rewrite zlen_app. assert (A := zlen_nonneg a). unfold in_bounds. apply Bool.eq_true_iff_eq. lia. Qed.
Lemma slice_skip (a d : list Z) k n : zlen a <= k -> slice k n (a ++ d) = slice (k - zlen a) n d.
Proof.
  intros H. assert (A := zlen_nonneg a). unfold slice. f_equal. rewrite skipn_app. rewrite skipn_all2 by (unfold zlen in *; lia). cbn [app]. f_equal. unfold zlen in *. lia.
Qed.
Lemma u32_skip a d k : zlen a <= k -> u32_at (a ++ d) k = u32_at d (k - zlen a).
Proof. intros H. unfold u32_at. rewrite ib_skip, slice_skip by exact H. reflexivity. Qed.
Lemma i32_skip a d k : zlen a <= k -> i32_at (a ++ d) k = i32_at d (k - zlen a).
Proof. intros H. unfold i32_at. rewrite u32_skip by exact H. reflexivity. Qed.
Lemma u16_skip a d k : zlen a <= k -> u16_at (a ++ d) k = u16_at d (k - zlen a).
Proof. intros H. unfold u16_at. rewrite ib_skip, slice_skip by exact H. reflexivity. Qed.
Lemma net32_skip a d k : zlen a <= k -> net32_at (a ++ d) k = net32_at d (k - zlen a).
Proof. intros H. unfold net32_at. rewrite ib_skip, slice_skip by exact H. reflexivity. Qed.
Lemma byte_skip (a d : list Z) k : zlen a <= k -> byte_at (a ++ d) k = byte_at d (k - zlen a).
Proof. intros H. unfold byte_at. rewrite znth_app2 by exact H. reflexivity. Qed.
Lemma rest_skip a d k : zlen a <= k -> rest_at (a ++ d) k = rest_at d (k - zlen a).
Proof.
  intros H. assert (A := zlen_nonneg a). unfold rest_at. rewrite skipn_app. rewrite skipn_all2 by (unfold zlen in *; lia). cbn [app]. f_equal. unfold zlen in *. lia.
Qed.
Lemma str_skip a d k : zlen a <= k -> str_at (a ++ d) k = str_at d (k - zlen a).
Proof. intros H. unfold str_at. fold (rest_at (a ++ d) k). rewrite rest_skip by exact H. reflexivity. Qed.
Lemma u32_here z r : is32 z -> u32_at (le4 z ++ r) 0 = Done z.
Proof.
  intros H. unfold u32_at. rewrite slice_app1 by reflexivity. replace (in_bounds 0 4 _) with true; [|rewrite zlen_app, zlen_le4; assert (A := zlen_nonneg r); unfold in_bounds; lia].
  rewrite le_val_le_bytes. change (256 ^ Z.of_nat 4) with 4294967296. rewrite Z.mod_small by exact H. reflexivity.
Qed.
Lemma i32_here z r : int32 z -> i32_at (le4 z ++ r) 0 = Done z.
Proof.
  intros H. unfold i32_at, u32_at. rewrite slice_app1 by reflexivity. replace (in_bounds 0 4 _) with true; [|rewrite zlen_app, zlen_le4; assert (A := zlen_nonneg r); unfold in_bounds; lia].
  rewrite le_val_le_bytes. change (256 ^ Z.of_nat 4) with 4294967296. cbn [rbind]. f_equal. unfold s32, int32 in *. rewrite Z.mod_mod by lia.
  destruct (Z_lt_dec z 0) as [L|L].
  - replace (z mod 4294967296) with (z + 4294967296) by (apply Z.mod_unique with (q := -1); lia). replace (z + 4294967296 <? 2147483648) with false by lia. lia.
  - rewrite Z.mod_small by lia. replace (z <? 2147483648) with true by lia. reflexivity.
Qed.
Lemma net32_here z r : is32 z -> net32_at (be_bytes 4 z ++ r) 0 = Done z.
Proof.
  intros H. unfold net32_at. rewrite slice_app1 by apply zlen_be. replace (in_bounds 0 4 _) with true; [|rewrite zlen_app, zlen_be; assert (A := zlen_nonneg r); unfold in_bounds; lia].
  rewrite be_val_bytes. change (256 ^ Z.of_nat 4) with 4294967296. rewrite Z.mod_small by exact H. reflexivity.
Qed.
Lemma byte_here z r : 0 <= z < 256 -> byte_at ([u8 z] ++ r) 0 = Done z.
Proof. intros H. unfold byte_at, u8. cbn [app]. rewrite znth_0, Z.mod_small by exact H. reflexivity. Qed.
Lemma rest_here d : rest_at d 0 = d.
Proof. reflexivity. Qed.
Lemma cstr_app n r : c_string n -> cstr (n ++ 0 :: r) = Some n.
Proof. induction 1 as [|c n H _ IH]; cbn [app cstr]; [reflexivity|]. replace (c =? 0) with false by lia. rewrite IH. reflexivity. Qed.
Lemma str_here n : c_string n -> str_at (n ++ [0]) 0 = Done n.
Proof. intros H. unfold str_at. cbn [skipn Z.to_nat]. rewrite cstr_app by exact H. reflexivity. Qed.
Ltac skip1 := first [ rewrite u32_here by assumption | rewrite i32_here by assumption | rewrite net32_here by (unfold is32; lia)
  | rewrite byte_here by assumption | rewrite str_here by assumption
  | rewrite u32_skip by (cbn; lia) | rewrite i32_skip by (cbn; lia) | rewrite u16_skip by (cbn; lia) | rewrite net32_skip by (cbn; lia) | rewrite byte_skip by (cbn; lia)
  | rewrite str_skip by (cbn; lia) | rewrite rest_skip by (cbn; lia) ].
Ltac flds := repeat (skip1; cbn [rbind];
  repeat match goal with |- context [?k - zlen (le4 ?z)] => change (k - zlen (le4 z)) with (k - 4) end;
  repeat match goal with |- context [?k - zlen (be_bytes 4 ?z)] => change (k - zlen (be_bytes 4 z)) with (k - 4) end;
  repeat match goal with |- context [?k - zlen [?z]] => change (k - zlen [z]) with (k - 1) end;
  repeat match goal with |- context [Z.pos ?p - Z.pos ?q] => let v := eval vm_compute in (Z.pos p - Z.pos q) in change (Z.pos p - Z.pos q) with v end).
Ltac vlen := split; cbn [fst snd]; [lia|]; repeat (rewrite zlen_app || rewrite zlen_le4 || rewrite zlen_be || rewrite zlen_cons); change (zlen (@nil Z)) with 0; try lia.

(** ** C44, one theorem for each call *)
Theorem C44_tag_add : forall fd nm type count attr, c_string nm -> zlen nm <= 28 -> is32 type -> 1 <= count < 4294967296 -> is32 attr ->
  carried fd (enc_tag_add nm type count attr) (OpTagAdd fd nm type count attr).
Proof.
  intros fd nm type count attr S L T C A. assert (C2 : is32 count) by (unfold is32; lia). eapply carried_intro.
  - unfold enc_tag_add. replace (count =? 0) with false by lia. replace (32 <? zlen nm) with false by lia. replace (41 <? 12 + zlen nm + 1) with false by lia. reflexivity.
  - vlen.
  - cbn [decode]. flds. reflexivity.
Qed.
Theorem C44_tag_del : forall fd idx, int32 idx -> carried fd (enc_tag_del idx) (OpTagDel fd idx).
Proof. intros fd idx H. eapply carried_intro; [reflexivity | vlen |]. rewrite <- (app_nil_r (le4 idx)). cbn [decode]. flds. reflexivity. Qed.
Theorem C44_read : forall J fd idx off size, int32 idx -> int32 off -> 0 <= size <= 4088 -> carried fd (enc_read J idx off size) (OpRead fd idx off size).
Proof.
  intros J fd idx off size H O S. assert (int32 size) by (unfold int32; lia). eapply carried_intro.
  - unfold enc_read. replace (4088 <? size) with false by lia. reflexivity.
  - vlen. change (zlen (junk J 12 2)) with 2. lia.
  - cbn [decode]. flds. reflexivity.
Qed.
Theorem C44_write : forall fd idx off d, int32 idx -> int32 off -> zlen d <= 4080 -> carried fd (enc_write idx off d) (OpWrite fd idx off d).
Proof.
  intros fd idx off d H O S. eapply carried_intro.
  - unfold enc_write. replace (4088 <? zlen d + 8) with false by lia. reflexivity.
  - vlen.
  - cbn [decode]. flds. rewrite rest_here. reflexivity.
Qed.
Theorem C44_mask : forall fd idx off d m, int32 idx -> int32 off -> zlen m = zlen d -> 2 * zlen d <= 4080 ->
  carried fd (enc_mask idx off d m) (OpMask fd idx off d m).
Proof.
  intros fd idx off d m H O L S. assert (A := zlen_nonneg d). eapply carried_intro.
  - unfold enc_mask. replace (4088 <? 2 * zlen d + 8) with false by lia. reflexivity.
  - vlen.
  - cbn [decode]. flds. cbv zeta. replace ((zlen (le4 idx ++ le4 off ++ d ++ m) - 8) / 2) with (zlen d).
    2:{ rewrite !zlen_app, !zlen_le4, L. replace (4 + (4 + (zlen d + zlen d)) - 8) with (zlen d * 2) by lia. rewrite Z.div_mul by lia. reflexivity. }
    rewrite app_assoc, !(slice_skip (le4 idx ++ le4 off)) by (change (zlen (le4 idx ++ le4 off)) with 8; lia). change (zlen (le4 idx ++ le4 off)) with 8.
    rewrite Z.sub_diag, slice_app1 by reflexivity. replace (8 + zlen d - 8) with (zlen d) by lia. rewrite slice_app2 by reflexivity. rewrite <- L, slice_full. reflexivity.
Qed.
Theorem C44_register : forall fd nm, c_string nm -> zlen nm <= 4079 -> carried fd (enc_register nm) (OpRegister fd nm).
Proof.
  intros fd nm S L. eapply carried_intro; [reflexivity | vlen |]. cbn [decode]. replace (is_nil _) with false by reflexivity. flds. reflexivity.
Qed.
Theorem C44_disconnect : forall fd, carried fd enc_disconnect (OpUnregMsg fd).
Proof. intros fd. eapply carried_intro; [reflexivity | vlen |]. reflexivity. Qed.
(** the name as the server sees it: 33 bytes and a terminator *)
Lemma name33 sub n : c_string n -> zlen n <= 32 -> str_at (firstn 33 (sub :: n ++ [0]) ++ (if 33 <=? zlen (sub :: n ++ [0]) then [0] else [])) 1 = Done n.
Proof.
  intros S L. assert (A := zlen_nonneg n). unfold str_at. change (Z.to_nat 1) with 1%nat. rewrite zlen_cons, zlen_app, zlen_cons. change (zlen (@nil Z)) with 0. rewrite Z.add_0_r.
  change (firstn 33 (sub :: n ++ [0])) with (sub :: firstn 32 (n ++ [0])). cbn [app skipn]. rewrite firstn_app.
  rewrite (firstn_all2 n) by (unfold zlen in L; lia). destruct (Z.eq_dec (zlen n) 32) as [E|E].
  - replace (33 <=? _) with true by lia. replace (32 - length n)%nat with O by (unfold zlen in E; lia). cbn [firstn]. rewrite app_nil_r, cstr_app by exact S. reflexivity.
  - replace (firstn (32 - length n) [0]) with [0]; [|unfold zlen in *; destruct (32 - length n)%nat eqn:Q; [lia | cbn; rewrite firstn_nil; reflexivity]].
    rewrite <- app_assoc. cbn [app]. rewrite cstr_app by exact S. reflexivity.
Qed.
Theorem C44_byname : forall fd nm, c_string nm -> 1 <= zlen nm <= 32 -> carried fd (enc_tag_byname nm) (OpTagGetName fd nm).
Proof.
  intros fd nm S L. eapply carried_intro.
  - unfold enc_tag_byname. replace (32 <? zlen nm) with false by lia. replace (zlen nm =? 0) with false by lia. reflexivity.
  - vlen.
  - unfold decode. unfold byte_at at 1. rewrite znth_0. cbn [rbind]. change (1 =? 2) with false. cbv iota. rewrite name33 by (try exact S; lia). reflexivity.
Qed.
Theorem C44_byindex : forall fd idx, int32 idx -> carried fd (enc_tag_byindex idx) (OpTagGetIdx fd idx).
Proof.
  intros fd idx H. eapply carried_intro; [reflexivity | vlen |]. unfold decode. unfold byte_at at 1. rewrite znth_0. cbn [rbind]. change (2 =? 2) with true. cbv iota.
  change (2 :: le4 idx) with ([2] ++ le4 idx). rewrite <- (app_nil_r (le4 idx)). flds. reflexivity.
Qed.
Theorem C44_cdt_create : forall fd def, c_string def -> zlen def <= 4087 -> carried fd (enc_cdt_create def) (OpCdtCreate fd def).
Proof.
  intros fd def S L. assert (A := zlen_nonneg def). eapply carried_intro.
  - unfold enc_cdt_create. replace (4088 <? zlen def + 1) with false by lia. reflexivity.
  - vlen.
  - unfold decode, str_at. change (Z.to_nat 0) with O. cbn [skipn]. rewrite firstn_app. rewrite (firstn_all2 def) by (unfold zlen in L; lia). rewrite zlen_app, zlen_cons. change (zlen (@nil Z)) with 0.
    destruct (Z.eq_dec (zlen def) 4087) as [E|E].
    + replace (4087 <=? _) with true by lia. replace (4087 - length def)%nat with O by (unfold zlen in E; lia). change (firstn 0 [0]) with (@nil Z). rewrite app_nil_r, cstr_app by exact S. reflexivity.
    + replace (firstn (4087 - length def) [0]) with [0]; [|unfold zlen in *; destruct (4087 - length def)%nat eqn:Q; [lia | cbn; rewrite firstn_nil; reflexivity]].
      rewrite <- app_assoc. cbn [app]. rewrite cstr_app by exact S. reflexivity.
Qed.
Theorem C44_cdt_byname : forall fd nm, c_string nm -> zlen nm <= 32 -> carried fd (enc_cdt_byname nm) (OpCdtGetName fd nm).
Proof.
  intros fd nm S L. eapply carried_intro.
  - unfold enc_cdt_byname. replace (4088 <? zlen nm + 2) with false by lia. reflexivity.
  - vlen.
  - unfold decode. unfold byte_at at 1. rewrite znth_0. cbn [rbind]. change (1 =? 2) with false. cbv iota. rewrite name33 by (try exact S; lia). reflexivity.
Qed.
Theorem C44_cdt_bytype : forall fd t, is32 t -> carried fd (enc_cdt_bytype t) (OpCdtGetType fd t).
Proof.
  intros fd t H. eapply carried_intro; [reflexivity | vlen |]. unfold decode. unfold byte_at at 1. rewrite znth_0. cbn [rbind]. change (2 =? 2) with true. cbv iota.
  change (2 :: le4 t) with ([2] ++ le4 t). rewrite <- (app_nil_r (le4 t)). flds. reflexivity.
Qed.
Theorem C44_event_del : forall fd idx id, int32 idx -> int32 id -> carried fd (enc_event_del idx id) (OpEvDel fd idx id).
Proof. intros fd idx id H I. eapply carried_intro; [reflexivity | vlen |]. rewrite <- (app_nil_r (le4 id)). cbn [decode]. flds. reflexivity. Qed.
Theorem C44_event_options : forall fd idx id o, int32 idx -> int32 id -> is32 o -> carried fd (enc_event_options idx id o) (OpEvOpt fd idx id o).
Proof. intros fd idx id o H I O. eapply carried_intro; [reflexivity | vlen |]. rewrite <- (app_nil_r (le4 o)). cbn [decode]. flds. reflexivity. Qed.
Theorem C44_map_del : forall fd idx id, int32 idx -> int32 id -> carried fd (enc_map_del idx id) (OpMapDel fd idx id).
Proof. intros fd idx id H I. eapply carried_intro; [reflexivity | vlen |]. rewrite <- (app_nil_r (le4 id)). cbn [decode]. flds. reflexivity. Qed.
Theorem C44_map_get : forall fd idx id, int32 idx -> int32 id -> carried fd (enc_map_get idx id) (OpMapGet fd idx id).
Proof. intros fd idx id H I. eapply carried_intro; [reflexivity | vlen |]. rewrite <- (app_nil_r (le4 id)). cbn [decode]. flds. reflexivity. Qed.
Theorem C44_group_read : forall fd i, is32 i -> carried fd (enc_group_read i) (OpGrpRead fd i).
Proof. intros fd i H. eapply carried_intro; [reflexivity | vlen |]. rewrite <- (app_nil_r (le4 i)). cbn [decode]. flds. reflexivity. Qed.
Theorem C44_group_del : forall fd i, is32 i -> carried fd (enc_group_del i) (OpGrpDel fd i).
Proof. intros fd i H. eapply carried_intro; [reflexivity | vlen |]. rewrite <- (app_nil_r (le4 i)). cbn [decode]. flds. reflexivity. Qed.
Theorem C44_group_write : forall fd i d, is32 i -> zlen d <= 4084 -> carried fd (enc_group_write i d) (OpGrpWrite fd i d).
Proof.
  intros fd i d H L. eapply carried_intro; [unfold enc_group_write; replace (4088 <? 4 + zlen d) with false by lia; reflexivity | vlen |]. cbn [decode]. flds. reflexivity.
Qed.
Theorem C44_get_override : forall fd h, int32 (h_index h) -> int32 (h_byte h) -> int32 (h_size h) -> carried fd (enc_get_override h) (OpOvGet fd (h_index h) (h_byte h) (h_size h)).
Proof. intros fd h A B C. eapply carried_intro; [reflexivity | vlen |]. rewrite <- (app_nil_r (le4 (h_size h))). cbn [decode]. flds. reflexivity. Qed.
Theorem C44_set_override : forall fd h (on : bool), int32 (h_index h) -> carried fd (enc_set_override h on) (OpOvSet fd (h_index h) (if on then 255 else 0)).
Proof.
  intros fd h on A. eapply carried_intro; [reflexivity | vlen |]. unfold decode. flds. unfold byte_at. rewrite znth_0. reflexivity.
Qed.
Lemma zlen_ench h : zlen (enc_handle h) = 21.
Proof. reflexivity. Qed.
Lemma handle_here h r k pre : handle_ok h -> zlen pre = k -> handle_at (pre ++ enc_handle h ++ r) k = Done h.
Proof.
  intros (A & B & C & D & E & F) <-. unfold handle_at. rewrite (i32_skip pre), !(u32_skip pre), (byte_skip pre) by lia. rewrite Z.sub_diag.
  replace (zlen pre + 4 - zlen pre) with 4 by lia. replace (zlen pre + 8 - zlen pre) with 8 by lia. replace (zlen pre + 9 - zlen pre) with 9 by lia. replace (zlen pre + 13 - zlen pre) with 13 by lia. replace (zlen pre + 17 - zlen pre) with 17 by lia.
  unfold enc_handle. rewrite <- !app_assoc. flds. destruct h. reflexivity.
Qed.
Theorem C44_map_add : forall J fd src dst, handle_ok src -> handle_ok dst -> carried fd (enc_map_add J src dst) (OpMapAdd fd src dst).
Proof.
  intros J fd src dst S D. eapply carried_intro; [reflexivity | |].
  - split; cbn [fst snd]; [lia|]. rewrite !zlen_app, !zlen_ench. change (zlen (junk J 42 6)) with 6. lia.
  - unfold decode. change (enc_handle src ++ enc_handle dst ++ junk J 42 6) with ([] ++ enc_handle src ++ enc_handle dst ++ junk J 42 6) at 1. rewrite (handle_here src (enc_handle dst ++ junk J 42 6) 0 []) by (try assumption; reflexivity). cbn [rbind].
    cbn [app]. change (enc_handle src ++ enc_handle dst ++ junk J 42 6) with (enc_handle src ++ enc_handle dst ++ junk J 42 6). rewrite (handle_here dst (junk J 42 6) 21 (enc_handle src)) by (try assumption; reflexivity). reflexivity.
Qed.
Lemma handles_here : forall hs pre k, Forall handle_ok hs -> zlen pre = k -> handles_at (length hs) (pre ++ concat (map enc_handle hs)) k = Done hs.
Proof.
  induction hs as [|h hs IH]; intros pre k F L; [reflexivity|]. cbn [length handles_at map concat]. rewrite handle_here by (try exact (Forall_inv F); exact L). cbn [rbind].
  rewrite app_assoc. rewrite IH; [reflexivity | exact (Forall_inv_tail F) | rewrite zlen_app, zlen_ench; lia].
Qed.
Lemma zlen_handles hs : zlen (concat (map enc_handle hs)) = 21 * zlen hs.
Proof. induction hs as [|h hs IH]; [reflexivity|]. cbn [map concat]. rewrite zlen_app, zlen_ench, IH, zlen_cons. lia. Qed.
Fixpoint total_size (hs : list handle) : Z := match hs with [] => 0 | h :: r => h_size h + total_size r end.
Lemma group_size_sum : forall hs k, Forall handle_ok hs -> k + total_size hs <= 4084 -> group_size_ok hs k = true.
Proof.
  induction hs as [|h hs IH]; intros k F L; [reflexivity|]. cbn [group_size_ok total_size] in *. assert (T : 0 <= total_size hs).
  { apply Forall_inv_tail in F. clear -F. induction F as [|h l H _ IH]; cbn; [lia|]. destruct H as (_ & _ & _ & _ & H & _). unfold is32 in H. lia. }
  replace (4084 <? k + h_size h) with false by lia. apply IH; [exact (Forall_inv_tail F) | lia].
Qed.
Theorem C44_group_add : forall fd hs o, Forall handle_ok hs -> zlen hs <= 150 -> total_size hs <= 4084 -> carried fd (enc_group_add hs o) (OpGrpAdd fd hs).
Proof.
  intros fd hs o F L T. assert (A := zlen_nonneg hs). eapply carried_intro.
  - unfold enc_group_add. replace (150 <? zlen hs) with false by lia. rewrite group_size_sum by (try exact F; lia). reflexivity.
  - split; cbn [fst snd]; [lia|]. rewrite !zlen_cons, zlen_handles. lia.
  - unfold decode. unfold byte_at. rewrite znth_0. cbn [rbind]. replace (150 <? zlen hs) with false by lia. change (zlen hs :: u8 o :: concat (map enc_handle hs)) with ([zlen hs; u8 o] ++ concat (map enc_handle hs)).
    unfold zlen at 1. rewrite Nat2Z.id. rewrite handles_here by (try exact F; reflexivity). reflexivity.
Qed.
(** an operand of exactly the size in the handle *)
Theorem C44_atomic : forall J fd h d o, handle_ok h -> is_custom (h_type h) = false -> zlen d = h_size h -> h_size h <= 4067 -> 0 <= o < 65536 ->
  carried fd (enc_atomic J h (Some d) o) (OpAtomic fd h o d).
Proof.
  intros J fd h d o (A & B & C & D & E & F) T L S O. assert (Ld := zlen_nonneg d).
  set (head := le4 (h_index h) ++ le4 (h_byte h) ++ le4 (h_count h) ++ le4 (h_type h) ++ [u8 (h_bit h)] ++ le4 (u16 o)).
  assert (LH : zlen head = 21) by reflexivity.
  assert (FH : firstn (Z.to_nat (21 + zlen d)) (head ++ d ++ junk J 21 4067) = head ++ d).
  { rewrite app_assoc. replace (Z.to_nat (21 + zlen d)) with (length (head ++ d)); [rewrite firstn_app, Nat.sub_diag, firstn_all; apply app_nil_r|]. rewrite <- LH, <- zlen_app. unfold zlen. rewrite Nat2Z.id. reflexivity. }
  eapply carried_intro.
  - unfold enc_atomic. replace (u32 (h_size h + 21)) with (21 + zlen d) by (unfold u32; rewrite Z.mod_small by lia; lia). replace (4088 <? 21 + zlen d) with false by lia. rewrite T. fold head. rewrite FH. reflexivity.
  - split; cbn [fst snd]; [lia|]. rewrite zlen_app, LH. lia.
  - unfold head. rewrite <- !app_assoc. cbn [decode]. assert (OO : is32 (u16 o)) by (unfold is32, u16; lia). flds.
    replace (u16_at (le4 (u16 o) ++ d) 0) with (Done o).
    2:{ unfold u16_at. replace (in_bounds 0 2 _) with true by (rewrite zlen_app, zlen_le4; unfold in_bounds; lia). f_equal. unfold u16. rewrite (Z.mod_small o) by exact O. unfold slice. change (Z.to_nat 0) with 0%nat. change (Z.to_nat 2) with 2%nat. cbn [skipn le_bytes app firstn le_val].
        rewrite (Z.mod_small (o / 256)) by (split; [apply Z.div_pos; lia | apply Z.div_lt_upper_bound; lia]). assert (Q := Z.div_mod o 256). lia. }
    cbn [rbind]. rewrite !zlen_app, !zlen_le4. change (zlen [u8 (h_bit h)]) with 1. replace (u32 (4 + (4 + (4 + (4 + (1 + (4 + zlen d))))) - 21)) with (h_size h) by (unfold u32; rewrite Z.mod_small by lia; lia).
    rewrite rest_here. destruct h. reflexivity.
Qed.
(** an event without data *)
Theorem C44_event_add : forall J fd h et, handle_ok h -> int32 et -> carried fd (enc_event_add J h et None) (OpEvAdd fd h et []).
Proof.
  intros J fd h et (A & B & C & D & E & F) T. eapply carried_intro; [reflexivity | vlen |]. rewrite <- (app_nil_r [u8 (h_bit h)]). cbn [decode]. flds. destruct h. reflexivity.
Qed.
(** an event with one value of the type of the handle: of every base type but DWORD and TIME the value arrives unchanged.
    A BOOL has no bytes in this format. *)
Theorem C44_event_add_data_partial : forall J fd h et d, handle_ok h -> int32 et -> In (h_type h) base_types -> h_type h <> T_DWORD -> h_type h <> T_TIME ->
  zlen d = typesize_bits (h_type h) / 8 -> carried fd (enc_event_add J h et (Some d)) (OpEvAdd fd h et d).
Proof.
  intros J fd h et d (A & B & C & D & E & F) T I N1 N2 L.
  assert (Q : conv (h_type h) d = Some d /\ typesize_bits (h_type h) / 8 <= 8).
  { unfold base_types in I. cbn [In] in I. repeat (destruct I as [I|I]; [revert N1 N2; rewrite <- I; clear; intros N1 N2; try (split; [reflexivity | vm_compute; discriminate]); congruence|]). destruct I. }
  destruct Q as [Q1 Q2]. assert (Ld := zlen_nonneg d). eapply carried_intro.
  - unfold enc_event_add. cbv zeta. rewrite Q1. replace (4088 <? 25 + typesize_bits (h_type h) / 8) with false by lia. rewrite <- L. unfold zlen. rewrite Nat2Z.id, firstn_all. reflexivity.
  - vlen.
  - rewrite <- !app_assoc. cbn [decode]. flds. rewrite rest_here. destruct h. reflexivity.
Qed.
(** ** What fails *)
(** a DWORD event value above 16 bits arrives changed *)
Theorem C44_event_dword_refuted : exists h d d', In (h_type h) base_types /\ zlen d = 4 /\ d <> d' /\
  forall J fd, carried fd (enc_event_add J h EV_EQUAL (Some d)) (OpEvAdd fd h EV_EQUAL d').
Proof.
  exists (mk_h 13 0 0 1 4 T_DWORD), [1;2;3;4], [1;2;0;0]. split; [vm_compute; tauto|]. split; [reflexivity|]. split; [discriminate|]. intros J fd. eapply carried_intro; [reflexivity | vm_compute; repeat split; discriminate | vm_compute; reflexivity].
Qed.
(** ** C53: the reference value of an event.  [C44_event_add_data_partial] above: unchanged for every type but DWORD and TIME.
    Of those only the low 16 bits arrive, whatever the value: *)
Theorem C53_truncated_partial : forall J fd h et d, handle_ok h -> int32 et -> (h_type h = T_DWORD \/ h_type h = T_TIME) -> bytes_ok d ->
  zlen d = typesize_bits (h_type h) / 8 ->
  carried fd (enc_event_add J h et (Some d)) (OpEvAdd fd h et (le_bytes (length d) (le_val d mod 65536))).
Proof.
  intros J fd h et d (A & B & C & D & E & F) T I Hd L.
  assert (Q : conv (h_type h) d = Some (only16 d) /\ 4 <= typesize_bits (h_type h) / 8 <= 8) by (destruct I as [-> | ->]; (split; [reflexivity | vm_compute; split; discriminate])).
  destruct Q as [Q1 Q2].
  assert (O : only16 d = le_bytes (length d) (le_val d mod 65536)).
  { unfold only16. destruct d as [|x [|y r]]; [rewrite zlen_nil in L; lia | rewrite zlen_cons, zlen_nil in L; lia |].
    inversion Hd as [|? ? Hx Hd1]; subst. inversion Hd1 as [|? ? Hy Hr]; subst. cbn [firstn app length le_val].
    replace (zlen (x :: y :: r) - 2) with (zlen r) by (rewrite !zlen_cons; lia).
    set (v := (x + 256 * (y + 256 * le_val r)) mod 65536).
    assert (V : v = x + 256 * y) by (unfold v; symmetry; apply (Z.mod_unique_pos _ _ (le_val r)); lia).
    rewrite V. cbn [le_bytes]. replace ((x + 256 * y) mod 256) with x by (apply (Z.mod_unique_pos _ _ y); lia).
    replace ((x + 256 * y) / 256) with y by (apply (Z.div_unique_pos _ _ _ x); lia). rewrite (Z.mod_small y) by lia. rewrite (Z.div_small y) by lia.
    do 2 f_equal. unfold zeros, zlen. rewrite Nat2Z.id. clear. induction r; [reflexivity|]. cbn [length repeat le_bytes]. change (0 mod 256) with 0. change (0 / 256) with 0. f_equal. exact IHr. }
  assert (Lv : zlen (le_bytes (length d) (le_val d mod 65536)) = zlen d) by (rewrite zlen_le_bytes; reflexivity).
  eapply carried_intro.
  - unfold enc_event_add. cbv zeta. rewrite Q1. replace (4088 <? 25 + typesize_bits (h_type h) / 8) with false by lia. rewrite O.
    rewrite <- L, <- Lv. unfold zlen. rewrite Nat2Z.id, firstn_all. reflexivity.
  - split; cbn [fst snd]; [lia|]. rewrite !zlen_app, Lv. rewrite !zlen_le4. change (zlen [u8 (h_bit h)]) with 1. lia.
  - rewrite <- !app_assoc. cbn [decode]. flds. rewrite rest_here. destruct h. reflexivity.
Qed.
(** so that they arrive unchanged exactly when they are below 2^16 *)
Theorem C53_small : forall d, bytes_ok d -> (le_bytes (length d) (le_val d mod 65536) = d <-> le_val d < 65536).
Proof.
  intros d Hd. assert (R := le_val_range d Hd). split; intros H.
  - apply (f_equal le_val) in H. rewrite le_val_le_bytes in H. assert (0 <= (le_val d mod 65536) mod 256 ^ Z.of_nat (length d) <= le_val d mod 65536) by (split; [apply Z.mod_pos_bound; apply Z.pow_pos_nonneg; lia | apply Z.mod_le; [lia | apply Z.pow_pos_nonneg; lia]]). lia.
  - rewrite Z.mod_small by lia. apply le_bytes_le_val. exact Hd.
Qed.
Example C53_ex : handle_ok (mk_h 13 0 0 1 4 T_DWORD) /\ bytes_ok [1;2;3;4] /\ zlen [1;2;3;4] = typesize_bits T_DWORD / 8 /\ le_bytes 4 (le_val [1;2;3;4] mod 65536) = [1;2;0;0].
Proof. split; [vm_compute; repeat split; discriminate|]. split; [repeat constructor; lia|]. split; reflexivity. Qed.
(** dax_tag_add with a name of 29 to 32 characters, which the server allows, writes past its buffer *)
Theorem C44_long_name_refuted : forall nm type count attr, 29 <= zlen nm <= 32 -> count <> 0 -> enc_tag_add nm type count attr = Undef UOob.
Proof.
  intros nm type count attr L C. unfold enc_tag_add. replace (count =? 0) with false by lia. replace (32 <? zlen nm) with false by lia. replace (41 <? 12 + zlen nm + 1) with true by lia. reflexivity.
Qed.
(** dax_atomic_op with a huge size passes the size check, because the sum wraps *)
Theorem C44_atomic_wrap_refuted : exists J h d, handle_ok h /\ 4088 < h_size h /\ zlen d = 4068 /\ enc_atomic J h (Some d) 1 = Undef UOob.
Proof.
  exists (fun _ => 0), (mk_h 13 0 0 1 4294967290 T_BYTE), (repeat 1 4068). split; [vm_compute; repeat split; discriminate|]. split; [vm_compute; reflexivity|]. split; vm_compute; reflexivity.
Qed.
(** two requests with different offsets are indistinguishable beyond 2^31: the server reads the offset as a signed number *)
Theorem C44_offset_refuted : exists idx off d o, is32 off /\ off <> o /\ forall fd, carried fd (enc_write idx off d) (OpWrite fd idx o d).
Proof.
  exists 13, 4294967295, [7], (-1). split; [unfold is32; lia|]. split; [lia|]. intros fd. eapply carried_intro; [reflexivity | vm_compute; repeat split; discriminate | vm_compute; reflexivity].
Qed.
Example C44_ex : c_string (str "foo") /\ handle_ok (mk_h 13 4 0 2 8 T_DINT) /\ enc_read (fun _ => 7) 13 4 8 = Done (Send 6 [13;0;0;0; 4;0;0;0; 8;0;0;0; 7;7]) /\
  enc_atomic (fun _ => 7) (mk_h 13 4 0 1 4 T_DINT) (Some [1;2;3;4]) 258 = Done (Send 23 [13;0;0;0; 4;0;0;0; 1;0;0;0; 21;0;0;0; 0; 2;1;0;0; 1;2;3;4]).
Proof. split; [vm_compute; repeat constructor|]. split; [vm_compute; repeat split; discriminate|]. split; vm_compute; reflexivity. Qed.
