(** * C149, C150: mappings and groups through the library *)
From Verif Require Import Base Const Types State Events Atomic Server Lib SearchProofs Shape Inv Reach Spec Demo Prop_Tags Prop_Data Prop_Modules Prop_Encode EvSpec Prop_Maps Prop_Groups
  ClientTypes ClientMsg ClientData Prop_ClientOvr LuaConv ClientMap.
From Verif Require Import IdInv ModInv.

(** ** C149 *)
(** mapping [id] of tag [i] goes from [src] to [dst] *)
Definition mapped (s : server) (i id : Z) (src dst : handle) : Prop :=
  exists t l m, znth (s_db s) i = Some t /\ t_maps t = Some l /\ In m l /\ m_id m = id /\ m_src m = src /\ m_dst m = dst.
(** less than 2^31 mappings have been made on the tag *)
Definition ids_left (s : server) (i : Z) : Prop := forall t, znth (s_db s) i = Some t -> t_nextmap t < 2147483648.

Lemma map_add_ask E s fd src dst s' r : ask E s (OpMapAdd fd src dst) = Done (s', r) ->
  exists s1 k, madd s src dst s1 k /\ r = (if k <? 0 then inr k else inl (le_bytes 4 k)) /\ s' = Spec.after s1 [if k <? 0 then OErr fd MSG_MAP_ADD k else OResp fd MSG_MAP_ADD (le_bytes 4 k)].
Proof.
  intros H. apply ask_inv in H as (H & ->). apply step_inv in H as (s1 & u & H & ->). cbn [handle_op] in H. apply bind_done in H as (s2 & k & H1 & H). apply reply_int_done in H. subst s1.
  exists s2, k. split; [apply map_add_cases; exact H1|]. split; [|reflexivity]. cbn [s_out set_step set_out]. rewrite rev_app_distr. cbn [rev app]. destruct (k <? 0); reflexivity.
Qed.
Lemma id_back k : 0 <= k < 2147483648 -> s32 (le_val (slice 0 4 (le_bytes 4 k))) = k.
Proof. intros H. change (slice 0 4 (le_bytes 4 k)) with (le_bytes 4 k). rewrite le_val_le_bytes. change (256 ^ Z.of_nat 4) with 4294967296. rewrite Z.mod_small by lia. apply s32_small. lia. Qed.
Lemma desc_lt m : forall l k, desc (map m_id l) k -> In m l -> m_id m < k.
Proof. induction l as [|x l IH]; intros k D I; [destruct I|]. cbn in D. destruct D as [D0 D1]. destruct I as [->|I]; [lia|]. specialize (IH _ D1 I). lia. Qed.
(** a mapping that was added goes from the source to the destination asked for, under the id that is returned *)
Theorem C149_added : forall E s fd src dst s' i id, reachable E s -> ids_left s (h_index src) -> dax_map_add E fd s src dst = Done (s', inl (i, id)) ->
  i = h_index src /\ 0 <= id < 2147483648 /\ mapped s' i id src dst.
Proof.
  intros E s fd src dst s' i id R Lf H. unfold dax_map_add in H. apply rbind_done in H as ((s1 & r) & H1 & H). apply map_add_ask in H1 as (s2 & k & M & -> & ->).
  destruct (Z.ltb_spec k 0) as [Neg|Pos]; [discriminate|]. assert (Q1 : id = s32 (le_val (slice 0 4 (le_bytes 4 k)))) by congruence. assert (Q2 : i = h_index src) by congruence. assert (Q3 : s' = Spec.after s2 [OResp fd MSG_MAP_ADD (le_bytes 4 k)]) by congruence. clear H. subst. split; [reflexivity|].
  assert (B : k < 2147483648).
  { inversion M as [e He|t l m Ht Hl Hm Hs Hd|t l kk a Ht Hl Hn]; subst; [lia| |apply Lf; exact Ht]. destruct (wf_maps _ _ _ (reachable_ids _ _ R _ _ Ht) _ Hl) as (D & _ & _). assert (Z1 := desc_lt _ _ _ D Hm). specialize (Lf _ Ht). lia. }
  rewrite id_back by lia. split; [lia|].
  inversion M as [e He|t l m Ht Hl Hm Hs Hd|t l kk a Ht Hl Hn]; subst; [lia| |].
  - exists t, l, m. repeat split; auto.
  - eexists _, _, _. split; [cbn; apply znth_zset_eq; eapply znth_range; exact Ht|]. split; [reflexivity|]. split; [left; reflexivity|]. repeat split.
Qed.
Lemma le4_parts z : exists a b c d, le_bytes 4 z = [a; b; c; d] /\ le_val [a; b; c; d] = z mod 4294967296.
Proof. do 4 eexists. split; [reflexivity|]. change (le_val (le_bytes 4 z) = z mod 4294967296). rewrite le_val_le_bytes. reflexivity. Qed.
Lemma s32_int x : int32 x -> s32 (x mod 4294967296) = x.
Proof. unfold int32, s32, wrap_s. intros H. cbv zeta. destruct (_ <? _) eqn:Q; lia. Qed.
Lemma dec_here h r : handle_ok h -> dec_handle (handle_bytes h ++ r) 0 = h.
Proof.
  intros (A & B & C & D & F & G). unfold handle_bytes.
  destruct (le4_parts (h_index h)) as (a1 & a2 & a3 & a4 & -> & Q1). destruct (le4_parts (h_byte h)) as (b1 & b2 & b3 & b4 & -> & Q2). destruct (le4_parts (h_count h)) as (c1 & c2 & c3 & c4 & -> & Q3).
  destruct (le4_parts (h_size h)) as (d1 & d2 & d3 & d4 & -> & Q4). destruct (le4_parts (h_type h)) as (e1 & e2 & e3 & e4 & -> & Q5).
  unfold dec_handle.
  match goal with |- mk_h (s32 (le_val ?x1)) (le_val ?x2) ?x3 (le_val ?x4) (le_val ?x5) (le_val ?x6) = _ =>
    change x1 with [a1; a2; a3; a4]; change x2 with [b1; b2; b3; b4]; change x3 with (u8 (h_bit h)); change x4 with [c1; c2; c3; c4]; change x5 with [d1; d2; d3; d4]; change x6 with [e1; e2; e3; e4] end.
  rewrite Q1, Q2, Q3, Q4, Q5. rewrite (s32_int _ A). unfold is32 in *. rewrite !Z.mod_small by lia. unfold u8. rewrite Z.mod_small by lia. destruct h; reflexivity.
Qed.
Lemma dec_skip pre b k : 0 <= k -> dec_handle (pre ++ b) (zlen pre + k) = dec_handle b k.
Proof.
  intros H. assert (S : forall j, 0 <= j -> slice (zlen pre + j) 4 (pre ++ b) = slice j 4 b).
  { intros j Hj. unfold slice. rewrite skipn_app. replace (Z.to_nat (zlen pre + j)) with (length pre + Z.to_nat j)%nat by (unfold zlen; lia).
    rewrite (skipn_all2 pre) by lia. cbn [app]. do 2 f_equal. lia. }
  unfold dec_handle. rewrite <- !Z.add_assoc. rewrite !S by lia. f_equal. unfold nthb. rewrite app_nth2 by (unfold zlen; lia). f_equal. unfold zlen. lia.
Qed.
(** a mapping that is there is found under its id, by every client, and nothing changes; *)
Theorem C149_found : forall J E s fd i id src dst, reachable E s -> mapped s i id src dst -> handle_ok src -> handle_ok dst ->
  exists s', dax_map_get J E fd s i id = Done (s', (src, dst), 0) /\ s_db s' = s_db s.
Proof.
  intros J E s fd i id src dst R (t & l & m & Ht & Hl & Hm & <- & <- & <-) Os Od.
  assert (St : exists s', step E s (OpMapGet fd i (m_id m)) = Done s').
  { unfold step. cbn [handle_op]. unfold bind, get, lift, map_get. rewrite Ht, Hl. destruct (find _ l) as [x|]; [|eexists; reflexivity].
    unfold respond. assert (L : zlen (handle_bytes (m_src x) ++ handle_bytes (m_dst x) ++ jbytes E (s_step s) 42 6) = 48) by (rewrite !zlen_app; unfold handle_bytes; rewrite !zlen_app, !zlen_le_bytes, zlen_jbytes; reflexivity).
    rewrite L. change (MSG_DATA_SIZE <? 48) with false. eexists. reflexivity. }
  destruct St as (s' & St). destruct (C33_query _ _ _ _ _ _ _ _ R Ht Hl St) as (Q & _). destruct (Q _ Hm eq_refl) as (pad & _ & ->).
  exists (Spec.after s [OResp fd MSG_MAP_GET (handle_bytes (m_src m) ++ handle_bytes (m_dst m) ++ pad)]). split; [|reflexivity]. unfold dax_map_get, ask. rewrite St. cbn [rbind]. unfold Spec.after. cbn [s_out set_step set_out]. rewrite rev_app_distr. cbn [rev app rbind].
  rewrite dec_here by exact Os. change 21 with (21 + 0). change 21 with (zlen (handle_bytes (m_src m))) at 1. rewrite dec_skip by lia. rewrite dec_here by exact Od. reflexivity.
Qed.
(** another id is refused *)
Theorem C149_unknown : forall J E s fd i id t l, reachable E s -> znth (s_db s) i = Some t -> t_maps t = Some l -> (forall src dst, ~ mapped s i id src dst) ->
  exists s' a b, dax_map_get J E fd s i id = Done (s', (a, b), E_NOTFOUND) /\ s_db s' = s_db s.
Proof.
  intros J E s fd i id t l R Ht Hl N. assert (N' : forall m, In m l -> m_id m <> id) by (intros m Hm Q; apply (N (m_src m) (m_dst m)); exists t, l, m; repeat split; auto).
  unfold dax_map_get, ask, step. cbn [handle_op]. unfold bind, get, lift, map_get. rewrite Ht, Hl. destruct (find _ l) as [x|] eqn:F.
  - exfalso. apply find_some in F as [F1 F2]. apply (N' _ F1). lia.
  - unfold reply_err, emit, modify. cbn [rbind]. cbn [s_out set_step set_out]. rewrite rev_app_distr. cbn [rev app rbind]. exists (Spec.after s [OErr fd MSG_MAP_GET E_NOTFOUND]). do 2 eexists. split; reflexivity.
Qed.
(** so a mapping that was just added is found as it was asked for, *)
Theorem C149_roundtrip : forall J E s fd fd' src dst s1 i id, reachable E s -> ids_left s (h_index src) -> handle_ok src -> handle_ok dst ->
  dax_map_add E fd s src dst = Done (s1, inl (i, id)) -> exists s2, dax_map_get J E fd' s1 i id = Done (s2, (src, dst), 0) /\ s_db s2 = s_db s1.
Proof.
  intros J E s fd fd' src dst s1 i id R Lf Os Od H. destruct (C149_added _ _ _ _ _ _ _ _ R Lf H) as (_ & _ & M). apply C149_found; try assumption.
  unfold dax_map_add in H. apply rbind_done in H as ((s2 & r) & H1 & H). assert (s2 = s1) by (destruct r; congruence). subst s2. apply ask_inv in H1 as (H1 & _). exact (reachable_step _ _ _ _ R H1).
Qed.
(** also by a script, with the table it got *)
Theorem C149_script : forall J E L s fd fd' src dst s1 v, reachable E s -> ids_left s (h_index src) -> handle_ok src -> handle_ok dst ->
  lua_map_add E fd s src dst = Done (s1, Some v) -> exists s2, lua_map_get J E L fd' s1 v = Done (s2, MHandles src dst) /\ s_db s2 = s_db s1.
Proof.
  intros J E L s fd fd' src dst s1 v R Lf Os Od H. unfold lua_map_add in H. apply rbind_done in H as ((s2 & r) & H1 & H). destruct r as [[i id]|e]; [|discriminate].
  injection H as <- <-. destruct (C149_added _ _ _ _ _ _ _ _ R Lf H1) as (-> & Hid & _). destruct (C149_roundtrip J _ _ _ fd' _ _ _ _ _ R Lf Os Od H1) as (s3 & G & Q). exists s3. split; [|exact Q].
  unfold lua_map_get, lua_map_id. cbn [rawget key_eqb Z.eqb Pos.eqb toint]. destruct Os as (O1 & _). unfold int32 in O1. rewrite !s32_small by lia. rewrite G. reflexivity.
Qed.
(** FULL STATEMENT (false, see the refutations): deleting a mapping takes away this mapping and no other, and deleting one that is not
    there is refused.  It holds if the mapping is the newest or the second newest of its tag. *)
Definition newer (s : server) (i id : Z) : list dmap := match znth (s_db s) i with Some t => match t_maps t with Some l => filter (fun m => id <? m_id m) l | None => [] end | None => [] end.
Lemma newest_first m : forall l k, desc (map m_id l) k -> In m l -> zlen (filter (fun x => m_id m <? m_id x) l) <= 1 -> znth l 0 = Some m \/ znth l 1 = Some m.
Proof.
  intros [|a [|b l]] k D I Le; [destruct I|destruct I as [->|[]]; left; apply znth_0|]. cbn [map desc] in D. destruct D as (D1 & D2 & D3).
  destruct I as [->|[->|I]]; [left; apply znth_0 | right; change 1 with (0 + 1); rewrite znth_S, znth_0 by lia; reflexivity|]. exfalso. assert (Z1 := desc_lt _ _ _ D3 I). cbn [filter] in Le. replace (m_id m <? m_id a) with true in Le by lia. replace (m_id m <? m_id b) with true in Le by lia.
  unfold zlen in Le. cbn [length] in Le. lia.
Qed.
Theorem C149_deleted_partial : forall J E s fd i id src dst s', reachable E s -> mapped s i id src dst -> dax_map_del E fd s i id = Done (s', 0) ->
  (exists s2 a b, dax_map_get J E fd s' i id = Done (s2, (a, b), E_NOTFOUND)) /\
  (forall id' src' dst', mapped s' i id' src' dst' -> mapped s i id' src' dst' /\ id' <> id) /\
  (zlen (newer s i id) <= 1 -> forall id' src' dst', mapped s i id' src' dst' -> id' <> id -> mapped s' i id' src' dst').
Proof.
  intros J E s fd i id src dst s' R (t & l & m & Ht & Hl & Hm & Hi & _) H. unfold dax_map_del in H. apply rbind_done in H as ((s1 & r) & H1 & H). assert (s1 = s') by (destruct r; congruence). subst s1. clear H.
  apply ask_inv in H1 as (H1 & _). assert (Nl : l <> []) by (destruct l; [destruct Hm | discriminate]). destruct (C32_partial _ _ _ _ _ _ _ _ R Ht Hl Nl H1) as (C & _).
  destruct (C (ex_intro _ m (conj Hm Hi))) as (_ & t' & l' & Ht' & Hl' & C1 & C2). assert (R' := reachable_step _ _ _ _ R H1).
  split; [|split].
  - destruct (C149_unknown J E s' fd i id t' l' R' Ht' Hl') as (s2 & a & b & G & _); [|exists s2, a, b; exact G].
    intros src' dst' (t2 & l2 & m2 & A1 & A2 & A3 & A4 & _). assert (t2 = t') by congruence. subst t2. assert (l2 = l') by congruence. subst l2. exact (proj2 (C1 _ A3) A4).
  - intros id' src' dst' (t2 & l2 & m2 & A1 & A2 & A3 & A4 & A5). assert (t2 = t') by congruence. subst t2. assert (l2 = l') by congruence. subst l2. destruct (C1 _ A3) as (B1 & B2). split; [exists t, l, m2; tauto | congruence].
  - intros Nw id' src' dst' (t2 & l2 & m2 & A1 & A2 & A3 & A4 & A5) Ne. assert (t2 = t) by congruence. subst t2. assert (l2 = l) by congruence. subst l2. exists t', l', m2. split; [exact Ht'|]. split; [exact Hl'|].
    split; [|tauto]. apply (C2 m); [| exact Hi | exact A3 | congruence].
    destruct (wf_maps _ _ _ (reachable_ids _ _ R _ _ Ht) _ Hl) as (D & _ & _). eapply newest_first; [exact D | exact Hm|]. rewrite Hi. unfold newer in Nw. rewrite Ht, Hl in Nw. exact Nw.
Qed.
Definition no_text : lenv := {| l_narrow := fun _ => 0; l_strnum := fun _ => LNil |}.
(** a script makes three mappings and deletes the oldest: the second is gone as well *)
Definition map_server : server := after_ops env0 [OpTagAdd 5 (str "src") T_INT 4 0; OpTagAdd 5 (str "dst") T_INT 8 0].
Lemma map_server_reachable : reachable env0 map_server.
Proof. apply after_reachable. vm_compute. reflexivity. Qed.
Theorem C149_lost_refuted : exists E L fd s J s1 v1 s2 v2 s3 v3 s4 s5, reachable E s /\
  lua_map_add E fd s (part 11 0) (part 12 0) = Done (s1, Some v1) /\ lua_map_add E fd s1 (part 11 2) (part 12 4) = Done (s2, Some v2) /\ lua_map_add E fd s2 (part 11 4) (part 12 8) = Done (s3, Some v3) /\
  lua_map_del E L fd s3 v1 = Done (s4, true) /\ lua_map_get J E L fd s4 v2 = Done (s5, MNils).
Proof.
  exists env0, no_text, 5, map_server, (fun _ => 0). do 8 eexists. split; [exact map_server_reachable|].
  split; [vm_compute; reflexivity|]. split; [vm_compute; reflexivity|]. split; [vm_compute; reflexivity|]. split; [vm_compute; reflexivity|]. vm_compute. reflexivity.
Qed.
(** a script that deletes a mapping twice ends the server *)
Theorem C149_crash_refuted : exists E L fd s s1 v s2, reachable E s /\ lua_map_add E fd s (part 11 0) (part 12 0) = Done (s1, Some v) /\ lua_map_del E L fd s1 v = Done (s2, true) /\ lua_map_del E L fd s2 v = Undef UNull.
Proof.
  exists env0, no_text, 5, map_server. do 3 eexists. split; [exact map_server_reachable|]. split; [vm_compute; reflexivity|]. split; [vm_compute; reflexivity|]. vm_compute. reflexivity.
Qed.
Example C149_ex : exists s1 s2 s3, ids_left map_server 11 /\ handle_ok (part 11 2) /\ dax_map_add env0 5 map_server (part 11 2) (part 12 4) = Done (s1, inl (11, 1)) /\
  dax_map_get (fun _ => 0) env0 6 s1 11 1 = Done (s2, (part 11 2, part 12 4), 0) /\ zlen (newer s1 11 1) = 0 /\ dax_map_del env0 5 s1 11 1 = Done (s3, 0).
Proof.
  do 3 eexists. split; [intros t H; vm_compute in H; injection H as <-; vm_compute; reflexivity|]. split; [vm_compute; intuition discriminate|].
  split; [vm_compute; reflexivity|]. split; [vm_compute; reflexivity|]. split; [vm_compute; reflexivity|]. vm_compute. reflexivity.
Qed.

(** ** C150 *)
(** the server has the group of this structure of the library *)
Definition group_held (s : server) (fd : Z) (g : cgroup) : Prop := has_group s fd (cg_index g) (cg_handles g) /\ cg_size g = total (cg_handles g).
Lemma sum_total : forall hs n k, sum_sizes hs n = Some k -> k = n + total hs.
Proof. induction hs as [|h hs IH]; intros n k H; cbn [sum_sizes total fold_right] in *; [injection H as <-; lia|]. destruct (_ <? _); [discriminate|]. apply IH in H. unfold total in H. lia. Qed.
Lemma found E s m fd : SysInv E s -> In m (s_mods s) -> m_fd m = fd -> find_mod s fd = Some m.
Proof.
  intros S H Q. unfold find_mod. destruct (find _ (s_mods s)) as [x|] eqn:F.
  - apply find_some in F as [F1 F2]. apply Z.eqb_eq in F2. f_equal. eapply one_module; [exact S | exact F1 | exact H | right; congruence].
  - assert (Z1 := find_none _ _ F _ H). cbn in Z1. lia.
Qed.
(** a group that was added is on the server with exactly these members, under an index that was not in use.  As in C35 the size noted for
    the table must cover the module's groups, which is so until the module deletes one. *)
Theorem C150_added_partial : forall E s fd m hs s' g, reachable E s -> In m (s_mods s) -> m_fd m = fd -> Prop_Groups.covered m -> dax_group_add E fd s hs = Done (s', inl g) ->
  cg_handles g = hs /\ group_held s' fd g /\ (forall h, ~ denotes m (cg_index g) h) /\
  forall i h, has_group s fd i h -> has_group s' fd i h.
Proof.
  intros E s fd m hs s' g R Hm Fd C H. unfold dax_group_add in H. destruct (_ <? _); [discriminate|]. destruct (sum_sizes hs 0) as [n|] eqn:Sz; [|discriminate]. apply sum_total in Sz.
  apply rbind_done in H as ((s1 & r) & H1 & H). destruct r as [p|e]; [|discriminate]. assert (Qg : g = mk_cg (le_val (slice 0 4 p)) hs n) by congruence. assert (s1 = s') by congruence. subst s1. clear H.
  apply ask_inv in H1 as (St & Hr). assert (St0 := St).
  assert (A : answered s s' (OResp fd MSG_GRP_ADD p) /\ exists k, 0 <= k < 2147483648 /\ p = le_bytes 4 k).
  { apply step_inv in St as (s1 & u & H & ->). cbn [handle_op] in H. unfold with_mod in H. inv1 H. destruct (find_mod s fd) as [m0|] eqn:F; [|discriminate].
    assert (m0 = m) by (apply find_some in F as [F1 F2]; apply Z.eqb_eq in F2; eapply one_module; [exact (reachable_sys _ _ R) | exact F1 | exact Hm | right; congruence]). subst m0.
    apply bind_done in H as (s2 & k & H1 & H). apply reply_int_done in H. subst s1. assert (Ev : s_out s2 = s_out s) by (apply group_add_other in H1 as [->|(g0 & z & ->)]; reflexivity).
    cbn [s_out set_step set_out] in Hr. rewrite rev_app_distr in Hr. cbn [rev app] in Hr. destruct C as (C1 & C2). apply group_add_done in H1; [|exact C1 | exact C2]. destruct (Z.ltb_spec k 0); [discriminate|].
    assert (p = le_bytes 4 k) by congruence. subst p. split; [exists []; split; [cbn; rewrite Ev; reflexivity | constructor]|]. exists k. split; [|reflexivity]. destruct H1 as [[? _]|(_ & _ & g0 & z & _ & B1 & B2 & _)]; lia. }
  destruct A as (A & k & Hk & Hp). destruct (C35_new_id _ _ _ _ _ _ _ R Hm Fd C St0 A) as (i & m' & Hi & Hp' & Nu & Hm' & U' & D').
  assert (Sy' := reachable_sys _ _ (reachable_step _ _ _ _ R St0)).
  destruct (C35_step _ _ _ _ _ R Hm C (I : spares_groups (OpGrpAdd fd hs) (m_fd m)) St0) as (m2 & Hm2 & U2 & F2 & C2 & D2).
  assert (m2 = m') by (eapply one_module; [exact Sy' | exact Hm2 | exact Hm' | left; congruence]). subst m2.
  assert (F' : find_mod s' fd = Some m') by (eapply found; [exact Sy' | exact Hm' | congruence]).
  assert (Bk : 0 <= i < 4294967296). { split; [exact Hi|]. assert (Z1 := D'). unfold denotes in Z1. apply znth_range in Z1. destruct C2 as (Cz & Cc). assert (Z2 := Cc _ _ D'). lia. }
  assert (Qi : cg_index g = i). { subst g p. cbn [cg_index]. rewrite Hp'. change (slice 0 4 (le_bytes 4 i)) with (le_bytes 4 i). rewrite le_val_le_bytes. apply Z.mod_small. exact Bk. }
  rewrite Qi. subst g. cbn [cg_handles cg_size] in *. split; [reflexivity|]. split; [split; cbn [cg_index cg_handles cg_size]; [cbn [cg_index] in Qi; rewrite Qi; exists m'; split; [exact F' | exact D'] | lia]|].
  split; [exact Nu|]. intros j h (m0 & G1 & G2). exists m'. split; [exact F'|]. assert (F := found _ _ _ _ (reachable_sys _ _ R) Hm Fd). assert (m0 = m) by congruence. subst m0. exact (D2 _ _ G2).
Qed.
Lemma alone_read E s fd h d : plain_member s h -> sane h -> read_alone E s fd h (OResp fd MSG_TAG_READ d) -> zlen d = h_size h /\ h_size h <= MSG_DATA_SIZE.
Proof.
  intros P S H. unfold read_alone in H. apply step_inv in H as (s1 & u & H & Q). cbn [handle_op] in H. unfold h_read in H. inv1 H. apply bind_done in H as (s2 & r & H1 & H).
  assert (O : s_out s1 = s_out s ++ [OResp fd MSG_TAG_READ d]) by (apply (f_equal s_out) in Q; cbn in Q; congruence).
  destruct (Z_le_gt_dec (h_size h) MSG_DATA_SIZE) as [L|L].
  - destruct (tag_read_plain E fd fd h MSG_DATA_SIZE MSG_DATA_SIZE s s2 r P S L H1) as (-> & _ & Z1). split; [|exact L]. destruct r as [x|e].
    + destruct (Z1 _ eq_refl) as (Z2 & _). destruct S as [_ S]. replace ((h_size h <? 0) || (MSG_DATA_SIZE <? h_size h)) with false in H by lia.
      unfold respond in H. match type of H with (if MSG_DATA_SIZE <? zlen ?y then _ else _) _ = _ => set (yy := y) in * end. destruct (MSG_DATA_SIZE <? zlen yy); [unfold ret in H; injection H as <- _; exfalso; apply (f_equal (@length out)) in O; rewrite app_length in O; cbn in O; lia|].
      unfold emit, modify in H. injection H as <- _. cbn in O. apply app_inv_head in O. assert (yy = d) by congruence. subst d. subst yy. rewrite zlen_firstn. rewrite zlen_app, zlen_jbytes. lia.
    + unfold reply_err, emit, modify in H. injection H as <- _. cbn in O. apply app_inv_head in O. discriminate.
  - exfalso. destruct (tag_read_plain E fd fd h MSG_DATA_SIZE (h_size h) s s2 r P S (Z.le_refl _) H1) as (-> & _ & Z1). destruct r as [x|e].
    + destruct (Z1 _ eq_refl) as (_ & Z2). lia.
    + unfold reply_err, emit, modify in H. injection H as <- _. cbn in O. apply app_inv_head in O. discriminate.
Qed.
Lemma splice_all (d b : list Z) : zlen d = zlen b -> splice 0 d b = d.
Proof. intros H. unfold splice. cbn [Z.to_nat firstn app]. rewrite skipn_all2 by (unfold zlen in H; lia). apply app_nil_r. Qed.
Lemma firstn_splice0 (p b : list Z) : zlen p <= zlen b -> firstn (length p) (splice 0 p b) = p.
Proof. intros H. unfold splice. cbn [Z.to_nat firstn app]. rewrite firstn_app, firstn_all, Nat.sub_diag. apply app_nil_r. Qed.
Lemma alone_error E s fd h e : plain_member s h -> read_alone E s fd h (OErr fd MSG_TAG_READ e) -> e <> 0.
Proof.
  intros P H. unfold read_alone in H. apply step_inv in H as (s1 & u & H & Q). cbn [handle_op] in H. unfold h_read in H. inv1 H. apply bind_done in H as (s2 & r & H1 & H).
  assert (O : s_out s1 = s_out s ++ [OErr fd MSG_TAG_READ e]) by (apply (f_equal s_out) in Q; cbn in Q; congruence).
  unfold tag_read in H1. destruct (znth (s_db s) (h_index h)) as [t|] eqn:Ht.
  2:{ injection H1 as <- <-. unfold reply_err, emit, modify in H. injection H as <- _. cbn in O. apply app_inv_head in O. injection O as <-. discriminate. }
  rewrite (P _ Ht) in H1. destruct (negb (fits32 _)); [discriminate|]. destruct (tag_size (s_types s) t) as [sz|]; [|discriminate]. cbn [rbind] in H1.
  destruct (sz <? _). { injection H1 as <- <-. unfold reply_err, emit, modify in H. injection H as <- _. cbn in O. apply app_inv_head in O. injection O as <-. discriminate. }
  assert (G : forall x, r = inl x -> s2 = s -> e <> 0).
  { intros x -> ->. destruct (_ || _) in H; [unfold ret in H; injection H as <- _; exfalso; apply (f_equal (@length out)) in O; rewrite app_length in O; cbn in O; lia|].
    unfold respond in H. destruct (_ <? _) in H; [unfold ret in H; injection H as <- _; exfalso; apply (f_equal (@length out)) in O; rewrite app_length in O; cbn in O; lia|]. unfold emit, modify in H. injection H as <- _. cbn in O. apply app_inv_head in O. discriminate. }
  assert (G2 : forall c, r = inr c -> s2 = s -> c <> 0 -> e <> 0).
  { intros c -> -> Nc. unfold reply_err, emit, modify in H. injection H as <- _. cbn in O. apply app_inv_head in O. injection O as <-. exact Nc. }
  clear H O Q. destruct (t_data t); try discriminate; [injection H1 as <- <-; eapply G2; [reflexivity | reflexivity | discriminate]|].
  destruct (_ || _) in H1; [discriminate|]. destruct (has _ _) in H1; [|injection H1 as <- <-; eapply G; reflexivity].
  destruct (t_odata t), (t_omask t); try (destruct (_ =? _) in H1; [injection H1 as <- <-; eapply G; reflexivity | discriminate]).
  apply rbind_done in H1 as (? & _ & H1). apply rbind_done in H1 as (? & _ & H1). injection H1 as <- <-. eapply G; reflexivity.
Qed.
(** reading a group: the data of the members one after another, each the same as what [dax_tag_read] gets for it alone *)
Theorem C150_read_partial : forall E cc fd s g buf s' buf', group_held s fd g -> Forall (plain_member s) (cg_handles g) -> Forall sane (cg_handles g) ->
  dax_group_read E cc fd s g buf = Done (s', buf', 0) ->
  zlen buf' = zlen buf /\ exists ds, firstn (Z.to_nat (cg_size g)) buf' = concat ds /\
  Forall2 (fun h d => zlen d = h_size h /\ forall b s2 d2, zlen b = h_size h -> h_type h <> T_BOOL -> dax_tag_read E cc fd s h b = Done (s2, d2, 0) -> d2 = d) (cg_handles g) ds.
Proof.
  intros E cc fd s g buf s' buf' (G & Gs) P S H. unfold dax_group_read in H. destruct (_ <? _) in H; [discriminate|]. destruct (Z.ltb_spec (zlen buf) 4); [discriminate|].
  assert (Lb : zlen (splice 0 (le4 (cg_index g)) buf) = zlen buf) by (apply zlen_splice; apply in_bounds_iff; rewrite zlen_le_bytes; lia).
  cbv zeta in H. set (b1 := splice 0 (le4 (cg_index g)) buf) in *. apply rbind_done in H as ((s1 & r) & H1 & H). apply ask_inv in H1 as (St & Hr).
  destruct (C34_read _ _ _ _ _ _ G P S St) as [(ds & -> & F)|(e & l1 & h & l2 & -> & Qh & Al & _)].
  2:{ exfalso. unfold Spec.after in Hr. cbn [s_out set_step set_out] in Hr. rewrite rev_app_distr in Hr. cbn [rev app] in Hr. subst r. injection H as _ _ ->.
      rewrite Qh in P. apply Forall_app in P as [_ P]. apply Forall_cons_iff in P as [P _]. exact (alone_error _ _ _ _ _ P Al eq_refl). }
  unfold Spec.after in Hr. cbn [s_out set_step set_out] in Hr. rewrite rev_app_distr in Hr. cbn [rev app] in Hr. subst r. destruct (in_bounds 0 _ _) eqn:B; [|discriminate]. cbn [negb] in H. apply in_bounds_iff in B.
  apply rbind_done in H as (e & He & H). injection H as _ <- ->. split; [rewrite zlen_splice by (apply in_bounds_iff; lia); exact Lb|]. exists ds.
  assert (Fl : Forall2 (fun h d => zlen d = h_size h) (cg_handles g) ds).
  { clear - F P S. induction F as [|h d hs ds Q F IH]; [constructor|]. apply Forall_cons_iff in P as [P1 P2]. apply Forall_cons_iff in S as [S1 S2]. constructor; [eapply alone_read; eassumption | auto]. }
  assert (Tl : zlen (concat ds) = total (cg_handles g)). { clear - Fl. induction Fl as [|h d hs ds Q F IH]; [reflexivity|]. cbn [concat total fold_right]. rewrite zlen_app. unfold total in IH. lia. }
  split. { rewrite Gs, <- Tl. unfold zlen at 1. rewrite Nat2Z.id. apply firstn_splice0. lia. }
  clear - F P S. induction F as [|h d hs ds Q F IH]; [constructor|]. apply Forall_cons_iff in P as [P1 P2]. apply Forall_cons_iff in S as [S1 S2]. constructor; [|auto].
  destruct (alone_read _ _ _ _ _ P1 S1 Q) as (Z1 & Z2). split; [exact Z1|]. intros b s2 d2 Lb Nb H. unfold dax_tag_read in H. replace (MSG_DATA_SIZE <? h_size h) with false in H by lia.
  unfold c_read in H. replace (MSG_DATA_SIZE <? h_size h) with false in H by lia. destruct (s32_sane _ S1) as (Q1 & _). rewrite Q1 in H. unfold ask in H. unfold read_alone in Q. rewrite Q in H. cbn [rbind] in H.
  unfold Spec.after in H. cbn [s_out set_step set_out] in H. rewrite rev_app_distr in H. cbn [rev app rbind] in H. replace (in_bounds 0 (zlen d) (zlen b)) with true in H by (symmetry; apply in_bounds_iff; pose proof (zlen_nonneg d); lia).
  cbn [rbind Z.eqb negb] in H. replace (h_type h =? T_BOOL) with false in H by lia. apply rbind_done in H as (e & _ & H). injection H as _ <- _. apply splice_all. lia.
Qed.
(** the handle of whole values of a base type: its size is the size of a value times the count *)
Definition widths : list (Z * Z) :=
  [(T_BYTE, 1); (T_SINT, 1); (T_CHAR, 1); (T_WORD, 2); (T_UINT, 2); (T_INT, 2); (T_DWORD, 4); (T_UDINT, 4); (T_DINT, 4); (T_REAL, 4);
   (T_TIME, 8); (T_LWORD, 8); (T_ULINT, 8); (T_LINT, 8); (T_LREAL, 8)].
Definition whole_values (h : handle) : Prop := h_type h = T_BOOL \/ exists w, In (h_type h, w) widths /\ 0 <= h_count h /\ h_size h = w * h_count h.
Lemma fmt_whole k dbl ts cc h off len : whole_values h -> sane h -> 0 <= off -> off + h_size h <= len -> fmt (Datatypes.S k) dbl ts cc (h_type h) (h_count h) off 0 len = Done 0.
Proof.
  intros W S Ho L. destruct S as [_ S]. destruct W as [->|(w & W & C & Q)]; [reflexivity|].
  cbn [In widths] in W. repeat (destruct W as [W|W]; [injection W as <- <-; cbn [fmt]; cbv zeta;
    repeat match goal with |- (if ?b then _ else _) = _ => let v := eval vm_compute in b in match v with true => change b with true | false => change b with false end; cbn iota end;
    try reflexivity; match goal with |- (if ?b then _ else _) = _ => replace b with true by (symmetry; apply in_bounds_iff; lia) end; reflexivity|]). destruct W.
Qed.
Lemma format_whole dbl ts cc len : forall hs off, Forall whole_values hs -> Forall sane hs -> 0 <= off -> off + total hs <= len -> group_format dbl ts cc hs off len = Done 0.
Proof.
  induction hs as [|h hs IH]; intros off W S Ho L; [reflexivity|]. apply Forall_cons_iff in W as [W1 W2]. apply Forall_cons_iff in S as [S1 S2]. cbn [group_format total fold_right] in *. fold (total hs) in L.
  assert (T := total_pos _ S2). rewrite fmt_whole by (try assumption; lia). cbn [rbind Z.eqb negb]. apply IH; try assumption; destruct S1; lia.
Qed.
(** with a buffer of at least four bytes that the group fits in, reading does nothing undefined; nor does writing *)
Theorem C150_safe_partial : forall E cc fd s g buf s1, group_held s fd g -> Forall (plain_member s) (cg_handles g) -> Forall sane (cg_handles g) -> Forall whole_values (cg_handles g) ->
  4 <= zlen buf -> cg_size g <= zlen buf -> step E s (OpGrpRead fd (cg_index g)) = Done s1 -> exists s' buf' e, dax_group_read E cc fd s g buf = Done (s', buf', e).
Proof.
  intros E cc fd s g buf s1 (G & Gs) P S W L4 L St. unfold dax_group_read. replace (zlen buf <? cg_size g) with false by lia. replace (zlen buf <? 4) with false by lia. cbv zeta.
  assert (Lb : zlen (splice 0 (le4 (cg_index g)) buf) = zlen buf) by (apply zlen_splice; apply in_bounds_iff; rewrite zlen_le_bytes; lia). set (b1 := splice 0 (le4 (cg_index g)) buf) in *.
  unfold ask. rewrite St. cbn [rbind]. destruct (C34_read _ _ _ _ _ _ G P S St) as [(ds & -> & F)|(e & l1 & h & l2 & -> & _)].
  - unfold Spec.after. cbn [s_out set_step set_out]. rewrite rev_app_distr. cbn [rev app].
    assert (Tl : zlen (concat ds) = total (cg_handles g)).
    { clear - F P S. induction F as [|h d hs ds Q F IH]; [reflexivity|]. apply Forall_cons_iff in P as [P1 P2]. apply Forall_cons_iff in S as [S1 S2]. cbn [concat total fold_right]. rewrite zlen_app. specialize (IH P2 S2). unfold total in IH.
      destruct (alone_read _ _ _ _ _ P1 S1 Q). lia. }
    replace (in_bounds 0 (zlen (concat ds)) (zlen b1)) with true by (symmetry; apply in_bounds_iff; pose proof (zlen_nonneg (concat ds)); lia). cbn [negb].
    rewrite format_whole by (try assumption; lia). cbn [rbind]. do 3 eexists. reflexivity.
  - unfold Spec.after. cbn [s_out set_step set_out]. rewrite rev_app_distr. cbn [rev app]. do 3 eexists. reflexivity.
Qed.
Lemma write_error E s fd i off d e : step E s (OpWrite fd i off d) = Done (Spec.after s [OErr fd MSG_TAG_WRITE e]) -> e <> 0.
Proof.
  intros H. apply step_inv in H as (s1 & u & H & Q). cbn [handle_op] in H. unfold h_write in H. inv1 H. inv1 H. apply bind_done in H as (s2 & r & H1 & H).
  assert (O : s_out s1 = s_out s ++ [OErr fd MSG_TAG_WRITE e]) by (apply (f_equal s_out) in Q; cbn in Q; congruence). clear Q.
  destruct (Z.eqb_spec r 0) as [->|N]; cbn [negb] in H.
  - apply bind_done in H as (s3 & ? & H2 & H). unfold respond, emit, modify in H. cbn in H. injection H as <- _. cbn in O. apply app_inj_tail in O as [_ O]. discriminate.
  - unfold reply_err, emit, modify in H. injection H as <- _. cbn in O. apply app_inj_tail in O as [_ O]. congruence.
Qed.
(** FULL STATEMENT (false, see the refutation): writing a group has the effect of writing its members one after another.
    What holds, for open members (C34): the bytes of the members are written, with the consecutive parts of the data. *)
Theorem C150_written_partial : forall E cc fd s g d s', group_held s fd g -> Forall (open_member s) (cg_handles g) -> Forall sane (cg_handles g) ->
  dax_group_write E cc fd s g d = Done (s', 0) ->
  exists s2, exec E s (member_writes fd (cg_handles g) d) = Done s2 /\ s_db s2 = s_db s' /\ s_ret s2 = s_ret s' /\ s_types s2 = s_types s' /\ s_mods s2 = s_mods s'.
Proof.
  intros E cc fd s g d s' (G & Gs) P S H. unfold dax_group_write in H. apply rbind_done in H as (e & He & H). destruct (Z.eqb_spec e 0) as [->|N]; cbn [negb] in H; [|injection H as _ ->; congruence].
  destruct (in_bounds 0 (cg_size g) (zlen d)) eqn:B; [|discriminate]. apply in_bounds_iff in B. cbn [negb orb] in H. destruct (4088 <? _); [discriminate|].
  apply rbind_done in H as ((s1 & r) & H1 & H). apply ask_inv in H1 as (St & Hr). assert (s1 = s') by (destruct r; congruence). subst s1.
  assert (Lp : zlen (slice 0 (cg_size g) d) = cg_size g) by (apply zlen_slice; apply in_bounds_iff; lia).
  destruct (C34_write_partial _ _ _ _ _ _ _ G P S ltac:(rewrite Lp, Gs; lia) St) as (l1 & l2 & s2 & ev & o & Q & X & Y1 & Y2 & Y3 & Y4 & _ & _ & _ & [(-> & _)|(h & l3 & e & -> & O & Er)]).
  - rewrite app_nil_r in Q. exists s2. split; [|auto]. rewrite Q. rewrite <- X. f_equal.
    assert (Qd : d = slice 0 (cg_size g) d ++ skipn (Z.to_nat (cg_size g)) d) by (unfold slice; cbn [Z.to_nat skipn]; symmetry; apply firstn_skipn). rewrite Qd at 1. rewrite <- Q. apply member_writes_app; [exact S | rewrite Lp, Gs; lia].
  - exfalso. rewrite O, !rev_app_distr in Hr. cbn [rev app] in Hr. subst r. assert (e = 0) by congruence. exact (write_error _ _ _ _ _ _ _ Er H0).
Qed.
(** a group that was deleted is gone and all other groups of the module stay *)
Theorem C150_deleted : forall E s fd g s' m, reachable E s -> In m (s_mods s) -> m_fd m = fd -> dax_group_del E fd s g = Done (s', 0) ->
  exists m', In m' (s_mods s') /\ m_uid m' = m_uid m /\ forall j hs, denotes m' j hs <-> denotes m j hs /\ j <> cg_index g.
Proof.
  intros E s fd g s' m R Hm Fd H. unfold dax_group_del in H. apply rbind_done in H as ((s1 & r) & H1 & H). assert (s1 = s') by (destruct r; congruence). subst s1. apply ask_inv in H1 as (St & Hr).
  destruct (C35_delete _ _ _ _ _ _ R Hm Fd St) as [(_ & _ & C)|(-> & _)]; [exact C|]. exfalso. unfold Spec.after in Hr. cbn [s_out set_step set_out] in Hr. rewrite rev_app_distr in Hr. cbn [rev app] in Hr. subst r. discriminate.
Qed.
(** REFUTED: the request is built in the caller's buffer, so that a group of less than four bytes cannot be read into a buffer of its size *)
Theorem C150_small_refuted : forall E cc fd s g buf, cg_size g <= zlen buf < 4 -> dax_group_read E cc fd s g buf = Undef UOob.
Proof. intros E cc fd s g buf H. unfold dax_group_read. replace (zlen buf <? cg_size g) with false by lia. replace (zlen buf <? 4) with true by lia. reflexivity. Qed.
(** REFUTED for single bits: a group reads them at their place in the byte, and writes the whole byte *)
Definition bit3 : handle := mk_h 12 0 3 1 1 T_BOOL.
Definition bit_server : server := after_ops env0 [OpRegister 5 (str "alpha"); OpTagAdd 5 (str "bits") T_BOOL 8 0; OpWrite 5 12 0 [255]].
Theorem C150_bits_refuted : exists E cc fd s s1 g s2 s3 s4 s5, reachable E s /\ stored s 12 [255; 0] /\ dax_group_add E fd s [bit3] = Done (s1, inl g) /\
  dax_tag_read E cc fd s1 bit3 [0] = Done (s2, [1], 0) /\ dax_group_read E cc fd s1 g [0; 0; 0; 0] = Done (s3, [255; 0; 0; 0], 0) /\
  dax_tag_write E cc fd s1 bit3 [0] = Done (s4, 0) /\ stored s4 12 [247; 0] /\ dax_group_write E cc fd s1 g [0] = Done (s5, 0) /\ stored s5 12 [0; 0].
Proof.
  exists env0, [], 5, bit_server. do 6 eexists. split; [apply after_reachable; vm_compute; reflexivity|].
  split; [eexists; (split; [vm_compute; reflexivity|]; split; vm_compute; reflexivity)|]. split; [vm_compute; reflexivity|]. split; [vm_compute; reflexivity|]. split; [vm_compute; reflexivity|]. split; [vm_compute; reflexivity|].
  split; [eexists; (split; [vm_compute; reflexivity|]; split; vm_compute; reflexivity)|]. split; [vm_compute; reflexivity|].
  eexists; (split; [vm_compute; reflexivity|]; split; vm_compute; reflexivity).
Qed.
Definition g_demo : cgroup := mk_cg 0 [h13; h15] 10.
Definition g_server : server := after_ops env0 demo_ops.
(** REFUTED for handles whose count does not fit their size: neither the library nor the server compares the two, and the values behind the buffer are converted as well.
    The place of a member is behind the members before it *)
Theorem C150_count_refuted : exists E cc fd s h1 h2 s1 g, reachable E s /\ dax_group_add E fd s [h1; h2] = Done (s1, inl g) /\ group_held s1 fd g /\ Forall (plain_member s1) [h1; h2] /\ Forall sane [h1; h2] /\
  whole_values h1 /\ h_size h2 < 2 * h_count h2 <= cg_size g /\ h_type h2 = T_INT /\ dax_group_read E cc fd s1 g (zeros (cg_size g)) = Undef UOob /\ dax_group_write E cc fd s1 g (zeros (cg_size g)) = Undef UOob.
Proof.
  set (hx := mk_h 15 2 0 2 2 T_INT). set (s1 := after_ops env0 (demo_ops ++ [OpGrpAdd 5 [h13; hx]])). exists env0, [], 5, g_server, h13, hx, s1, (mk_cg 0 [h13; hx] 10).
  assert (O : Forall (open_member s1) [h13; hx]).
  { constructor; [|constructor; [|constructor]]; eexists; (split; [vm_compute; reflexivity|]; split; [vm_compute; reflexivity|]; split; [vm_compute; reflexivity|]; split; vm_compute; reflexivity). }
  split; [apply after_reachable; vm_compute; reflexivity|]. split; [vm_compute; reflexivity|]. split; [split; [eexists; split; vm_compute; reflexivity | vm_compute; reflexivity]|].
  split; [eapply Forall_impl; [|exact O]; intros h (t & A & B & _) t' A'; congruence|].
  split; [constructor; [|constructor; [|constructor]]; vm_compute; intuition discriminate|].
  split; [right; exists 4; split; [vm_compute; tauto | vm_compute; split; [discriminate | reflexivity]]|].
  split; [vm_compute; split; [reflexivity | discriminate]|]. split; [reflexivity|]. split; vm_compute; reflexivity.
Qed.
Example C150_ex : exists s1 s2 s3 s4, dax_group_add env0 5 g_server [h13; h15] = Done (s1, inl g_demo) /\ group_held s1 5 g_demo /\ Forall (plain_member s1) [h13; h15] /\ Forall (open_member s1) [h13; h15] /\
  Forall sane [h13; h15] /\ Forall whole_values [h13; h15] /\ dax_group_read env0 [] 5 s1 g_demo (zeros 12) = Done (s2, [1; 2; 3; 4; 0; 0; 0; 0; 0; 0; 0; 0], 0) /\
  dax_group_write env0 [] 5 s1 g_demo [9; 8; 7; 6; 5; 4; 3; 2; 1; 11] = Done (s3, 0) /\ stored s3 15 [0; 0; 1; 11; 0; 0; 0; 0] /\ dax_group_del env0 5 s1 g_demo = Done (s4, 0).
Proof.
  set (s1 := after_ops env0 (demo_ops ++ [OpGrpAdd 5 [h13; h15]])). exists s1. do 3 eexists.
  assert (O : Forall (open_member s1) [h13; h15]).
  { constructor; [|constructor; [|constructor]]; eexists; (split; [vm_compute; reflexivity|]; split; [vm_compute; reflexivity|]; split; [vm_compute; reflexivity|]; split; vm_compute; reflexivity). }
  split; [vm_compute; reflexivity|]. split; [split; [eexists; split; vm_compute; reflexivity | vm_compute; reflexivity]|].
  split; [eapply Forall_impl; [|exact O]; intros h (t & A & B & _) t' A'; congruence|]. split; [exact O|].
  split; [constructor; [|constructor; [|constructor]]; vm_compute; intuition discriminate|].
  split; [constructor; [|constructor; [|constructor]]; right; [exists 4 | exists 2]; (split; [vm_compute; tauto|]; vm_compute; split; [discriminate | reflexivity])|].
  split; [vm_compute; reflexivity|]. split; [vm_compute; reflexivity|]. split; [eexists; (split; [vm_compute; reflexivity|]; split; vm_compute; reflexivity)|]. vm_compute. reflexivity.
Qed.
