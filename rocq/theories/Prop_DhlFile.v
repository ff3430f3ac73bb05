(** * C172: the files of the historical logger *)
From Verif Require Import Base Const Types Lib Text DhlFile.

(** ** The notions of the claim *)

(** The text of a value: NULL, or what dax_val_to_string puts in the buffer up to the NUL *)
Definition text_of (T : tenv) (v : option (Z * list Z)) (x : name) : Prop :=
  match v with
  | None => x = str "NULL"
  | Some (t, b) => exists r, val_to_string T 256 t b 0 = Done (x ++ 0 :: r) /\ ~ In 0 x
  end.
(** The line of a record *)
Definition line (tag ts x : name) : list Z := tag ++ str "," ++ ts ++ str "," ++ x ++ [10].
(** The lines of the records among the calls, in order *)
Inductive lines (T : tenv) : list dop -> list (list Z) -> Prop :=
| ln_nil : lines T [] []
| ln_write tag v ts x r ls : text_of T v x -> lines T r ls -> lines T (DWrite tag v ts :: r) (line tag ts x :: ls)
| ln_rotate r ls : lines T r ls -> lines T (DRotate :: r) ls
| ln_flush now r ls : lines T r ls -> lines T (DFlush now :: r) ls.
(** The lines that were put in the file [p] *)
Definition put_in (p : name) (placed : list (name * list Z)) : list Z :=
  concat (map snd (filter (fun q => name_eqb (fst q) p) placed)).

(** ** Proofs *)

Definition total (s : dhl) (p : name) : list Z :=
  bytes_of (d_disk s p) ++ (match d_open s with Some q => if name_eqb p q then d_buf s else [] | None => [] end).
Definition tidy (s : dhl) : Prop := d_open s = None -> d_buf s = [].

Lemma total_sync s p : total (sync s) p = total s p.
Proof.
  unfold total, sync. destruct (d_open s) as [q|] eqn:E; [|rewrite E; reflexivity].
  cbn [d_open d_disk d_buf]. unfold upd. destruct (name_eqb p q) eqn:N; [|reflexivity].
  apply name_eqb_eq in N. subst p. cbn [bytes_of]. rewrite app_nil_r. reflexivity.
Qed.
Lemma sync_buf s : tidy s -> d_buf (sync s) = [].
Proof. unfold tidy, sync. destruct (d_open s); intros H; [reflexivity | exact (H eq_refl)]. Qed.
Lemma total_clean s p : d_buf s = [] -> total s p = bytes_of (d_disk s p).
Proof. unfold total. intros ->. destruct (d_open s) as [q|]; [destruct (name_eqb p q)|]; apply app_nil_r. Qed.
Lemma total_open can s now p : d_buf s = [] -> total (open_file can s now) p = bytes_of (d_disk s p).
Proof.
  intros B. rewrite total_clean by (unfold open_file; cbv zeta; destruct (can _); reflexivity).
  unfold open_file. cbv zeta. destruct (can _); [|reflexivity]. cbn [d_disk]. unfold upd.
  destruct (name_eqb p _) eqn:N; [|reflexivity]. apply name_eqb_eq in N. subst p. reflexivity.
Qed.
Lemma tidy_open can s now : tidy (open_file can s now).
Proof. unfold tidy, open_file. cbv zeta. destruct (can _); reflexivity. Qed.
Lemma tidy_sync s : tidy s -> tidy (sync s).
Proof. intros H _. apply sync_buf, H. Qed.

Lemma put_in_app p a b : put_in p (a ++ b) = put_in p a ++ put_in p b.
Proof. unfold put_in. rewrite filter_app, map_app, concat_app. reflexivity. Qed.

Lemma flush_total can s now s' p : tidy s -> flush_data can s now = Done s' ->
  total s' p = total s p /\ tidy s' /\ d_buf s' = [].
Proof.
  intros Q H. unfold flush_data in H. destruct (d_rotate s).
  - destruct (d_open s) eqn:E; [|discriminate]. cbv zeta in H. inversion H; subst s'; clear H.
    set (o := open_file can (sync s) now).
    assert (QO : tidy o) by apply tidy_open.
    assert (BO : d_buf o = []) by (unfold o, open_file; cbv zeta; destruct (can _); reflexivity).
    split; [|split].
    + rewrite total_sync. unfold total at 1. cbn [d_open d_disk d_buf]. fold (total o p). unfold o.
      rewrite total_open by (apply sync_buf, Q). rewrite <- total_clean by (apply sync_buf, Q). apply total_sync.
    + apply tidy_sync. exact QO.
    + apply sync_buf. exact QO.
  - inversion H; subst s'. split; [apply total_sync|]. split; [apply tidy_sync, Q | apply sync_buf, Q].
Qed.

Lemma cstr_split l : forall n, cstr l = Some n -> exists r, l = n ++ 0 :: r /\ ~ In 0 n.
Proof.
  induction l as [|c l IH]; intros n H; cbn [cstr] in H; [discriminate|].
  destruct (Z.eqb_spec c 0) as [->|N].
  - inversion H; subst. exists l. split; [reflexivity | intros []].
  - destruct (cstr l) as [m|]; [|discriminate]. inversion H; subst. destruct (IH _ eq_refl) as (r & -> & I).
    exists r. split; [reflexivity|]. intros [X | X]; auto.
Qed.
Lemma cdt_no_text T size t b i : is_custom t = true -> val_to_string T size t b i = Done [].
Proof.
  intros H. unfold val_to_string. cbv zeta.
  assert (N : forall k, is_custom k = false -> t =? k = false).
  { intros k K. apply Z.eqb_neq. intros ->. rewrite K in H. discriminate. }
  rewrite !N by reflexivity. reflexivity.
Qed.
Lemma value_text_inv T v x : value_text T v = Done x -> text_of T v x.
Proof.
  unfold value_text, text_of. destruct v as [[t b]|]; [|intros H; inversion H; reflexivity].
  intros H. apply rbind_done in H as (y & H1 & H). destruct (cstr y) as [n|] eqn:C; [|discriminate].
  inversion H; subst n. rewrite H1. destruct (cstr_split _ _ C) as (r & -> & N). exists r. auto.
Qed.

Lemma run_total T can l : forall s s', tidy s -> dhl_run T can s l = Done s' ->
  tidy s' /\ exists placed, lines T l (map snd placed) /\ forall p, total s' p = total s p ++ put_in p placed.
Proof.
  induction l as [|o r IH]; intros s s' Q H; cbn [dhl_run] in H.
  - inversion H; subst. split; [exact Q|]. exists []. split; [constructor|]. intros p. unfold put_in. cbn. rewrite app_nil_r. reflexivity.
  - apply rbind_done in H as (s1 & H1 & H). destruct o as [tag v ts | | now]; cbn [dhl_step] in H1.
    + unfold write_data in H1. apply rbind_done in H1 as (x & V & H1). destruct (d_open s) as [q|] eqn:E; [|discriminate].
      inversion H1; subst s1; clear H1.
      match type of H with dhl_run _ _ ?s1 _ = _ => assert (Q1 : tidy s1) by (unfold tidy; cbn [d_open]; discriminate) end.
      destruct (IH _ _ Q1 H) as (Q' & placed & L & P). split; [exact Q'|].
      exists ((q, line tag ts x) :: placed). split.
      * cbn [map snd]. constructor; [apply value_text_inv, V | exact L].
      * intros p. rewrite P. unfold total. cbn [d_open d_disk d_buf]. rewrite E. unfold put_in at 2. cbn [filter fst].
        assert (N : name_eqb q p = name_eqb p q).
        { destruct (name_eqb p q) eqn:A; [apply name_eqb_eq in A; subst; apply name_eqb_refl|].
          destruct (name_eqb q p) eqn:B; [|reflexivity]. apply name_eqb_eq in B. subst. rewrite name_eqb_refl in A. discriminate. }
        rewrite N. destruct (name_eqb p q); [|reflexivity].
        cbn [map snd concat]. fold (put_in p placed). unfold line. change (str ",") with [44].
        repeat (rewrite <- !app_assoc; cbn [app]). reflexivity.
    + inversion H1; subst s1. match type of H with dhl_run _ _ ?s1 _ = _ => destruct (IH s1 s' Q H) as (Q' & placed & L & P) end. split; [exact Q'|].
      exists placed. split; [constructor; exact L | exact P].
    + assert (F := fun p => flush_total can s now s1 p Q H1).
      destruct (IH _ _ (proj1 (proj2 (F []))) H) as (Q' & placed & L & P). split; [exact Q'|].
      exists placed. split; [constructor; exact L|]. intros p. rewrite P. rewrite (proj1 (F p)). reflexivity.
Qed.

(** ** C172 *)

(** Whatever is recorded and however often the files are rotated: after a flush every record is
    one line of one file, in the order of the records, and the files hold nothing else besides
    what they held before *)
Theorem C172_kept : forall T can dir disk now ops t s,
  dhl_run T can (dhl_init can dir disk now) (ops ++ [DFlush t]) = Done s ->
  exists placed, lines T (ops ++ [DFlush t]) (map snd placed) /\
    forall p, bytes_of (d_disk s p) = bytes_of (disk p) ++ put_in p placed.
Proof.
  intros * H.
  assert (Q0 : tidy (dhl_init can dir disk now)) by apply tidy_open.
  destruct (run_total _ _ _ _ _ Q0 H) as (Q & placed & L & P). exists placed. split; [exact L|].
  assert (B : d_buf s = []).
  { clear - H Q0. revert H Q0. generalize (dhl_init can dir disk now) as s0.
    induction ops as [|o r IH]; intros s0 H Q0; cbn [app dhl_run] in H; apply rbind_done in H as (s1 & H1 & H).
    - cbn [dhl_run] in H. inversion H; subst s1. cbn [dhl_step] in H1. exact (proj2 (proj2 (flush_total _ _ _ _ [] Q0 H1))).
    - apply (IH s1 H). refine (proj1 (run_total T can [o] s0 s1 Q0 _)). cbn [dhl_run]. rewrite H1. reflexivity. }
  intros p. rewrite <- total_clean by exact B. rewrite P. f_equal. unfold dhl_init.
  rewrite total_open by reflexivity. reflexivity.
Qed.

(** A rotation: the file that is open afterwards has the name of the time of the rotation, and
    what was written before is on the disk *)
Theorem C172_rotate : forall T can s now s', d_open s <> None -> zlen (d_dir s) + zlen now <= 246 ->
  (forall p, can p = true) -> dhl_run T can s [DRotate; DFlush now] = Done s' ->
  d_open s' = Some (d_dir s ++ str "/dax_" ++ now ++ str ".log") /\ d_dir s' = d_dir s /\ d_rotate s' = false /\ d_buf s' = [] /\
  forall p, d_open s = Some p -> bytes_of (d_disk s' p) = bytes_of (d_disk s p) ++ d_buf s.
Proof.
  intros * N W C H. cbn [dhl_run dhl_step rbind] in H. apply rbind_done in H as (s1 & H1 & H). inversion H; subst s1; clear H.
  set (r := mkDhl (d_dir s) (d_open s) (d_buf s) true (d_disk s)) in *.
  assert (Q : tidy r) by (intros X; contradiction).
  destruct (fun p => flush_total can r now s' p Q H1) with (p := @nil Z) as (_ & _ & B).
  assert (TT := fun p => proj1 (flush_total can r now s' p Q H1)).
  assert (O : d_open s' = Some (file_name (d_dir s) now) /\ d_dir s' = d_dir s /\ d_rotate s' = false).
  { unfold flush_data in H1. cbn [d_rotate d_open r] in H1. destruct (d_open s) as [q|] eqn:E; [|contradiction].
    cbv zeta in H1. assert (D : d_dir (sync r) = d_dir s) by (unfold sync, r; cbn [d_open]; reflexivity).
    unfold open_file in H1. cbv zeta in H1. rewrite D, C in H1. cbn [d_dir d_open d_buf d_disk d_rotate] in H1.
    inversion H1. cbn [sync d_open d_rotate]. auto. }
  destruct O as (O & D & R). split.
  - rewrite O. f_equal. unfold file_name. apply firstn_all2. rewrite !app_length. unfold zlen in W. change (length (str "/dax_")) with 5%nat. change (length (str ".log")) with 4%nat. lia.
  - repeat (split; [assumption|]). intros p E.
    rewrite <- total_clean by exact B. rewrite TT. unfold total, r. cbn [d_open d_disk d_buf]. rewrite E, name_eqb_refl. reflexivity.
Qed.
(** As long as files can be opened and values have a text nothing goes wrong *)
Theorem C172_safe : forall T can dir disk now ops, (forall p, can p = true) ->
  (forall tag v ts, In (DWrite tag v ts) ops -> exists x, value_text T v = Done x) ->
  exists s, dhl_run T can (dhl_init can dir disk now) ops = Done s.
Proof.
  intros * C V.
  assert (O : d_open (dhl_init can dir disk now) <> None).
  { unfold dhl_init, open_file. cbv zeta. rewrite C. discriminate. }
  revert O. generalize (dhl_init can dir disk now). induction ops as [|o r IH]; intros s O; [exists s; reflexivity|].
  assert (S1 : exists s1, dhl_step T can s o = Done s1 /\ d_open s1 <> None).
  { destruct (d_open s) as [q|] eqn:E; [|contradiction]. destruct o as [tag v ts | | t]; cbn [dhl_step].
    - destruct (V tag v ts (or_introl eq_refl)) as (x & X). unfold write_data. rewrite X. cbn [rbind]. rewrite E.
      eexists. split; [reflexivity | discriminate].
    - eexists. split; [reflexivity|]. cbn [d_open]. rewrite E. discriminate.
    - unfold flush_data. rewrite E. destruct (d_rotate s).
      + cbv zeta. eexists. split; [reflexivity|]. unfold open_file. cbv zeta. rewrite C. cbn [sync d_open]. discriminate.
      + eexists. split; [reflexivity|]. unfold sync. rewrite E. cbn [d_open]. discriminate. }
  destruct S1 as (s1 & H1 & O1). cbn [dhl_run]. rewrite H1. cbn [rbind]. apply IH; [|exact O1].
  intros tag v ts I. apply (V tag v ts). right. exact I.
Qed.

(** A line tells the record: names and times without commas, as tag names and "%f" are, and a
    text of the value without a line feed *)
Theorem C172_parse_partial : forall tag ts x tag' ts' x' r r',
  ~ In 44 tag -> ~ In 44 ts -> ~ In 44 tag' -> ~ In 44 ts' -> ~ In 10 x -> ~ In 10 x' ->
  line tag ts x ++ r = line tag' ts' x' ++ r' -> tag = tag' /\ ts = ts' /\ x = x' /\ r = r'.
Proof.
  assert (K : forall (c : Z) a b u v, ~ In c a -> ~ In c b -> a ++ c :: u = b ++ c :: v -> a = b /\ u = v).
  { intros c a. induction a as [|y a IH]; intros [|z b] u v A B E; cbn [app] in E; inversion E; subst; auto.
    - exfalso. apply B. left. reflexivity.
    - exfalso. apply A. left. reflexivity.
    - destruct (IH b u v) as (-> & ->); auto; intros X; [apply A | apply B]; right; exact X. }
  intros * A1 A2 B1 B2 C1 C2 E. unfold line in E. change (str ",") with [44] in E. rewrite <- !app_assoc in E. cbn [app] in E.
  destruct (K _ _ _ _ _ A1 B1 E) as (-> & E1). destruct (K _ _ _ _ _ A2 B2 E1) as (-> & E2).
  destruct (K _ _ _ _ _ C1 C2 E2) as (-> & ->). auto.
Qed.

(** A character that is a line feed ends the line early: two records, three lines *)
Theorem C172_char_refuted : forall T, exists x, text_of T (Some (T_CHAR, [10])) x /\ In 10 x /\
  line (str "a") (str "1.0") x = str "a,1.0," ++ [10; 10].
Proof.
  intros T. exists [10]. split; [|split; [left; reflexivity | reflexivity]].
  exists []. split; [reflexivity|]. intros [X | []]. discriminate.
Qed.

(** If the file cannot be opened the first record is written to NULL *)
Theorem C172_open_refuted : forall T can dir disk now tag v ts x ops, value_text T v = Done x ->
  (forall p, can p = false) -> dhl_run T can (dhl_init can dir disk now) (DWrite tag v ts :: ops) = Undef UNull.
Proof.
  intros * V C. cbn [dhl_run dhl_step]. unfold write_data. rewrite V. cbn [rbind]. unfold dhl_init, open_file. cbv zeta.
  rewrite C. reflexivity.
Qed.

(** A compound value: the buffer is printed as it was *)
Theorem C172_compound_refuted : forall T can s tag t b ts ops, is_custom t = true ->
  dhl_run T can s (DWrite tag (Some (t, b)) ts :: ops) = Undef UUninit.
Proof.
  intros * H. cbn [dhl_run dhl_step]. unfold write_data, value_text.
  rewrite (cdt_no_text T 256 t b 0 H). reflexivity.
Qed.

(** A long directory: every time gives the same name *)
Theorem C172_name_refuted : forall dir now now', 255 <= zlen dir -> file_name dir now = file_name dir now'.
Proof.
  intros * H. unfold file_name, zlen in *. rewrite !firstn_app.
  replace (255 - length dir)%nat with O by lia. reflexivity.
Qed.

(** A case: two records, a rotation, a record *)
Example C172_ex :
  let T := mk_te (fun _ _ => []) (fun _ _ => (0, 0)) in
  let ops := [DWrite (str "a") (Some (T_INT, [255; 255])) (str "1.5"); DWrite (str "b") None (str "2.0"); DRotate; DFlush (str "3.0");
              DWrite (str "a") (Some (T_BOOL, [1])) (str "4.0"); DFlush (str "5.0")] in
  exists s, dhl_run T (fun _ => true) (dhl_init (fun _ => true) None (fun _ => None) (str "1.0")) ops = Done s /\
    d_disk s (str "logs/dax_1.0.log") = Some (str "a,1.5,-1" ++ [10] ++ str "b,2.0,NULL" ++ [10]) /\
    d_disk s (str "logs/dax_3.0.log") = Some (str "a,4.0,1" ++ [10]) /\ d_disk s (str "logs/dax_5.0.log") = None.
Proof. cbv zeta. eexists. split; [reflexivity|]. repeat split; vm_compute; reflexivity. Qed.
