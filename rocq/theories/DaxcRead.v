(** * DaxcRead: READ, ADD TYPE and ADD MAP of the command line client (src/modules/daxc/daxc_tag.c:315-387, 493-530, 560-599)
    A string is the list of its characters without the terminator.  The client is connected as in ClientData.v, tag names are looked
    up as in Path.v.  Memory allocation succeeds; [G] is what is found in fresh memory. *)
From Verif Require Import Base Const Types State Lib Events Atomic Server Text ClientTypes ClientMsg ClientData Cache Path CdtNew ClientMap Daxc.

Definition fresh (G : Z -> Z) (n : Z) : list Z := map (fun k => G (Z.of_nat k)) (seq 0 (Z.to_nat n)).
(** what READ prints: lines, the characters of a CHAR tag with the end of line, or a compound tag (lines 260-313, see CdtIter.v) of which
    this is the data *)
Inductive shown := ShLines (l : list name) | ShText (t : list Z) | ShCompound (d : list Z).
(** daxc_tag.c:372-375: the lines for elements [n], [n] + 1, ... *)
Fixpoint value_lines (T : tenv) (t : Z) (buff : list Z) (k : nat) (n : Z) : run (list name) :=
  match k with
  | O => Done []
  | S k =>
      x <-- val_to_string T 32 t buff n ;;
      match cstr x with
      | None => Undef UStr
      | Some line => r <-- value_lines T t buff k (n + 1) ;; Done (line :: r)
      end
  end.
(** daxc_tag.c:363-370: a zero is printed as a space and a zero *)
Definition char_text (d : list Z) : list Z := flat_map (fun c => if c =? 0 then [32; c] else [c]) d ++ [10].
(** daxc_tag.c:319-387 [tag_read]: what is printed, if anything, and the result *)
Definition tag_read_cmd (E : env) (T : tenv) (G : Z -> Z) (db : name -> option ctag) (cc : ctypes) (fd : Z) (s : server) (a : list name) :
  run (ctypes * server * option shown * Z) :=
  match a with
  | [] => Done (cc, s, None, E_NOTFOUND)
  | nm :: r =>
      let count := match r with [] => 0 | c :: _ => s32 (fst (strtoul0 c)) end in
      x <-- tag_handle (s_types s) db cc nm count ;;
      match x with
      | (cc, inr _) => Done (cc, s, None, E_ARG)
      | (cc, inl h) =>
          y <-- dax_tag_read E cc fd s h (fresh G (h_size h + 1)) ;;
          let '(s, buff, e) := y in
          if negb (e =? 0) then Done (cc, s, None, e)
          else if is_custom (h_type h) then Done (cc, s, Some (ShCompound (firstn (Z.to_nat (h_size h)) buff)), 0)
          else if h_type h =? T_CHAR then Done (cc, s, Some (ShText (char_text (firstn (Z.to_nat (h_size h)) buff))), 0)
          else l <-- value_lines T (h_type h) buff (Z.to_nat (h_count h)) 0 ;; Done (cc, s, Some (ShLines l), 0)
      end
  end.

(** daxc_tag.c:515-524: the members, three words each; a member that is refused is reported and left out *)
Fixpoint cdt_words (ts : list cdt) (cc : ctypes) (d : ncdt) (a : list name) : run (ctypes * ncdt) :=
  match a with
  | nm :: tn :: c :: r =>
      x <-- dax_string_to_type ts cc tn ;;
      let '(cc, t) := x in
      y <-- dax_cdt_member ts cc d (Some nm) t (s32 (strtol0 c)) ;;
      match y with (cc, inr _) => cdt_words ts cc d r | (cc, inl d) => cdt_words ts cc d r end
  | _ => Done (cc, d)
  end.
(** daxc_tag.c:497-530 [cdt_add]: the result, and whether the type was made *)
Definition cdt_add_cmd (E : env) (cc : ctypes) (fd : Z) (s : server) (a : list name) : run (ctypes * server * Z * bool) :=
  match a with
  | nm :: ws =>
      if (zlen a <? 4) || negb (Z.rem (zlen a - 1) 3 =? 0) then Done (cc, s, E_ARG, false)
      else
        x <-- dax_cdt_new (Some nm) ;;
        match x with
        | inr e => Done (cc, s, e, false)
        | inl d =>
            y <-- cdt_words (s_types s) cc d ws ;;
            let '(cc, d) := y in
            z <-- dax_cdt_create E cc fd s d ;;
            let '(cc, s, e, _, _) := z in Done (cc, s, 0, e =? 0)
        end
  | [] => Done (cc, s, E_ARG, false)
  end.

(** daxc_tag.c:560-599 [map_add]: the result, and the id of the mapping if it was made *)
Definition map_add_cmd (E : env) (db : name -> option ctag) (cc : ctypes) (fd : Z) (s : server) (a : list name) : run (ctypes * server * Z * option (Z * Z)) :=
  match a with
  | sn :: sc :: dn :: dc :: _ =>
      let m := s32 (strtol0 sc) in
      let n := s32 (strtol0 dc) in
      if (m <=? 0) || (n <=? 0) then Done (cc, s, E_ARG, None)
      else
        x <-- tag_handle (s_types s) db cc sn m ;;
        match x with
        | (cc, inr _) => Done (cc, s, E_ARG, None)
        | (cc, inl src) =>
            y <-- tag_handle (s_types s) db cc dn n ;;
            match y with
            | (cc, inr _) => Done (cc, s, E_ARG, None)
            | (cc, inl dst) =>
                z <-- dax_map_add E fd s src dst ;;
                Done (cc, fst z, 0, match snd z with inl i => Some i | inr _ => None end)
            end
        end
  | _ => Done (cc, s, E_ARG, None)
  end.
