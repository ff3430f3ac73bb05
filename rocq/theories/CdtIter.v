(** * CdtIter: going through types and members (src/lib/libcdt.c:157-180, 763-838) and LIST TYPES and READ of compound tags in the command
    line client (src/modules/daxc/daxc_tag.c:260-313, 532-558)
    The callback of dax_cdt_iter gets the library's cache of types and gives back a value; the values are collected.  The members are
    those present when the loop starts (they are never removed). *)
From Verif Require Import Base Const Types State Text ClientTypes Cache Path DaxcRead.

(** opendax.h:432-438 [cdt_iter] *)
Record item := mk_it { it_name : name; it_type : Z; it_count : Z; it_byte : Z; it_bit : Z }.
(** opendax.h: ERR_INUSE *)
Definition E_INUSE : Z := -16.
(** libcdt.c:157-180 [get_cdt_pointer]: the type, or NULL with the error *)
Definition cdt_pointer (ts : list cdt) (cc : ctypes) (t : Z) : run (ctypes * (cslot + Z)) :=
  if is_custom t then
    match znth cc (cdt_index t) with
    | Some (mk_cs (Some n) ms) => Done (cc, inl (mk_cs (Some n) ms))
    | _ =>
        x <-- dax_cdt_get ts cc (ByType t) ;;
        let '(cc, e) := x in
        if negb (e =? 0) then Done (cc, inr e)
        else match znth cc (cdt_index t) with Some s => Done (cc, inl s) | None => Undef UOob end
    end
  else Done (cc, inr 0).

(** libcdt.c:791-803: all compound types; a type whose name was not stored gives the callback NULL.  Fuel: the index grows until neither
    cache nor server have that type *)
Fixpoint iter_types {A} (fuel : nat) (ts : list cdt) (cb : ctypes -> item -> run (ctypes * A)) (cc : ctypes) (i : Z) : run (ctypes * list A) :=
  match fuel with
  | O => Undef UFuel
  | S k =>
      x <-- cdt_pointer ts cc (cdt_type i) ;;
      match x with
      | (cc, inl sl) =>
          match cs_name sl with
          | None => Undef UNull
          | Some n =>
              y <-- cb cc (mk_it n (cdt_type i) 0 0 0) ;;
              let '(cc, a) := y in
              z <-- iter_types k ts cb cc (i + 1) ;;
              let '(cc, l) := z in Done (cc, a :: l)
          end
      | (cc, inr e) => if e =? E_INUSE then iter_types k ts cb cc (i + 1) else Done (cc, [])
      end
  end.
(** libcdt.c:818-834: the place of the member after [m], which has type [nt]; the counts are unsigned, [byte] and [bit] are int *)
Definition place_after (ts : list cdt) (cc : ctypes) (m : cmember) (nt byte bit : Z) : run (ctypes * Z * Z) :=
  if cm_type m =? T_BOOL then
    let b := bit + cm_count m mod 8 in
    let y := s32 (byte + cm_count m / 8) in
    let '(y, b) := if 7 <? b then (y + 1, b mod 8) else (y, b) in
    let '(y, b) := if negb (nt =? T_BOOL) && negb (b =? 0) then (y + 1, 0) else (y, b) in
    y <-- cint y ;; Done (cc, y, b)
  else
    x <-- dax_get_typesize ts cc (cm_type m) ;;
    let '(cc, n) := x in Done (cc, s32 (byte + u32 (n * cm_count m)), 0).
(** libcdt.c:809-836: the members of a type *)
Fixpoint iter_members {A} (ts : list cdt) (cb : ctypes -> item -> run (ctypes * A)) (cc : ctypes) (ms : list cmember) (byte bit : Z) : run (ctypes * list A) :=
  match ms with
  | [] => Done (cc, [])
  | m :: r =>
      x <-- cb cc (mk_it (cm_name m) (cm_type m) (s32 (cm_count m)) byte bit) ;;
      let '(cc, a) := x in
      match r with
      | [] => Done (cc, [a])
      | nx :: _ =>
          y <-- place_after ts cc m (cm_type nx) byte bit ;;
          let '(cc, byte, bit) := y in
          z <-- iter_members ts cb cc r byte bit ;;
          let '(cc, l) := z in Done (cc, a :: l)
      end
  end.
(** libcdt.c:779-838 [dax_cdt_iter] *)
Definition cdt_iter {A} (ts : list cdt) (cb : ctypes -> item -> run (ctypes * A)) (cc : ctypes) (t : Z) : run (ctypes * list A * Z) :=
  if t =? 0 then x <-- iter_types (S (length ts + length cc)) ts cb cc 0 ;; Done (x, 0)
  else
    x <-- cdt_pointer ts cc t ;;
    match x with
    | (cc, inr e) => Done (cc, [], e)
    | (cc, inl sl) => y <-- iter_members ts cb cc (cs_members sl) 0 0 ;; Done (y, 0)
    end.

(** printf's %-32s *)
Definition pad32 (s : name) : name := s ++ repeat 32 (32 - length s).
(** daxc_tag.c:532-544 [_print_cdt_callback], with the type's name or without *)
Definition print_name (cc : ctypes) (it : item) : run (ctypes * name) := Done (cc, it_name it).
Definition print_member (ts : list cdt) (cc : ctypes) (it : item) : run (ctypes * name) :=
  x <-- type_to_string ts cc (it_type it) ;;
  match x with
  | (_, None) => Undef UNull
  | (cc, Some tn) => Done (cc, pad32 (it_name it) ++ str "  " ++ tn ++ (if 0 <? it_count it then str "[" ++ print_d (it_count it) ++ str "]" else []))
  end.
(** daxc_tag.c:547-558 [list_types]: the lines printed; what dax_cdt_iter returns is dropped *)
Definition list_types_cmd (ts : list cdt) (cc : ctypes) (a : list name) : run (ctypes * list name * Z) :=
  match a with
  | [] => x <-- cdt_iter ts print_name cc 0 ;; let '(cc, l, _) := x in Done (cc, l, 0)
  | tn :: _ =>
      x <-- dax_string_to_type ts cc tn ;;
      let '(cc, t) := x in
      y <-- cdt_iter ts (print_member ts) cc t ;;
      let '(cc, l, _) := y in Done (cc, l, 0)
  end.

(** daxc_tag.c:289-297: one BOOL *)
Definition bool_word (buff : list Z) (byte bit n : Z) : run name :=
  match znth buff (byte + (bit + n) / 8) with
  | None => Undef UOob
  | Some x => Done (if Z.testbit x ((bit + n) mod 8) then str "true " else str "false ")
  end.
Fixpoint words (f : Z -> run name) (k : nat) (n : Z) : run name :=
  match k with
  | O => Done []
  | S k => x <-- f n ;; y <-- words f k (n + 1) ;; Done (x ++ y)
  end.
(** daxc_tag.c:264-313 [_read_cdt_callback] and [_print_compound_tag]: the lines printed for the data [buff] of type [t].  The C recursion is
    bounded by fuel; a member that is an array of a compound type is printed as its first element *)
Fixpoint compound_lines (fuel : nat) (ts : list cdt) (T : tenv) (indent : nat) (buff : list Z) (cc : ctypes) (t : Z) : run (ctypes * list name) :=
  match fuel with
  | O => Undef UFuel
  | S k =>
      x <-- cdt_iter ts (fun cc it =>
        let head := repeat 32 indent ++ it_name it ++ [32] in
        if (it_byte it <? 0) || (zlen buff <? it_byte it) then Undef UOob
        else
          let here := skipn (Z.to_nat (it_byte it)) buff in
          if is_custom (it_type it) then
            y <-- compound_lines k ts T (indent + 2) here cc (it_type it) ;;
            let '(cc, l) := y in Done (cc, head :: l)
          else if it_type it =? T_CHAR then
            if zlen here <? it_count it then Undef UOob
            else Done (cc, [head ++ flat_map (fun c => if c =? 0 then [32; c] else [c]) (firstn (Z.to_nat (it_count it)) here)])
          else if it_type it =? T_BOOL then
            w <-- words (bool_word buff (it_byte it) (it_bit it)) (Z.to_nat (it_count it)) 0 ;; Done (cc, [head ++ w])
          else
            w <-- words (fun n => v <-- val_to_string T 32 (it_type it) here n ;; match cstr v with None => Undef UStr | Some l => Done (l ++ [32]) end) (Z.to_nat (it_count it)) 0 ;;
            Done (cc, [head ++ w])) cc t ;;
      let '(cc, l, _) := x in Done (cc, concat l)
  end.
(** daxc_tag.c:353-359: the elements of the tag one after the other *)
Fixpoint element_lines (ts : list cdt) (T : tenv) (buff : list Z) (cc : ctypes) (t : Z) (k : nat) (n : Z) : run (ctypes * list name) :=
  match k with
  | O => Done (cc, [])
  | S k =>
      x <-- dax_get_typesize ts cc t ;;
      let '(cc, size) := x in
      if zlen buff <? size * n then Undef UOob
      else
        y <-- compound_lines (S (length ts)) ts T 0 (skipn (Z.to_nat (size * n)) buff) cc t ;;
        let '(cc, l) := y in
        z <-- element_lines ts T buff cc t k (n + 1) ;;
        let '(cc, r) := z in Done (cc, l ++ r)
  end.
