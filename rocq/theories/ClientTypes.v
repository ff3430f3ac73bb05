(** * ClientTypes: the client library's cache of compound types (src/lib/libcdt.c, src/lib/libmsg.c)
    The server is present only through its type registry [ts], which does not change during one client call.
    Simplifications: memory allocation succeeds; the transport is reliable (its own model is in Wire). *)
From Verif Require Import Base Const Types.

(** lib/libdax.h struct datatype in [ds->datatypes]: name NULL when the slot is not in use *)
Record cslot := mk_cs { cs_name : option name; cs_members : list cmember }.
Definition no_slot : cslot := mk_cs None [].
(** [ds->datatypes]; its length is [ds->datatype_size] *)
Definition ctypes := list cslot.

(** strtol(3) with base 10 *)
Definition strtol10 (s : name) : Z :=
  match skip_space s with
  | 45 :: r => sat64 (- digits 10 0 r)
  | 43 :: r => sat64 (digits 10 0 r)
  | r => sat64 (digits 10 0 r)
  end.

(** libcdt.c:197-221: the array grows by DAX_DATATYPE_SIZE (8) until [index] is inside *)
Definition grow (cc : ctypes) (i : Z) : ctypes :=
  if i <? zlen cc then cc else cc ++ repeat no_slot (Z.to_nat (((i - zlen cc) / 8 + 1) * 8)).

(** a request of dax_cdt_get: by type or by name *)
Inductive creq := ByType (t : Z) | ByName (n : name).
(** message.c:724-770 msg_cdt_get: the answered type and its description, or the error *)
Definition server_cdt (ts : list cdt) (r : creq) : run (Z * name + Z) :=
  let t := match r with ByType t => t | ByName n => cdt_get_type ts (firstn 32 n) end in
  x <-- serialize_datatype ts t ;;
  Done (match x with
        | inr e => inr e
        | inl d => if MSG_DATA_SIZE - 4 <? zlen d + 1 then inr E_2BIG else inl (t, d)
        end).

(** the search loops of dax_string_to_type, libcdt.c:387-391 and 400-404 *)
Fixpoint find_slot (n : name) (cc : ctypes) (i : Z) : option Z :=
  match cc with
  | [] => None
  | s :: r => match cs_name s with
              | Some m => if case_eqb n m then Some i else find_slot n r (i + 1)
              | None => find_slot n r (i + 1)
              end
  end.

(** libcdt.c:363-408 [dax_string_to_type]; [fetch] is dax_cdt_get *)
Definition string_to_type (fetch : ctypes -> creq -> run (ctypes * Z)) (cc : ctypes) (n : name) : run (ctypes * Z) :=
  match find_base n base_names with
  | Some t => Done (cc, t)
  | None =>
      match find_slot n cc 0 with
      | Some i => Done (cc, cdt_type i)
      | None =>
          x <-- fetch cc (ByName n) ;;
          let '(cc, e) := x in
          if negb (e =? 0) then Done (cc, 0)
          else match find_slot n cc 0 with Some i => Done (cc, cdt_type i) | None => Done (cc, 0) end
      end
  end.

(** libcdt.c:51-98 [_add_member_to_cache] *)
Definition add_member (fetch : ctypes -> creq -> run (ctypes * Z)) (cc : ctypes) (i : Z) (desc : name) : run (ctypes * Z) :=
  match strtok 44 desc with
  | None => Done (cc, E_ARG)
  | Some (nm, s1) =>
    match strtok 44 s1 with
    | None => Done (cc, E_ARG)
    | Some (tn, s2) =>
      match strtok 44 s2 with
      | None => Done (cc, E_ARG)                      (* count stays 0 *)
      | Some (cs, _) =>
          let count := s32 (strtol10 cs) in
          if 0 <? count then
            x <-- string_to_type fetch cc tn ;;
            let '(cc, t) := x in
            match znth cc i with
            | None => Undef UOob
            | Some sl => Done (zset cc i (mk_cs (cs_name sl) (cs_members sl ++ [mk_cm nm t count])), 0)
            end
          else Done (cc, E_ARG)
      end
    end
  end.
(** libcdt.c:232-235: the loop over the members.  Fuel: every iteration consumes a character. *)
Fixpoint add_members (fuel : nat) (fetch : ctypes -> creq -> run (ctypes * Z)) (cc : ctypes) (i : Z) (s : name) : run (ctypes * Z) :=
  match fuel with
  | O => Undef UFuel
  | S k =>
      match strtok 58 s with
      | None => Done (cc, 0)
      | Some (m, s') =>
          x <-- add_member fetch cc i m ;;
          let '(cc, e) := x in
          if negb (e =? 0) then Done (cc, e) else add_members k fetch cc i s'
      end
  end.
(** libcdt.c:186-240 [add_cdt_to_cache] with _insert_type (33-45) *)
Definition add_cdt (fetch : ctypes -> creq -> run (ctypes * Z)) (cc : ctypes) (t : Z) (d : name) : run (ctypes * Z) :=
  let i := cdt_index t in
  let cc := grow cc i in
  match strtok 58 d with
  | None => Done (cc, E_ARG)
  | Some (nm, rest) =>
      match znth cc i with
      | None => Undef UOob
      | Some sl =>
          let cc := zset cc i (mk_cs (if zlen nm <=? TAGNAME_SIZE then Some nm else cs_name sl) (cs_members sl)) in
          add_members (S (length rest)) fetch cc i rest
      end
  end.
(** libmsg.c:1420-1455 [dax_cdt_get].  The recursion through dax_string_to_type is bounded by fuel. *)
Fixpoint cdt_fetch (fuel : nat) (ts : list cdt) (cc : ctypes) (r : creq) : run (ctypes * Z) :=
  match fuel with
  | O => Undef UFuel
  | S k =>
      x <-- server_cdt ts r ;;
      match x with
      | inr e => Done (cc, e)
      | inl (t, d) => add_cdt (cdt_fetch k ts) cc t d
      end
  end.
Definition dax_cdt_get (ts : list cdt) (cc : ctypes) (r : creq) : run (ctypes * Z) := cdt_fetch (S (length ts)) ts cc r.
Definition dax_string_to_type (ts : list cdt) (cc : ctypes) (n : name) : run (ctypes * Z) := string_to_type (dax_cdt_get ts) cc n.

(** libcdt.c:419-475 [dax_type_to_string] *)
Definition type_to_string (ts : list cdt) (cc : ctypes) (t : Z) : run (ctypes * option name) :=
  if is_custom t then
    match znth cc (cdt_index t) with
    | Some (mk_cs (Some n) _) => Done (cc, Some n)
    | _ =>
        x <-- dax_cdt_get ts cc (ByType t) ;;
        let '(cc, e) := x in
        if negb (e =? 0) then Done (cc, None)
        else match znth cc (cdt_index t) with Some s => Done (cc, cs_name s) | None => Undef UOob end
    end
  else Done (cc, base_name_of t base_names).

(** libcdt.c:110-152 [dax_get_typesize].  The member list is the one present when the loop starts
    (a nested fetch fills other slots only). *)
Fixpoint c_members_bits (tsz : ctypes -> Z -> run (ctypes * Z)) (cc : ctypes) (ms : list cmember) (pos : Z) : run (ctypes * Z) :=
  match ms with
  | [] => Done (cc, pos)
  | m :: r =>
      if cm_type m =? T_BOOL then c_members_bits tsz cc r (u32 (pos + cm_count m))
      else
        let pos := align8 pos in
        if is_custom (cm_type m) then
          x <-- tsz cc (cm_type m) ;;
          let '(cc, sz) := x in
          c_members_bits tsz cc r (u32 (pos + u32 (u32 (sz * cm_count m) * 8)))
        else c_members_bits tsz cc r (u32 (pos + u32 (typesize_bits (cm_type m) * cm_count m)))
  end.
Fixpoint typesize_f (fuel : nat) (ts : list cdt) (cc : ctypes) (t0 : Z) : run (ctypes * Z) :=
  match fuel with
  | O => Undef UFuel
  | S k =>
      let t := Z.clearbit t0 30 in
      x <-- type_to_string ts cc t ;;
      let '(cc, n) := x in
      match n with
      | None => Done (cc, E_ARG)
      | Some _ =>
          if is_custom t then
            match znth cc (cdt_index t) with
            | None => Undef UOob
            | Some s =>
                y <-- c_members_bits (typesize_f k ts) cc (cs_members s) 0 ;;
                let '(cc, pos) := y in
                Done (cc, if pos =? 0 then 1 else (pos - 1) / 8 + 1)
            end
          else Done (cc, if typesize_bits t / 8 =? 0 then 1 else typesize_bits t / 8)
      end
  end.
Definition dax_get_typesize (ts : list cdt) (cc : ctypes) (t : Z) : run (ctypes * Z) := typesize_f (S (length ts)) ts cc t.
