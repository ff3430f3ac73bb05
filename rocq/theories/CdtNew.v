(** * CdtNew: how a module or a Lua script makes a type (lib/libcdt.c:252-360, lib/libmsg.c:1333-1397, lib/lua/libdaxlua.c:569-618)
    Memory allocation succeeds.  The client is connected as in ClientData.v. *)
From Verif Require Import Base Const Types State Events Atomic Server ClientTypes ClientData.

(** libdax.h dax_cdt: a type that is being put together *)
Record ncdt := mk_nc { nc_name : name; nc_members : list cmember }.
(** libcdt.c:252-281 [dax_cdt_new]; None: a null pointer *)
Definition dax_cdt_new (nm : option name) : run (ncdt + Z) :=
  match nm with
  | None => Undef UNull                                            (* strlen(NULL) *)
  | Some nm => Done (if TAGNAME_SIZE <? zlen nm then inr E_2BIG else inl (mk_nc nm []))
  end.
(** libcdt.c:295-329 [dax_cdt_member] *)
Definition dax_cdt_member (ts : list cdt) (cc : ctypes) (d : ncdt) (nm : option name) (t count : Z) : run (ctypes * (ncdt + Z)) :=
  let valid nm :=
    x <-- type_to_string ts cc t ;;
    match x with
    | (cc, None) => Done (cc, inr E_ARG)
    | (cc, Some _) =>
        match nm with
        | None => Undef UNull                                      (* strlen(NULL) *)
        | Some nm => Done (cc, if TAGNAME_SIZE <? zlen nm then inr E_2BIG else inl (mk_nc (nc_name d) (nc_members d ++ [mk_cm nm t (u32 count)])))
        end
    end in
  match nm, nc_members d with
  | None, _ :: _ => Undef UNull                                    (* strcmp(NULL, ..) *)
  | Some n, _ => if existsb (fun m => name_eqb n (cm_name m)) (nc_members d) then Done (cc, inr E_DUPL) else valid nm
  | None, [] => valid nm
  end.

(** libmsg.c:1350-1357 (the sizes) and 1367-1377 (the string): the members as text *)
Fixpoint cdt_text (ts : list cdt) (cc : ctypes) (ms : list cmember) : run (ctypes * name) :=
  match ms with
  | [] => Done (cc, [])
  | m :: r =>
      x <-- type_to_string ts cc (cm_type m) ;;
      match x with
      | (_, None) => Undef UNull                                   (* strlen(NULL) *)
      | (cc, Some tn) =>
          y <-- cdt_text ts cc r ;;
          let '(cc, rest) := y in
          Done (cc, [58] ++ cm_name m ++ [44] ++ tn ++ [44] ++ print_d (cm_count m) ++ rest)
      end
  end.
(** libmsg.c:1333-1397 [dax_cdt_create]: result code, type, and whether the description was released *)
Definition dax_cdt_create (E : env) (cc : ctypes) (fd : Z) (s : server) (d : ncdt) : run (ctypes * server * Z * Z * bool) :=
  match nc_members d with
  | [] => Done (cc, s, E_EMPTY, 0, false)
  | ms =>
      x <-- cdt_text (s_types s) cc ms ;;
      let '(cc, text) := x in
      if MSG_DATA_SIZE <? zlen (nc_name d) + zlen text + 1 then Done (cc, s, E_2BIG, 0, false)
      else
        y <-- cdt_text (s_types s) cc ms ;;
        let '(cc, text) := y in
        if MSG_DATA_SIZE <? zlen (nc_name d) + zlen text + 1 then Undef UOob
        else
          let buff := nc_name d ++ text in
          r <-- ask E s (OpCdtCreate fd buff) ;;
          match r with
          | (s, inr e) => Done (cc, s, e, 0, false)
          | (s, inl p) =>
              let ty := le_val (slice 0 4 p) in
              z <-- add_cdt (dax_cdt_get (s_types s)) cc ty buff ;;
              let '(cc, e) := z in Done (cc, s, e, ty, true)
          end
  end.
(** new, the members one after the other, create; the first error ends it (the way the modules do it, e.g. modopt.c) *)
Fixpoint add_wishes (ts : list cdt) (cc : ctypes) (d : ncdt) (ms : list cmember) : run (ctypes * (ncdt + Z)) :=
  match ms with
  | [] => Done (cc, inl d)
  | m :: r =>
      x <-- dax_cdt_member ts cc d (Some (cm_name m)) (cm_type m) (cm_count m) ;;
      match x with (cc, inr e) => Done (cc, inr e) | (cc, inl d) => add_wishes ts cc d r end
  end.
Definition make_type (E : env) (cc : ctypes) (fd : Z) (s : server) (nm : name) (ms : list cmember) : run (ctypes * server * (Z + Z)) :=
  x <-- dax_cdt_new (Some nm) ;;
  match x with
  | inr e => Done (cc, s, inr e)
  | inl d =>
      y <-- add_wishes (s_types s) cc d ms ;;
      match y with
      | (cc, inr e) => Done (cc, s, inr e)
      | (cc, inl d) =>
          z <-- dax_cdt_create E cc fd s d ;;
          let '(cc, s, e, ty, _) := z in Done (cc, s, if e =? 0 then inl ty else inr e)
      end
  end.

(** one member of the table of a script: name and type as lua_tostring gives them, the count as lua_tointeger *)
Record lmember := mk_lm { lm_name : option name; lm_type : option name; lm_count : Z }.
(** libdaxlua.c:569-618 [_cdt_create]: [table] None: no table; a member None: no table either.  inr: luaL_error *)
Fixpoint lua_members (ts : list cdt) (cc : ctypes) (d : ncdt) (l : list (option lmember)) : run (ctypes * (ncdt + unit)) :=
  match l with
  | [] => Done (cc, inl d)
  | None :: _ => Undef UOob                                        (* lua_rawgeti on something that is no table *)
  | Some m :: r =>
      x <-- match lm_type m with None => Done (cc, 0) | Some tn => dax_string_to_type ts cc tn end ;;
      let '(cc, t) := x in
      y <-- dax_cdt_member ts cc d (lm_name m) t (s32 (lm_count m)) ;;
      match y with (cc, inr _) => Done (cc, inr tt) | (cc, inl d) => lua_members ts cc d r end
  end.
Definition lua_cdt_create (E : env) (cc : ctypes) (fd : Z) (s : server) (nm : option name) (table : option (list (option lmember))) : run (ctypes * server * (Z + unit)) :=
  x <-- dax_cdt_new nm ;;
  match x, table with
  | inr _, _ => Done (cc, s, inr tt)
  | inl _, None => Done (cc, s, inr tt)
  | inl d, Some l =>
      y <-- lua_members (s_types s) cc d l ;;
      match y with
      | (cc, inr _) => Done (cc, s, inr tt)
      | (cc, inl d) =>
          z <-- dax_cdt_create E cc fd s d ;;
          let '(cc, s, e, ty, released) := z in
          if e =? 0 then Done (cc, s, inl ty)
          else if released then Undef UUaf                         (* dax_cdt_free a second time *)
          else Done (cc, s, inr tt)
      end
  end.
