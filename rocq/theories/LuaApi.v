(** * LuaApi: the functions a Lua script calls (src/lib/lua/libdaxlua.c:726-885, 1116-1170, 1287-1343)

    The functions are followed from the point where the first argument has become a handle (Path.v: dax_tag_handle;
    a handle given as userdata is used as it is).  [ty] is the type of the handle as a tree (LuaConv.v), [junk] what
    malloc returns: memory that nobody has set.  The client is connected as in ClientData.v. *)
From Verif Require Import Base Const Types State Events Atomic Server ClientTypes ClientData ClientOvr LuaConv.

(** what a script sees: a value ([LNil]: none) or an error *)
Inductive lres := LOk (v : lval) | LFail (e : Z).

(** libdaxlua.c:751-773 [_tag_read] *)
Definition lua_tag_read (E : env) (cc : ctypes) (fd : Z) (s : server) (h : handle) (ty : lty) (junk : list Z) : run (server * lres) :=
  x <-- dax_tag_read E cc fd s h junk ;;
  let '(s, buf, e) := x in
  if negb (e =? 0) then Done (s, LFail e)
  else v <-- dax_to_lua buf ty (h_count h) ;; Done (s, LOk v).

(** 735-746: the number of elements asked for when the tag is given by name; [arg] is the second argument *)
Definition lua_read_count (L : lenv) (arg : option lval) : Z :=
  s32 (toint L (match arg with Some v => v | None => LNil end)).
(** 704-708: the same for [_tag_handle] *)
Definition lua_handle_count (L : lenv) (arg : option lval) : Z := match arg with Some v => s32 (toint L v) | None => 1 end.

(** data and mask of a value: 800-820 in [_tag_write], 1145-1161 in [_atomic_op], 1310-1329 in [_override_add] *)
Definition lua_value (L : lenv) (h : handle) (ty : lty) (junk : list Z) (v : lval) : run (Z * lw) :=
  lua_to_dax L ty (h_count h) {| w_stk := [v]; w_data := junk; w_mask := zeros (h_size h) |}.
(** libdaxlua.c:798-845 [_tag_write] *)
Definition lua_tag_write (E : env) (L : lenv) (cc : ctypes) (fd : Z) (s : server) (h : handle) (ty : lty) (junk : list Z) (v : lval) : run (server * lres) :=
  x <-- lua_value L h ty junk v ;;
  let '(e, w) := x in
  if negb (e =? 0) then Done (s, LFail e)
  else
    r <-- (if forallb (fun b => b =? 255) (slice 0 (h_size h) (w_mask w)) then dax_tag_write E cc fd s h (w_data w)
           else dax_tag_mask E cc fd s h (w_data w) (w_mask w)) ;;
    let '(s, e) := r in
    Done (s, if e =? 0 then LOk LNil else LFail e).
(** libdaxlua.c:1310-1343 [_override_add] *)
Definition lua_override_add (E : env) (L : lenv) (fd : Z) (s : server) (h : handle) (ty : lty) (junk : list Z) (v : lval) : run (server * lres) :=
  x <-- lua_value L h ty junk v ;;
  let '(e, w) := x in
  if negb (e =? 0) then Done (s, LFail e)
  else
    r <-- dax_tag_add_override E fd s h (w_data w) ;;
    let '(s, e) := r in
    Done (s, if e =? 0 then LOk LNil else LFail e).
(** libmsg.c:1091-1139 [dax_atomic_op] with data, and libdaxlua.c:1145-1169 [_atomic_op] with three arguments *)
Definition dax_atomic_op (E : env) (fd : Z) (s : server) (h : handle) (d : list Z) (opr : Z) : run (server * Z) :=
  if 4088 <? u32 (h_size h + 21) then Done (s, E_2BIG)
  else if is_custom (h_type h) then Done (s, E_ILLEGAL)
  else
    r <-- ask E s (OpAtomic fd h (u16 opr) (slice 0 (h_size h) d)) ;;
    match r with (s, inr e) => Done (s, e) | (s, inl _) => Done (s, 0) end.
Definition lua_atomic_op (E : env) (L : lenv) (fd : Z) (s : server) (h : handle) (ty : lty) (junk : list Z) (v : lval) (opr : lval) : run (server * lres) :=
  x <-- lua_value L h ty junk v ;;
  let '(e, w) := x in
  if negb (e =? 0) then Done (s, LFail e)
  else
    r <-- dax_atomic_op E fd s h (w_data w) (u16 (toint L opr)) ;;
    let '(s, e) := r in
    Done (s, if e =? 0 then LOk LNil else LFail e).

(** libmsg.c:566-614 [dax_tag_byname] and 625-660 [dax_tag_byindex] for a tag that is not in the cache: the index they store
    in the caller's structure, if they store one.  A name of length 0 or above 32 is not sent. *)
Definition lookup (E : env) (fd : Z) (s : server) (who : Z + name) : run (server * option Z) :=
  match who with
  | inl i =>
      r <-- ask E s (OpTagGetIdx fd i) ;;
      match r with (s, inl p) => Done (s, Some (s32 (le_val (slice 0 4 p)))) | (s, inr _) => Done (s, None) end
  | inr nm =>
      if (32 <? zlen nm) || (zlen nm =? 0) then Done (s, None)
      else
        r <-- ask E s (OpTagGetName fd nm) ;;
        match r with (s, inl p) => Done (s, Some (s32 (le_val (slice 0 4 p)))) | (s, inr _) => Done (s, None) end
  end.
(** libdaxlua.c:848-875 [_tag_del]: the result of the lookup is not looked at; [junk] is what tag.idx holds before *)
Definition lua_tag_del (E : env) (fd : Z) (s : server) (who : Z + name) (junk : Z) : run (server * lres) :=
  x <-- lookup E fd s who ;;
  let '(s, i) := x in
  r <-- ask E s (OpTagDel fd (match i with Some i => i | None => junk end)) ;;
  match r with (s, inl _) => Done (s, LOk LNil) | (s, inr e) => Done (s, LFail e) end.
