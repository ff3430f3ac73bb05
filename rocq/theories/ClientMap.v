(** * ClientMap: mappings and groups through the library (lib/libmsg.c:1471-1822, lib/libdata.c:695-726) and the mapping functions of the
    Lua API (lib/lua/libdaxlua.c:1172-1284)
    The client is connected as in ClientData.v; memory allocation succeeds. *)
From Verif Require Import Base Const Types State Events Atomic Server ClientTypes ClientMsg ClientData LuaConv.

(** libmsg.c:1471-1522 [dax_map_add]: the id (tag index and number) or an error *)
Definition dax_map_add (E : env) (fd : Z) (s : server) (src dst : handle) : run (server * (Z * Z + Z)) :=
  r <-- ask E s (OpMapAdd fd src dst) ;;
  match r with
  | (s, inr e) => Done (s, inr e)
  | (s, inl p) => Done (s, inl (h_index src, s32 (le_val (slice 0 4 p))))
  end.
(** libmsg.c:1559-1571: a handle from 21 bytes at position [k] of the buffer *)
Definition dec_handle (b : list Z) (k : Z) : handle :=
  mk_h (s32 (le_val (slice k 4 b))) (le_val (slice (k + 4) 4 b)) (nthb b (k + 8)) (le_val (slice (k + 9) 4 b)) (le_val (slice (k + 13) 4 b)) (le_val (slice (k + 17) 4 b)).
(** libmsg.c:1537-1575 [dax_map_get]: source, destination and the result.  The handles are set in any case; after an error from what the
    request has left in the buffer, [J] is the rest of it. *)
Definition dax_map_get (J : Z -> Z) (E : env) (fd : Z) (s : server) (idx id : Z) : run (server * (handle * handle) * Z) :=
  r <-- ask E s (OpMapGet fd idx id) ;;
  match r with
  | (s, inl p) => Done (s, (dec_handle p 0, dec_handle p 21), 0)
  | (s, inr e) => let b := le4 idx ++ le4 id ++ junk J 8 34 in Done (s, (dec_handle b 0, dec_handle b 21), e)
  end.
(** libmsg.c:1587-1612 [dax_map_del] *)
Definition dax_map_del (E : env) (fd : Z) (s : server) (idx id : Z) : run (server * Z) :=
  r <-- ask E s (OpMapDel fd idx id) ;;
  Done (match r with (s, inl _) => (s, 0) | (s, inr e) => (s, e) end).

(** libdaxlua.c:1205-1216, the end of [_map_add]: the new table, or luaL_error *)
Definition lua_map_add (E : env) (fd : Z) (s : server) (src dst : handle) : run (server * option lval) :=
  r <-- dax_map_add E fd s src dst ;;
  match r with
  | (s, inr _) => Done (s, None)
  | (s, inl (i, id)) => Done (s, Some (LTab [(KI 1, LInt i); (KI 2, LInt id)]))
  end.
(** libdaxlua.c:1230-1236 and 1271-1277: the id in a table; None: luaL_error *)
Definition lua_map_id (L : lenv) (v : lval) : option (Z * Z) :=
  match v with LTab t => Some (s32 (toint L (rawget (KI 1) t)), s32 (toint L (rawget (KI 2) t))) | _ => None end.
(** libdaxlua.c:1221-1258 [_map_get]: two handles, two nils, or luaL_error *)
Inductive lmap := MHandles (a b : handle) | MNils | MError.
Definition lua_map_get (J : Z -> Z) (E : env) (L : lenv) (fd : Z) (s : server) (v : lval) : run (server * lmap) :=
  match lua_map_id L v with
  | None => Done (s, MError)
  | Some (i, id) =>
      x <-- dax_map_get J E fd s i id ;;
      let '(s, (a, b), e) := x in
      Done (s, if e =? E_NOTFOUND then MNils else if negb (e =? 0) then MError else MHandles a b)
  end.
(** libdaxlua.c:1262-1284 [_map_del]: true: returned, false: luaL_error *)
Definition lua_map_del (E : env) (L : lenv) (fd : Z) (s : server) (v : lval) : run (server * bool) :=
  match lua_map_id L v with
  | None => Done (s, false)
  | Some (i, id) => x <-- dax_map_del E fd s i id ;; Done (fst x, snd x =? 0)
  end.

(** libdax.h tag_group_id *)
Record cgroup := mk_cg { cg_index : Z; cg_handles : list handle; cg_size : Z }.
(** libmsg.c:1647-1653: the sum of the sizes, or None above 4084 (the sum is a size_t and stops growing there) *)
Fixpoint sum_sizes (hs : list handle) (sum : Z) : option Z :=
  match hs with [] => Some sum | h :: r => if 4084 <? sum + h_size h then None else sum_sizes r (sum + h_size h) end.
(** libmsg.c:1631-1705 [dax_group_add] for an array of handles *)
Definition dax_group_add (E : env) (fd : Z) (s : server) (hs : list handle) : run (server * (cgroup + Z)) :=
  if 150 <? zlen hs then Done (s, inr E_ARG)
  else match sum_sizes hs 0 with
       | None => Done (s, inr E_2BIG)
       | Some n =>
           r <-- ask E s (OpGrpAdd fd hs) ;;
           Done (match r with
                 | (s, inr e) => (s, inr e)
                 | (s, inl p) => (s, inl (mk_cg (le_val (slice 0 4 p)) hs n))
                 end)
       end.
(** libdata.c:699-711 [group_read_format], 713-725 [group_write_format] ([dbl] as in ClientData.v) for a buffer of [len] bytes.
    [group_write_format] runs without the lock and can fetch types; here it also needs them in the cache. *)
Fixpoint group_format (dbl : bool) (ts : list cdt) (cc : ctypes) (hs : list handle) (off len : Z) : run Z :=
  match hs with
  | [] => Done 0
  | h :: r =>
      e <-- fmt (S (length ts)) dbl ts cc (h_type h) (h_count h) off 0 len ;;
      if negb (e =? 0) then Done e else group_format dbl ts cc r (off + h_size h) len
  end.
(** libmsg.c:1729-1757 [dax_group_read]: the request is built in the caller's buffer, which has the size the caller says *)
Definition dax_group_read (E : env) (cc : ctypes) (fd : Z) (s : server) (g : cgroup) (buf : list Z) : run (server * list Z * Z) :=
  if zlen buf <? cg_size g then Done (s, buf, E_ARG)
  else if zlen buf <? 4 then Undef UOob
  else
    let buf := splice 0 (le4 (cg_index g)) buf in
    r <-- ask E s (OpGrpRead fd (cg_index g)) ;;
    match r with
    | (s, inr e) => Done (s, buf, e)
    | (s, inl p) =>
        if negb (in_bounds 0 (zlen p) (zlen buf)) then Undef UOob
        else
          e <-- group_format false (s_types s) cc (cg_handles g) 0 (zlen buf) ;;
          Done (s, splice 0 p buf, e)
    end.
(** libmsg.c:1767-1790 [dax_group_write]; [d] is the caller's buffer *)
Definition dax_group_write (E : env) (cc : ctypes) (fd : Z) (s : server) (g : cgroup) (d : list Z) : run (server * Z) :=
  e <-- group_format true (s_types s) cc (cg_handles g) 0 (zlen d) ;;
  if negb (e =? 0) then Done (s, e)
  else if negb (in_bounds 0 (cg_size g) (zlen d)) || (4088 <? 4 + cg_size g) then Undef UOob
  else
    r <-- ask E s (OpGrpWrite fd (cg_index g) (slice 0 (cg_size g) d)) ;;
    Done (match r with (s, inl _) => (s, 0) | (s, inr e) => (s, e) end).
(** libmsg.c:1799-1822 [dax_group_del]: the structure is freed when the result is 0 *)
Definition dax_group_del (E : env) (fd : Z) (s : server) (g : cgroup) : run (server * Z) :=
  r <-- ask E s (OpGrpDel fd (cg_index g)) ;;
  Done (match r with (s, inl _) => (s, 0) | (s, inr e) => (s, e) end).
