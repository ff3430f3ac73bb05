(** * LuaEvent: events and log messages of Lua scripts (lib/lua/libdaxlua.c:883-1075, 1477-1500)
    Memory allocation succeeds.  The client is connected as in ClientData.v.  Metatables are left out: only functions can be called. *)
From Verif Require Import Base Const Types State Events Atomic Server ClientTypes ClientData ClientRx LuaConv Log.

(** a Lua value as an argument: [AFun f] is function number f *)
Inductive larg := AVal (v : lval) | AFun (f : Z).
(** libdaxlua.c:898-919 [_get_event_type] *)
Definition get_event_type (nm : option name) : run Z :=
  match nm with
  | None => Undef UNull                                            (* strcasecmp(NULL, ..) *)
  | Some n =>
      Done (if case_eqb n (str "WRITE") then EV_WRITE else if case_eqb n (str "CHANGE") then EV_CHANGE
            else if case_eqb n (str "DEADBAND") then EV_DEADBAND else if case_eqb n (str "SET") then EV_SET
            else if case_eqb n (str "RESET") then EV_RESET else if case_eqb n (str "EQUAL") then EV_EQUAL
            else if case_eqb n (str "GREATER") then EV_GREATER else if case_eqb n (str "LESS") then EV_LESS else E_ARG)
  end.
(** libdaxlua.c:927-980 [_convert_lua_number]: [u1] is the static union; the new union and whether data points at it *)
Definition convert_lua_number (L : lenv) (u1 : list Z) (t : Z) (x : lnum) : run (list Z * bool) :=
  let put n b := Done (le_bytes n b ++ skipn n u1, true) in
  if t =? T_BYTE then b <-- dbl_to 0 255 x ;; put 1%nat b
  else if (t =? T_SINT) || (t =? T_CHAR) then b <-- dbl_to (-128) 127 x ;; put 1%nat b
  else if (t =? T_UINT) || (t =? T_WORD) then b <-- dbl_to 0 65535 x ;; put 2%nat b
  else if t =? T_INT then b <-- dbl_to (-32768) 32767 x ;; put 2%nat b
  else if (t =? T_UDINT) || (t =? T_DWORD) || (t =? T_TIME) then b <-- dbl_to 0 4294967295 x ;; put 4%nat b
  else if t =? T_DINT then b <-- dbl_to (-2147483648) 2147483647 x ;; put 4%nat b
  else if (t =? T_ULINT) || (t =? T_LWORD) then b <-- dbl_to 0 18446744073709551615 x ;; put 8%nat b
  else if t =? T_LINT then b <-- dbl_to (-9223372036854775808) 9223372036854775807 x ;; put 8%nat b
  else if t =? T_REAL then put 4%nat (match x with FZ z => fp_enc 23 8 z | FB b => l_narrow L b end)
  else if t =? T_LREAL then put 8%nat (match x with FZ z => fp_enc 52 11 z | FB b => b end)
  else Done (u1, false).

(** what the script library keeps: the static union, the values behind luaL_ref, the structures event_ref_data (function, data), and
    the library's list of events *)
Record lstate := mk_ls { ls_u1 : list Z; ls_refs : list larg; ls_data : list (Z * Z); ls_events : cev }.
(** luaL_ref: nil has the reference -1; every other value gets a new one (nothing is ever released) *)
Definition lual_ref (v : larg) (refs : list larg) : list larg * Z :=
  match v with AVal LNil => (refs, -1) | _ => (refs ++ [v], zlen refs) end.
Definition rawgeti_ref (refs : list larg) (r : Z) : larg := match znth refs r with Some v => v | None => AVal LNil end.

(** libdaxlua.c:1005-1011: is argument 5 accepted? *)
Definition arg5_ok (L : lenv) (f : larg) : bool :=
  match f with
  | AFun _ => true                                                 (* lua_tonumber of a function is 0 *)
  | AVal LNil => true
  | AVal v => match tonum L v with FZ z => z =? 0 | FB b => (b =? 0) || (b =? 9223372036854775808) end
  end.
(** libdaxlua.c:992-1049 [_event_add] with six arguments, from the handle on, with libmsg.c:1163-1222 [dax_event_add]: one value in the
    tag's type is sent if there is one.  inl: index and number of the event; inr: luaL_error *)
Definition lua_event_add (E : env) (L : lenv) (fd : Z) (s : server) (st : lstate) (h : handle) (kind : option name) (num : lval) (f d : larg) :
  run (server * lstate * (Z * Z + unit)) :=
  if negb (arg5_ok L f) then Done (s, st, inr tt)
  else
    ty <-- get_event_type kind ;;
    if ty <? 0 then Done (s, st, inr tt)
    else
      c <-- convert_lua_number L (ls_u1 st) (h_type h) (tonum L num) ;;
      let '(u1, given) := c in
      let '(refs1, rd) := lual_ref d (ls_refs st) in
      let '(refs2, rf) := lual_ref f refs1 in
      r <-- ask E s (OpEvAdd fd h ty (if given then slice 0 (typesize_bits (h_type h) / 8) u1 else [])) ;;
      match r with
      | (s, inr _) => Done (s, mk_ls u1 refs2 (ls_data st) (ls_events st), inr tt)
      | (s, inl p) =>
          let id := s32 (le_val (slice 0 4 p)) in
          ev <-- add_event (h_index h) id (zlen (ls_data st)) (ls_events st) ;;
          Done (s, mk_ls u1 refs2 (ls_data st ++ [(rf, rd)]) ev, inl (h_index h, id))
      end.
(** libdaxlua.c:1055-1069 [_event_del], libmsg.c:1233-1262: the library forgets the event if the server answers; the script is told
    nothing, the boolean is for the statements.  That the answer has 8 bytes and its variable 4 is left out here (DESIGN.md, defects). *)
Definition lua_event_del (E : env) (fd : Z) (s : server) (st : lstate) (idx id : Z) : run (server * lstate * bool) :=
  r <-- ask E s (OpEvDel fd idx id) ;;
  match r with
  | (s, inr _) => Done (s, st, false)
  | (s, inl _) => Done (s, mk_ls (ls_u1 st) (ls_refs st) (ls_data st) (fst (del_event idx id (ls_events st))), true)
  end.
(** libdaxlua.c:888-894 [_event_callback], called by libevent.c:147-178 [dispatch_event]: a function is called with one argument, or Lua
    raises an error, or there is no such event *)
Inductive lcall := Called (f : Z) (d : larg) | Raised | Unknown.
Definition lua_dispatch (st : lstate) (m : cmsg) : run lcall :=
  x <-- dispatch_event m (ls_events st) ;;
  match fst x with
  | None => Done Unknown
  | Some (cb, _) =>
      match znth (ls_data st) cb with
      | None => Undef UUaf
      | Some (rf, rd) => Done (match rawgeti_ref (ls_refs st) rf with AFun f => Called f (rawgeti_ref (ls_refs st) rd) | _ => Raised end)
      end
  end.

(** vsnprintf without arguments: "%%" is a percent sign, any other conversion reads an argument that is not there *)
Fixpoint vformat (fmt : name) : run name :=
  match fmt with
  | [] => Done []
  | 37 :: 37 :: r => x <-- vformat r ;; Done (37 :: x)
  | 37 :: _ => Undef UUninit
  | c :: r => x <-- vformat r ;; Done (c :: x)
  end.
(** libdaxlua.c:1479-1500 [_log] with two arguments: [topic] is None if it is no integer, [text] None if it is no string; inr: luaL_error *)
Definition lua_log (lg : logger) (topic : option Z) (text : option name) : run (list lout + unit) :=
  match topic, text with
  | Some t, Some fmt => msg <-- vformat fmt ;; o <-- dax_log lg (u32 t) msg ;; Done (inl o)
  | _, _ => Done (inr tt)
  end.
