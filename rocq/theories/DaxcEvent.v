(** * DaxcEvent: ADD EVENT, DEL EVENT and the events printed by the command line client (src/modules/daxc/daxc_event.c:22-156)
    A string is the list of its characters without the terminator.  The client is connected as in ClientData.v, tag names are looked
    up as in Path.v, the messages of the server reach dispatch_event as in ClientRx.v.  Memory allocation succeeds. *)
From Verif Require Import Base Const Types State Events Atomic Server Text ClientTypes ClientMsg ClientData ClientRx Cache Path Daxc.

(** daxc_event.c:25-29: the array [events] (used, tag index, event id), and the events known to the library *)
Record dev := mk_dev { dv_tab : list (bool * Z * Z); dv_ev : cev }.
(** daxc.h:32 *)
Definition MAX_EVENTS := 64.
(** static memory is zero *)
Definition dev_start : dev := mk_dev (repeat (false, 0, 0) 64) ev_init.
(** libevent.c:34-55 [dax_event_string_to_type] *)
Definition event_kind (n : name) : Z :=
  if case_eqb n (str "WRITE") then EV_WRITE else if case_eqb n (str "CHANGE") then EV_CHANGE
  else if case_eqb n (str "SET") then EV_SET else if case_eqb n (str "RESET") then EV_RESET
  else if case_eqb n (str "EQUAL") then EV_EQUAL else if case_eqb n (str "GREATER") then EV_GREATER
  else if case_eqb n (str "LESS") then EV_LESS else if case_eqb n (str "DEADBAND") then EV_DEADBAND else 0.
(** daxc_event.c:51-93 [_convert_data_str]: the TYPESIZE / 8 bytes of the union that dax_event_add sends.  A TIME has 8 bytes of which 4
    are written; a compound type may have any number, none of which is written to the message (libconv.c:134-182) *)
Definition event_value (T : tenv) (t : Z) (w : name) : run (list Z) :=
  if (t =? T_BYTE) || (t =? T_SINT) || (t =? T_CHAR) then Done (le_bytes 1 (strtol0 w))
  else if (t =? T_UINT) || (t =? T_WORD) then Done (le_bytes 2 (fst (strtoul0 w)))
  else if t =? T_INT then Done (le_bytes 2 (strtol0 w))
  else if (t =? T_UDINT) || (t =? T_DWORD) then Done (le_bytes 4 (fst (strtoul0 w)))
  else if t =? T_TIME then Undef UUninit
  else if t =? T_DINT then Done (le_bytes 4 (strtol0 w))
  else if (t =? T_ULINT) || (t =? T_LWORD) then Done (le_bytes 8 (fst (strtoul0 w)))
  else if t =? T_LINT then Done (le_bytes 8 (strtol0 w))
  else if t =? T_REAL then Done (le_bytes 4 (fst (te_parse T T_REAL w)))
  else if t =? T_LREAL then Done (le_bytes 8 (fst (te_parse T T_LREAL w)))
  else if typesize_bits t / 8 =? 0 then Done [] else Undef UUninit.
(** daxc_event.c:104: the first entry that is not used *)
Fixpoint free_slot (tab : list (bool * Z * Z)) (n : Z) : option Z :=
  match tab with [] => None | (u, _, _) :: r => if u : bool then free_slot r (n + 1) else Some n end.
(** daxc_event.c:96-146 [event_add], libmsg.c:1162-1222: inl: the number printed *)
Definition event_add_cmd (E : env) (T : tenv) (db : name -> option ctag) (cc : ctypes) (fd : Z) (s : server) (d : dev) (a : list name) :
  run (ctypes * server * dev * (Z + unit)) :=
  match free_slot (dv_tab d) 0 with
  | None => Done (cc, s, d, inr tt)
  | Some n =>
      match a with
      | nm :: c :: k :: rest =>
          let ty := event_kind k in
          if ty =? 0 then Done (cc, s, d, inr tt)
          else
            x <-- tag_handle (s_types s) db cc nm (s32 (strtol0 c)) ;;
            match x with
            | (cc, inr _) => Done (cc, s, d, inr tt)
            | (cc, inl h) =>
                data <-- match rest with [w] => event_value T (h_type h) w | _ => Done [] end ;;
                r <-- ask E s (OpEvAdd fd h ty data) ;;
                match r with
                | (s, inr _) => Done (cc, s, d, inr tt)
                | (s, inl p) =>
                    let id := s32 (le_val (slice 0 4 p)) in
                    ev <-- add_event (h_index h) id n (dv_ev d) ;;
                    o <-- ask E s (OpEvOpt fd (h_index h) id 1) ;;
                    Done (cc, fst o, mk_dev (zset (dv_tab d) n (true, h_index h, id)) ev, inl (n + 1))
                end
            end
      | _ => Done (cc, s, d, inr tt)
      end
  end.
(** daxc_event.c:148-163 [event_del], libmsg.c:1233-1262.  The boolean: was a request sent that the server did not refuse?  That the
    answer has 8 bytes and its variable 4 is left out here (DESIGN.md, defects); the result is not used (daxc.c:337). *)
Definition event_del_cmd (E : env) (fd : Z) (s : server) (d : dev) (a : list name) : run (server * dev * bool) :=
  match a with
  | [] => Done (s, d, false)
  | w :: _ =>
      if strtol0 w =? -9223372036854775808 then Undef UOverflow
      else
        let index := s32 (strtol0 w - 1) in
        if (index <? 0) || (MAX_EVENTS <? index) then Done (s, d, false)
        else match znth (dv_tab d) index with
             | None => Undef UOob
             | Some (_, i, id) =>
                 r <-- ask E s (OpEvDel fd i id) ;;
                 match r with
                 | (s, inr _) => Done (s, d, false)
                 | (s, inl _) => Done (s, mk_dev (dv_tab d) (fst (del_event i id (dv_ev d))), true)
                 end
             end
  end.
(** daxc_event.c:31-48 [_event_callback], called by dispatch_event with the address of entry [cb]: the number printed, 0 for "Bad Event" *)
Fixpoint entry_of (tab : list (bool * Z * Z)) (i id n : Z) : Z :=
  match tab with [] => 0 | (_, j, jd) :: r => if (j =? i) && (jd =? id) then n + 1 else entry_of r i id (n + 1) end.
Definition event_print (d : dev) (m : cmsg) : run (option Z) :=
  x <-- dispatch_event m (dv_ev d) ;;
  match fst x with
  | None => Done None
  | Some (cb, _) => match znth (dv_tab d) cb with None => Undef UOob | Some (_, i, id) => Done (Some (entry_of (dv_tab d) i id 0)) end
  end.
