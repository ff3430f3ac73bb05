(** * Util: the helpers a module uses on its own status tag (src/lib/libutil.c)
    The tag names are looked up with dax_tag_handle (Path.v), the data go through dax_tag_read and dax_tag_write
    (ClientData.v; opendax.h:387-388: dax_read_tag and dax_write_tag are other names for them).
    [db] is dax_tag_byname as in Path.v, [junk] the contents of the automatic array [tagname] (33 bytes).
    Memory allocation succeeds. *)
From Verif Require Import Base Const Types State Events Atomic Server ClientTypes Cache Path ClientData.

(** libutil.c:30 *)
Definition my_tagname : name := str "_my_tagname".

(** The lines all functions of the file begin with (e.g. libutil.c:49-57): read the name of the module's tag and get
    a handle for a member of it.  [tagname] has 33 bytes, [runtag] 64; snprintf is told that there are 256. *)
Definition own_member (E : env) (db : name -> option ctag) (cc : ctypes) (fd : Z) (s : server) (junk : list Z) (suffix : name) :
  run (ctypes * server * (handle + Z)) :=
  x <-- tag_handle (s_types s) db cc my_tagname 0 ;;
  match x with
  | (cc, inr e) => Done (cc, s, inr e)
  | (cc, inl h) =>
      if 255 <? h_size h then Done (cc, s, inr E_2BIG)
      else
        r <-- dax_tag_read E cc fd s h junk ;;
        let '(s, tagname, e) := r in
        if negb (e =? 0) then Done (cc, s, inr e)
        else match cstr tagname with
             | None => Undef UStr                                  (* %s runs past the array *)
             | Some n =>
                 let runtag := firstn 255 (n ++ suffix) in
                 if 64 <? zlen runtag + 1 then Undef UOob
                 else
                   y <-- tag_handle (s_types s) db cc runtag 0 ;;
                   let '(cc, r) := y in Done (cc, s, r)
             end
  end.
(** own_member and dax_write_tag; the result of both is the result of the function *)
Definition put_member (E : env) (db : name -> option ctag) (cc : ctypes) (fd : Z) (s : server) (junk : list Z) (suffix : name) (data : handle -> list Z) :
  run (ctypes * server * Z) :=
  x <-- own_member E db cc fd s junk suffix ;;
  match x with
  | (cc, s, inr e) => Done (cc, s, e)
  | (cc, s, inl h) => w <-- dax_tag_write E cc fd s h (data h) ;; let '(s, e) := w in Done (cc, s, e)
  end.
Definition flag_byte (val : Z) : list Z := [if val =? 0 then 0 else 1].

(** libutil.c:40-66 *)
Definition dax_set_running (E : env) (db : name -> option ctag) (cc : ctypes) (fd : Z) (s : server) (junk : list Z) (val : Z) : run (ctypes * server * Z) :=
  put_member E db cc fd s junk (str ".running") (fun _ => flag_byte val).
(** libutil.c:109-135 *)
Definition dax_set_faulted (E : env) (db : name -> option ctag) (cc : ctypes) (fd : Z) (s : server) (junk : list Z) (val : Z) : run (ctypes * server * Z) :=
  put_member E db cc fd s junk (str ".faulted") (fun _ => flag_byte val).
(** libutil.c:74-99; [val] is the text without its terminator *)
Definition status_bytes (val : name) (h : handle) : list Z := firstn (Z.to_nat (h_size h)) (val ++ zeros (h_size h)).
Definition dax_set_status (E : env) (db : name -> option ctag) (cc : ctypes) (fd : Z) (s : server) (junk : list Z) (val : name) : run (ctypes * server * Z) :=
  put_member E db cc fd s junk (str ".status") (status_bytes val).

(** libutil.c:147-169, 178-200, 209-230: the result of the write is not looked at; without a handle
    the running bit stays as it is *)
Definition clear_member (E : env) (db : name -> option ctag) (cc : ctypes) (fd : Z) (s : server) (junk : list Z) (suffix : name)
  (next : ctypes -> server -> run (ctypes * server * Z)) : run (ctypes * server) :=
  x <-- own_member E db cc fd s junk suffix ;;
  match x with
  | (cc, s, inr _) => Done (cc, s)
  | (cc, s, inl h) =>
      w <-- dax_tag_write E cc fd s h [0] ;;
      z <-- next cc (fst w) ;;
      let '(cc, s, _) := z in Done (cc, s)
  end.
Definition dax_default_run (E : env) (db : name -> option ctag) (cc : ctypes) (fd : Z) (s : server) (junk junk' : list Z) : run (ctypes * server) :=
  clear_member E db cc fd s junk (str ".run") (fun cc s => dax_set_running E db cc fd s junk' 1).
Definition dax_default_stop (E : env) (db : name -> option ctag) (cc : ctypes) (fd : Z) (s : server) (junk junk' : list Z) : run (ctypes * server) :=
  clear_member E db cc fd s junk (str ".stop") (fun cc s => dax_set_running E db cc fd s junk' 0).
Definition dax_default_kill (E : env) (db : name -> option ctag) (cc : ctypes) (fd : Z) (s : server) (junk : list Z) : run (ctypes * server) :=
  clear_member E db cc fd s junk (str ".kill") (fun cc s => Done (cc, s, 0)).

(** libutil.c:260-342: the request of dax_event_add (libmsg.c:1163-1222); what the client then does with its
    own list of callbacks is in ClientRx.v.  inl: the number of the event *)
Definition dax_set_callback (E : env) (db : name -> option ctag) (cc : ctypes) (fd : Z) (s : server) (junk : list Z) (suffix : name) :
  run (ctypes * server * (list Z + Z)) :=
  x <-- own_member E db cc fd s junk suffix ;;
  match x with
  | (cc, s, inr e) => Done (cc, s, inr e)
  | (cc, s, inl h) => r <-- ask E s (OpEvAdd fd h EV_SET []) ;; let '(s, a) := r in Done (cc, s, a)
  end.
Definition dax_set_run_callback (E : env) (db : name -> option ctag) (cc : ctypes) (fd : Z) (s : server) (junk : list Z) := dax_set_callback E db cc fd s junk (str ".run").
Definition dax_set_stop_callback (E : env) (db : name -> option ctag) (cc : ctypes) (fd : Z) (s : server) (junk : list Z) := dax_set_callback E db cc fd s junk (str ".stop").
Definition dax_set_kill_callback (E : env) (db : name -> option ctag) (cc : ctypes) (fd : Z) (s : server) (junk : list Z) := dax_set_callback E db cc fd s junk (str ".kill").
(** libutil.c:239-250: the three default callbacks; the first failure ends it *)
Definition dax_set_default_callbacks (E : env) (db : name -> option ctag) (cc : ctypes) (fd : Z) (s : server) (j1 j2 j3 : list Z) : run (ctypes * server * Z) :=
  x <-- dax_set_run_callback E db cc fd s j1 ;;
  match x with
  | (cc, s, inr e) => Done (cc, s, e)
  | (cc, s, inl _) =>
      y <-- dax_set_stop_callback E db cc fd s j2 ;;
      match y with
      | (cc, s, inr e) => Done (cc, s, e)
      | (cc, s, inl _) =>
          z <-- dax_set_kill_callback E db cc fd s j3 ;;
          match z with (cc, s, inr e) => Done (cc, s, e) | (cc, s, inl _) => Done (cc, s, 0) end
      end
  end.

(** libmsg.c:566-618 [dax_tag_byname] of a client whose cache is empty: the server's answer to MSG_TAG_GET *)
Definition asked (s : server) (nm : name) : option ctag :=
  match tag_get_name s nm with
  | Done (inl (i, ty, n, a, nm')) => Some (mk_ct nm' i ty n a)
  | _ => None
  end.
