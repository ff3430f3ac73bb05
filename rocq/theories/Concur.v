(** * Concur: dax_tag_read and dax_tag_write while other clients use the server
    A large transfer is split into several requests (ClientData.v).  The server serves one request at a time
    (server.c, message.c:msg_receive) and may serve any number of requests of other connections between two
    requests of a call.  [q_sched] lists them: the first element is served before the next request of the call,
    and so on; when the list is used up nobody else is served. *)
From Verif Require Import Base Const Types State Events Atomic Server ClientTypes ClientData.

(** Served between two requests of the call: the server before, the requests of others, and the server the
    request of the call meets. *)
Record moment := mkM { m_before : server; m_others : list op; m_at : server }.
(** The server, the requests of others still to come, and (for the statements only) the moments so far. *)
Record conc := mkQ { q_srv : server; q_sched : list (list op); q_seen : list moment }.
Definition meanwhile (E : env) (q : conc) : run conc :=
  let os := hd [] (q_sched q) in
  s <-- exec E (q_srv q) os ;; Done (mkQ s (tl (q_sched q)) (q_seen q ++ [mkM (q_srv q) os s])).
(** libmsg.c:674-708 [dax_read] *)
Definition q_read (E : env) (fd idx off size at_ : Z) (x : conc * list Z) : run (conc * list Z * Z) :=
  let '(q, buf) := x in
  q <-- meanwhile E q ;;
  y <-- c_read E fd idx off size at_ (q_srv q, buf) ;;
  let '(s, buf, e) := y in Done (mkQ s (q_sched q) (q_seen q), buf, e).
(** libmsg.c:725-766 [dax_write] *)
Definition q_write (E : env) (fd idx off size at_ : Z) (d : list Z) (q : conc) : run (conc * Z) :=
  q <-- meanwhile E q ;;
  y <-- c_write E fd idx off size at_ d (q_srv q) ;;
  let '(s, e) := y in Done (mkQ s (q_sched q) (q_seen q), e).

(** libdata.c:353-409 [dax_tag_read] for types other than BOOL; the definition of the type is fetched at the start *)
Definition q_tag_read (E : env) (cc : ctypes) (fd : Z) (q : conc) (h : handle) (buf : list Z) : run (conc * list Z * Z) :=
  x <-- (if MSG_DATA_SIZE <? h_size h then
           y <-- dax_get_typesize (s_types (q_srv q)) cc (h_type h) ;;
           let tsz := snd y in
           if MSG_DATA_SIZE <? tsz then Done (q, buf, E_2BIG)
           else chunks (fun a n r => q_read E fd (h_index h) (u32 (h_byte h + n)) r n a)
                  (fuel_of (h_size h)) MSG_DATA_SIZE tsz (s32 (h_size h)) 0 (q, buf)
         else q_read E fd (h_index h) (h_byte h) (h_size h) 0 (q, buf)) ;;
  let '(q', buf, e) := x in
  if negb (e =? 0) then Done (q', buf, e)
  else
    e <-- read_format (s_types (q_srv q)) cc (h_type h) (h_count h) (zlen buf) ;;
    Done (q', buf, e).
(** libdata.c:519-598 [dax_tag_write] for handles of whole bytes *)
Definition q_tag_write (E : env) (cc : ctypes) (fd : Z) (q : conc) (h : handle) (d : list Z) : run (conc * Z) :=
  e <-- write_format (s_types (q_srv q)) cc (h_type h) (h_count h) (zlen d) ;;
  if negb (e =? 0) then Done (q, e)
  else if 4080 <? h_size h then
    y <-- dax_get_typesize (s_types (q_srv q)) cc (h_type h) ;;
    let tsz := snd y in
    if 4080 <? tsz then Done (q, E_2BIG)
    else chunks (fun a n r => q_write E fd (h_index h) (u32 (h_byte h + n)) r n d a) (fuel_of (h_size h)) 4080 tsz (s32 (h_size h)) 0 q
  else q_write E fd (h_index h) (h_byte h) (h_size h) 0 d q.
