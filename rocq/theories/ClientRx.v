(** * ClientRx: what the library does with messages from the server (src/lib/libmsg.c:62-162, 290-353; src/lib/libevent.c:87-301)
    Each function below is what runs while one lock is held (event_lock for the event queue, msg_lock for the
    last message), so that the two threads of a client are a sequence of these steps in any order.
    Simplifications: malloc succeeds; the counter of lost events and the log are left out; an entry of the event
    database keeps one number [ev_cb] for its callback and user data. *)
From Verif Require Import Base Const.

(** libcommon.h:114-124 [dax_message]: the type and the data ([size] bytes of them) *)
Record cmsg := mk_cm { cm_kind : Z; cm_bytes : list Z }.
Definition F_RESPONSE : Z := 16777216.     (* libcommon.h:61 *)
Definition F_ERROR : Z := 33554432.        (* libcommon.h:62 *)
Definition F_EVENT : Z := 2147483648.      (* libcommon.h:63 *)

(** libmsg.c:50-57, the kernel's side of read(2): a read is given at most so many bytes; none: the receive timeout
    set in libmsg.c:220-223 expires (EWOULDBLOCK) *)
Definition read_chunk (g n : Z) (bs : list Z) : list Z := slice 0 (Z.min (Z.min g n) (zlen bs)) bs.
(** libmsg.c:70-83: the header; every read asks for 8 bytes, wherever it is put.
    The result: the buffer so far, the bytes left in the socket, the reads left; [None] is ERR_TIMEOUT. *)
Fixpoint get_header (gs : list Z) (bs acc : list Z) : list Z * list Z * option (list Z) :=
  if 8 <=? zlen acc then (bs, gs, Some acc)
  else
    match gs with
    | [] => (bs, [], None)
    | g :: gs =>
        let c := read_chunk g 8 bs in
        if zlen c =? 0 then (bs, gs, None) else get_header gs (slice (zlen c) (zlen bs - zlen c) bs) (acc ++ c)
    end.
(** libmsg.c:88-103: the body *)
Fixpoint get_body (gs : list Z) (size : Z) (bs acc : list Z) : run (list Z * list Z * option (list Z)) :=
  if 4096 <? zlen acc then Undef UOob                                        (* buff[DAX_MSGMAX] *)
  else if size <=? zlen acc then Done (bs, gs, Some acc)
  else
    match gs with
    | [] => Done (bs, [], None)
    | g :: gs =>
        let c := read_chunk g (size - zlen acc) bs in
        if zlen c =? 0 then Done (bs, gs, None) else get_body gs size (slice (zlen c) (zlen bs - zlen c) bs) (acc ++ c)
    end.
(** libmsg.c:64-107 [_message_get] *)
Definition message_get (gs bs : list Z) : run (list Z * list Z * option cmsg) :=
  match get_header gs bs [] with
  | (bs, gs, None) => Done (bs, gs, None)
  | (bs, gs, Some h) =>
      let size := be_val (slice 0 4 h) in
      let kind := be_val (slice 4 4 h) in
      x <-- get_body gs size bs [] ;;
      match x with
      | (bs, gs, None) => Done (bs, gs, None)
      | (bs, gs, Some d) => if 4088 <? size then Undef UOob else Done (bs, gs, Some (mk_cm kind d))   (* msg->data *)
      end
  end.

(** libdax.h:128-131 and the messages on the heap; an address is a position in [rx_heap], [None] is freed *)
Record crx := mk_crx { rx_heap : list (option cmsg); rx_slots : list Z; rx_count : Z; rx_last : option Z }.
(** libinit.c:71-77: the queue array of [n] pointers with undefined contents *)
Definition rx_init (n : Z) (junk : Z) : crx := mk_crx [] (repeat junk (Z.to_nat n)) 0 None.
Definition deref (heap : list (option cmsg)) (a : Z) : run cmsg :=
  match znth heap a with Some (Some m) => Done m | _ => Undef UUaf end.
Definition release (heap : list (option cmsg)) (a : Z) : run (list (option cmsg)) :=
  match znth heap a with Some (Some _) => Done (zset heap a None) | _ => Undef UUaf end.
Definition slot (sl : list Z) (i : Z) : run Z := match znth sl i with Some a => Done a | None => Undef UOob end.
(** libmsg.c:327-329, libevent.c:188-190: [for(n = 0; n < k; n++) q[n] = q[n+1]] *)
Fixpoint move_up (k : nat) (n : Z) (sl : list Z) : run (list Z) :=
  match k with
  | O => Done sl
  | S k =>
      a <-- slot sl (n + 1) ;;
      move_up k (n + 1) (zset sl n a)
  end.
(** libmsg.c:319-342 of [_read_next_message], for the message [m] just received *)
Definition accept_msg (m : cmsg) (s : crx) : run crx :=
  let a := zlen (rx_heap s) in
  let heap := rx_heap s ++ [Some m] in
  if Z.land (cm_kind m) F_EVENT =? 0 then Done (mk_crx heap (rx_slots s) (rx_count s) (Some a))
  else if rx_count s =? zlen (rx_slots s) then
    o <-- slot (rx_slots s) 0 ;;
    heap <-- release heap o ;;
    sl <-- move_up (Z.to_nat (zlen (rx_slots s) - 1)) 0 (rx_slots s) ;;
    _ <-- slot sl (zlen (rx_slots s) - 1) ;;
    Done (mk_crx heap (zset sl (zlen (rx_slots s) - 1) a) (rx_count s) (rx_last s))
  else
    _ <-- slot (rx_slots s) (rx_count s) ;;
    Done (mk_crx heap (zset (rx_slots s) (rx_count s) a) (rx_count s + 1) (rx_last s)).
(** libevent.c:180-193 [_pop_event] *)
Definition pop_event (s : crx) : run (crx * cmsg) :=
  o <-- slot (rx_slots s) 0 ;;
  m <-- deref (rx_heap s) o ;;
  heap <-- release (rx_heap s) o ;;
  sl <-- move_up (Z.to_nat (rx_count s - 1)) 0 (rx_slots s) ;;
  Done (mk_crx heap sl (rx_count s - 1) (rx_last s), m).
(** libevent.c:211, 235, 260: an event is taken when there is one (dax_event_wait waits, dax_event_poll gives up) *)
Definition fetch_event (s : crx) : run (crx * option cmsg) :=
  if 0 <? rx_count s then x <-- pop_event s ;; Done (fst x, Some (snd x)) else Done (s, None).

(** libmsg.c:138-161 of [_message_recv], for a call that waits for the answer to [command] (always with [response] set).
    [None]: nothing there before the timeout, ERR_TIMEOUT.  The result is the code returned and the data copied. *)
Definition take_answer (command : Z) (s : crx) : run (crx * (Z * list Z)) :=
  match rx_last s with
  | None => Done (s, (E_TIMEOUT, []))
  | Some a =>
      m <-- deref (rx_heap s) a ;;
      heap <-- release (rx_heap s) a ;;
      let s' := mk_crx heap (rx_slots s) (rx_count s) None in
      if cm_kind m =? Z.lor command F_ERROR then
        if zlen (cm_bytes m) <? 4 then Undef UUninit else Done (s', (s32 (le_val (slice 0 4 (cm_bytes m))), []))
      else if cm_kind m =? Z.lor command F_RESPONSE then Done (s', (0, cm_bytes m))
      else Done (s', (E_GENERIC, []))
  end.

(** libdax.h:91-98 [event_db] and libdax.h:123-125; the array holds [ev_size] entries *)
Record evdb := mk_ev { ev_idx : Z; ev_id : Z; ev_cb : Z }.
Record cev := mk_cev { ev_list : list evdb; ev_size : Z }.
(** libinit.c:65-73 *)
Definition ev_init : cev := mk_cev [] 1.
(** libevent.c:91-118 [add_event] *)
Definition add_event (idx id cb : Z) (c : cev) : run cev :=
  let size := if zlen (ev_list c) =? ev_size c then ev_size c * 2 else ev_size c in
  if negb (fits32 size) then Undef UOverflow
  else if size <=? zlen (ev_list c) then Undef UOob
  else Done (mk_cev (ev_list c ++ [mk_ev (u32 idx) (u32 id) cb]) size).
Definition is_ev (idx id : Z) (e : evdb) : bool := (ev_idx e =? u32 idx) && (ev_id e =? u32 id).
Fixpoint find_ev (idx id : Z) (l : list evdb) (n : Z) : option (Z * evdb) :=
  match l with [] => None | e :: r => if is_ev idx id e then Some (n, e) else find_ev idx id r (n + 1) end.
(** libevent.c:122-139 [del_event]: the result and the user data freed *)
Definition del_event (idx id : Z) (c : cev) : cev * (Z * option Z) :=
  match find_ev idx id (ev_list c) 0 with
  | Some (n, e) =>
      (mk_cev (firstn (Z.to_nat n) (ev_list c) ++ skipn (Z.to_nat (n + 1)) (ev_list c)) (ev_size c), (0, Some (ev_cb e)))
  | None => (c, (E_NOTFOUND, None))
  end.
(** libevent.c:147-178 [dispatch_event]: the callback that is run and the data it can see, and the result *)
Definition dispatch_event (m : cmsg) (c : cev) : run (option (Z * list Z) * (Z * option (Z * Z))) :=
  if zlen (cm_bytes m) <? 8 then Undef UUninit
  else
    let idx := be_val (slice 0 4 (cm_bytes m)) in
    let id := be_val (slice 4 4 (cm_bytes m)) in
    match find_ev idx id (ev_list c) 0 with
    | Some (_, e) => Done (Some (ev_cb e, slice 8 (zlen (cm_bytes m) - 8) (cm_bytes m)), (0, Some (idx, id)))
    | None => Done (None, (E_GENERIC, None))
    end.
(** libevent.c:290-301 [dax_event_get_data]; [data] is what the running callback can see, [None] outside of one *)
Definition event_get_data (data : option (list Z)) (len : Z) : run (Z * list Z) :=
  match data with
  | None => Done (E_DELETED, [])
  | Some d => if zlen d =? 0 then Done (E_EMPTY, [])
              else if len <? 0 then Undef UOob                               (* memcpy of (size_t) len *)
              else Done (Z.min len (zlen d), slice 0 (Z.min len (zlen d)) d)
  end.

(** libmsg.c:123-129, libevent.c:212-217: the moment until which a wait lasts, seconds and nanoseconds *)
Definition deadline (sec nsec timeout : Z) : Z * Z :=
  let sec := sec + Z.quot timeout 1000 in
  let nsec := nsec + Z.rem timeout 1000 * 1000000 in
  if 1000000000 <? nsec then (sec + 1, nsec - 1000000000) else (sec, nsec).
