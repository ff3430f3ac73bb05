(** * MbPort: connections, retries and scans of the Modbus master (src/modules/modbus: mbports.c, modbus.c)
    What a request looks like and what is done with an answer is in Modbus.v; here a request is an entry in a log.
    The descriptors of the whole process are part of the state because the module uses and closes them by number. *)
From Verif Require Import Base Const Modbus.

(** What a descriptor refers to: a connection to an address and port (alive until the peer closes it), the serial
    line of the port, a socket whose connect() failed, or a file of another part of the process. *)
Inductive file := Conn (addr prt : Z) (alive : bool) | Line | Refused | Foreign.
(** What the port did: a call of mb_send_command for command [id]; a request written to [fd], with the file behind
    it at that moment (None: not open); close(fd); the answer to command [id] (false: none). *)
Inductive act := Called (id : Z) | Sent (id fd : Z) (f : option file) | Closed (fd : Z) (f : option file) | Ended (id : Z) (answered : bool).
Record world := mkW { w_fds : Z -> option file; w_log : list act }.
Definition upd (t : Z -> option file) (fd : Z) (f : option file) : Z -> option file := fun x => if x =? fd then f else t x.
Definition set_fd (w : world) (fd : Z) (f : option file) : world := mkW (upd (w_fds w) fd f) (w_log w).
Definition say (w : world) (a : act) : world := mkW (w_fds w) (w_log w ++ [a]).
(** close(2): an error if the descriptor is not open, which the module only logs *)
Definition k_close (w : world) (fd : Z) : world := set_fd (say w (Closed fd (w_fds w fd))) fd None.
(** whether the kernel can hand out [fd] *)
Definition free_fd (w : world) (fd : Z) : bool := (0 <=? fd) && match w_fds w fd with None => true | Some _ => false end.

(** modbus.h:165-173 struct tcp_connection *)
Record conn := mkC { cn_addr : Z; cn_port : Z; cn_fd : Z }.
(** modbus.h:226-280 struct mb_port, the fields of a master; [p_tcp]: protocol MB_TCP on a network port, otherwise RTU on
    a serial port.  [p_pool] are the first connection_count elements of connections, [p_size] is connection_size.
    [p_scanning] is not initialised by initport (mbports.c:26-61). *)
Record port := mkP { p_tcp : bool; p_persist : bool; p_scanning : bool; p_enable : bool; p_fd : Z; p_pool : list conn; p_size : Z;
  p_retries : Z; p_maxatt : Z; p_attempt : Z; p_inhibit : bool; p_itime : Z }.
Definition with_pfd (p : port) (fd : Z) : port := mkP (p_tcp p) (p_persist p) (p_scanning p) (p_enable p) fd (p_pool p) (p_size p) (p_retries p) (p_maxatt p) (p_attempt p) (p_inhibit p) (p_itime p).
Definition with_pool (p : port) (l : list conn) (n : Z) : port := mkP (p_tcp p) (p_persist p) (p_scanning p) (p_enable p) (p_fd p) l n (p_retries p) (p_maxatt p) (p_attempt p) (p_inhibit p) (p_itime p).
Definition with_scanning (p : port) (b : bool) : port := mkP (p_tcp p) (p_persist p) b (p_enable p) (p_fd p) (p_pool p) (p_size p) (p_retries p) (p_maxatt p) (p_attempt p) (p_inhibit p) (p_itime p).
Definition with_attempt (p : port) (n : Z) : port := mkP (p_tcp p) (p_persist p) (p_scanning p) (p_enable p) (p_fd p) (p_pool p) (p_size p) (p_retries p) (p_maxatt p) n (p_inhibit p) (p_itime p).
Definition with_inhibit (p : port) (b : bool) : port := mkP (p_tcp p) (p_persist p) (p_scanning p) (p_enable p) (p_fd p) (p_pool p) (p_size p) (p_retries p) (p_maxatt p) (p_attempt p) b (p_itime p).
Definition with_enable (p : port) (b : bool) : port := mkP (p_tcp p) (p_persist p) (p_scanning p) b (p_fd p) (p_pool p) (p_size p) (p_retries p) (p_maxatt p) (p_attempt p) (p_inhibit p) (p_itime p).

(** modbus.h:176-205 struct mb_cmd, the fields that decide when a command is sent, and the counters (unsigned int);
    [c_id] stands for the rest *)
Record cmd := mkCmd { c_id : Z; c_enable : bool; c_cont : bool; c_addr : Z; c_port : Z; c_interval : Z; c_icount : Z;
  c_requests : Z; c_responses : Z; c_timeouts : Z; c_crcerrors : Z; c_exceptions : Z; c_lasterror : Z }.
Definition with_icount (c : cmd) (n : Z) : cmd := mkCmd (c_id c) (c_enable c) (c_cont c) (c_addr c) (c_port c) (c_interval c) n
  (c_requests c) (c_responses c) (c_timeouts c) (c_crcerrors c) (c_exceptions c) (c_lasterror c).
Definition with_cenable (c : cmd) (b : bool) : cmd := mkCmd (c_id c) b (c_cont c) (c_addr c) (c_port c) (c_interval c) (c_icount c)
  (c_requests c) (c_responses c) (c_timeouts c) (c_crcerrors c) (c_exceptions c) (c_lasterror c).
Definition counted (c : cmd) (req resp tmo crc exc last : Z) : cmd := mkCmd (c_id c) (c_enable c) (c_cont c) (c_addr c) (c_port c) (c_interval c) (c_icount c)
  (u32 (c_requests c + req)) (u32 (c_responses c + resp)) (u32 (c_timeouts c + tmo)) (u32 (c_crcerrors c + crc)) (u32 (c_exceptions c + exc)) last.

(** ** What the outside decides *)
(** openIPport (mbports.c:160-190): no descriptor; a descriptor whose connect() fails and which is not closed
    (mbports.c:179-182); a connection.  A descriptor that is in use already cannot be handed out. *)
Inductive connres := NoSocket | Fails (fd : Z) | Connects (fd : Z).
(** one round of the retry loop: the result of sendrequest (0: nothing to send; the number of bytes written or -1), the
    length returned by getresponse (0: timeout, negative: bad checksum or read error), the code returned by handleresponse *)
Record try := mkT { t_write : Z; t_got : Z; t_code : Z }.

(** mbports.c:397-420 [_get_unused_connection]: the index, or a negative error, and the pool made larger if necessary.
    realloc keeps the old elements; the new ones are zero. *)
Fixpoint find_zero (l : list conn) (n : Z) : option Z :=
  match l with [] => None | c :: l => if cn_fd c =? 0 then Some n else find_zero l (n + 1) end.
Definition MB_MAX_CONNECTION_SIZE := 2048.
Definition unused_connection (p : port) : Z * Z :=
  match find_zero (p_pool p) 0 with
  | Some n => (n, p_size p)
  | None => if zlen (p_pool p) =? p_size p then
              if MB_MAX_CONNECTION_SIZE <=? p_size p then (E_2BIG, p_size p) else (zlen (p_pool p), p_size p * 2)
            else (zlen (p_pool p), p_size p)
  end.
(** store at index [n] of the pool: an existing element, the next one, or outside *)
Definition put_conn (l : list conn) (n : Z) (c : conn) : run (list conn) :=
  if (0 <=? n) && (n <? zlen l) then Done (zset l n c) else if n =? zlen l then Done (l ++ [c]) else Undef UOob.
Fixpoint find_conn (l : list conn) (a q : Z) : option Z :=
  match l with [] => None | c :: l => if (cn_addr c =? a) && (cn_port c =? q) then Some (cn_fd c) else find_conn l a q end.
(** mbports.c:422-445 [mb_get_connection] *)
Definition get_connection (p : port) (a q : Z) (r : connres) (w : world) : run (port * world * Z) :=
  match find_conn (p_pool p) a q with
  | Some fd => Done (p, w, fd)
  | None =>
    match r with
    | NoSocket => Done (p, w, -1)
    | Fails fd => Done (p, if free_fd w fd then set_fd w fd (Some Refused) else w, -1)
    | Connects fd =>
      if free_fd w fd then
        let '(n, size) := unused_connection p in
        l <-- put_conn (p_pool p) n (mkC a q fd) ;;
        Done (with_pool p l size, set_fd w fd (Some (Conn a q true)), fd)
      else Done (p, w, -1)
    end
  end.

(** modbus.c:704, 708, 725, 739 *)
Definition maybe_close (p : port) (w : world) : world :=
  if negb (p_scanning p) && negb (p_persist p) then k_close w (p_fd p) else w.
(** what comes of one round on a descriptor: nothing can be written to a closed one, nothing comes from a dead connection *)
Definition written_to (f : option file) (t : try) : Z := if t_write t =? 0 then 0 else match f with None => -1 | Some _ => t_write t end.
Definition got_from (f : option file) (t : try) : Z := match f with Some (Conn _ _ false) => Z.min 0 (t_got t) | _ => t_got t end.
(** modbus.c:698-737: the loop runs once and then at most [k] times more.  The counters: sendrequest counts a request it builds
    (modbus.c:323, 501), handleresponse an answer (modbus.c:567). *)
Fixpoint retry (k : nat) (i : nat) (ts : nat -> try) (p : port) (c : cmd) (w : world) : world * cmd * Z :=
  let t := ts i in
  let f := w_fds w (p_fd p) in
  let sr := written_to f t in
  if sr =? 0 then (maybe_close p w, c, 0)
  else
    let w := say w (Sent (c_id c) (p_fd p) f) in
    if sr <? 0 then (maybe_close p w, counted c 1 0 0 0 0 (c_lasterror c), -1)
    else
      let m := got_from f t in
      if 0 <? m then
        (maybe_close p w, if 0 <? t_code t then counted c 1 1 0 0 1 (u8 (Z.lor (t_code t) 128)) else counted c 1 1 0 0 0 0, m)
      else
        let c := if m =? 0 then counted c 1 0 1 0 0 ME_TIMEOUT else counted c 1 0 0 1 0 4 in
        match k with
        | 0%nat => (maybe_close p w, c, - c_lasterror c)
        | Datatypes.S k => retry k (Datatypes.S i) ts p c w
        end.
(** modbus.h:87 *)
Definition MB_ERR_OPEN := -10.
(** modbus.c:659-742 [mb_send_command], from the lock to the unlock without interference of another thread.  The tag server
    is not part of this model (the result of reading the data to send is ignored by the code, modbus.c:695). *)
Definition send_command (p : port) (c : cmd) (r : connres) (ts : nat -> try) (w : world) : run (port * cmd * world * Z) :=
  let w := say w (Called (c_id c)) in
  if negb (c_enable c) then Done (p, c, w, 0)
  else
    x <-- (if p_tcp p then y <-- get_connection p (c_addr c) (c_port c) r w ;; let '(p, w, fd) := y in Done (with_pfd p fd, w)
           else Done (p, w)) ;;
    let '(p, w) := x in
    if p_tcp p && (p_fd p <? 0) then Done (p, c, say w (Ended (c_id c) false), MB_ERR_OPEN)
    else
      let '(w, c, res) := retry (Z.to_nat (p_retries p)) 0 ts p c w in
      Done (p, c, say w (Ended (c_id c) (0 <? res)), res).

(** mbports.c:337-363 [mb_close_port] *)
Definition close_port (p : port) (w : world) : port * world :=
  if p_tcp p then (with_pool p [] (p_size p), fold_left (fun w c => k_close w (cn_fd c)) (p_pool p) w)
  else (with_pfd p 0, k_close w (p_fd p)).
(** mbports.c:319-335 [mb_open_port], 99-153 [openport]: [fd] is what open(2) gives (None: an error) *)
Definition open_port (p : port) (fd : option Z) (w : world) : port * world * Z :=
  if p_tcp p then (p, w, 0)
  else match fd with
       | Some fd => if free_fd w fd then (with_pfd p fd, set_fd w fd (Some Line), 0) else (p, w, -1)
       | None => (p, w, -1)
       end.

(** ** The scans *)
(** what the outside decides about one command of a scan *)
Record answer := mkA { a_conn : connres; a_try : nat -> try }.
(** modbus.c:117 and 177: whether a command is due; the counter is only advanced if the command is enabled and continuous *)
Definition tick (c : cmd) : cmd * bool :=
  if c_enable c && c_cont c then
    let n := u32 (c_icount c + 1) in
    if c_interval c <=? n then (with_icount c 0, true) else (with_icount c n, false)
  else (c, false).
(** modbus.c:113-133: the commands of one scan of [client_loop]; the command at position i meets [e i] *)
Fixpoint client_cmds (i : Z) (e : Z -> answer) (p : port) (w : world) (cs : list cmd) : run (port * world * list cmd) :=
  match cs with
  | [] => Done (p, w, [])
  | c :: cs =>
    let '(c, due) := tick c in
    x <-- (if due then
             let p := if p_maxatt p =? 0 then p else with_attempt p (u32 (p_attempt p + 1)) in
             y <-- send_command p c (a_conn (e i)) (a_try (e i)) w ;;
             let '(p, c, w, res) := y in
             Done (if 0 <? res then with_attempt p 0 else p, w, c)
           else Done (p, w, c)) ;;
    let '(p, w, c) := x in
    y <-- client_cmds (i + 1) e p w cs ;;
    let '(p, w, cs) := y in Done (p, w, c :: cs)
  end.
(** modbus.c:137-145: the end of a scan that took less than the scan rate: close and sleep, up to the end of the sleep *)
Definition idle (p : port) (w : world) : port * world :=
  let '(p, w) := if p_persist p then (p, w) else close_port p w in (with_scanning p false, w).
(** One round of [client_loop] (modbus.c:110-146).  [early]: it took less than the scan rate. *)
Definition client_scan (e : Z -> answer) (early : bool) (x : port * world * list cmd) : run (port * world * list cmd) :=
  let '(p, w, cs) := x in
  y <-- (if p_enable p then client_cmds 0 e p w cs else Done (p, w, cs)) ;;
  let '(p, w, cs) := y in
  if early then let '(p, w) := idle p w in Done (with_scanning p true, w, cs) else Done (p, w, cs).

(** modbus.c:174-198: the commands of one scan of [master_loop]; it stops at the first command that exhausts the attempts.
    (dienow is never set by any code.) *)
Fixpoint master_cmds (i : Z) (e : Z -> answer) (p : port) (w : world) (cs : list cmd) : run (port * world * list cmd) :=
  match cs with
  | [] => Done (p, w, [])
  | c :: cs =>
    let '(c, due) := tick c in
    x <-- (if due then
             let p := if p_maxatt p =? 0 then p else with_attempt p (u32 (p_attempt p + 1)) in
             y <-- send_command p c (a_conn (e i)) (a_try (e i)) w ;;
             let '(p, c, w, res) := y in
             let p := if 0 <? res then with_attempt p 0 else p in
             if negb (p_maxatt p =? 0) && (u32 (p_maxatt p) <=? p_attempt p) then Done (with_inhibit p true, w, c, true)
             else Done (p, w, c, false)
           else Done (p, w, c, false)) ;;
    let '(p, w, c, bail) := x in
    if bail then Done (p, w, c :: cs)
    else y <-- master_cmds (i + 1) e p w cs ;; let '(p, w, cs) := y in Done (p, w, c :: cs)
  end.
(** One round of [master_loop] (modbus.c:170-217); [opened]: what open(2) gives when the port is opened again.
    The result is None if the loop ended (modbus.c:207). *)
Definition master_scan (e : Z -> answer) (opened : option Z) (early : bool) (x : port * world * list cmd) : run (option (port * world * list cmd)) :=
  let '(p, w, cs) := x in
  y <-- (if p_enable p && negb (p_inhibit p) then master_cmds 0 e p w cs else Done (p, w, cs)) ;;
  let '(p, w, cs) := y in
  match (if p_inhibit p then
           let '(p, w) := close_port p w in
           if p_itime p =? 0 then None
           else let '(p, w, res) := open_port p opened w in Some (if res =? 0 then with_inhibit p false else p, w)
         else Some (p, w)) with
  | None => Done None
  | Some (p, w) =>
    let '(p, w) := if early && negb (p_persist p) then close_port p w else (p, w) in
    Done (Some (p, w, cs))
  end.

(** ** A TCP master port in its process
    The port's own thread runs scans, the main thread sends commands from callbacks (modmain.c:59-72, 98-124); send_lock keeps
    them apart.  mb_close_port does not take the lock; here it happens between two commands. *)
Inductive mop :=
  | MSend (c : cmd) (r : connres) (ts : nat -> try)   (* mb_send_command from either thread *)
  | MIdle                                             (* the scan ends early *)
  | MScan                                             (* the sleep ends *)
  | MDrop (a q : Z)                                   (* the device at this address closes its connections *)
  | MOpens (fd : Z)                                   (* another part of the process opens a descriptor *)
  | MCloses (fd : Z).                                 (* another part of the process closes one of its own *)
Definition dropped (a q : Z) (f : option file) : option file :=
  match f with Some (Conn x y _) => if (x =? a) && (y =? q) then Some (Conn x y false) else f | _ => f end.
Definition m_step (x : port * world) (o : mop) : run (port * world) :=
  let '(p, w) := x in
  match o with
  | MSend c r ts => y <-- send_command p c r ts w ;; let '(p, _, w, _) := y in Done (p, w)
  | MIdle => Done (idle p w)
  | MScan => Done (with_scanning p true, w)
  | MDrop a q => Done (p, mkW (fun fd => dropped a q (w_fds w fd)) (w_log w))
  | MOpens fd => Done (p, if free_fd w fd then set_fd w fd (Some Foreign) else w)
  | MCloses fd => Done (p, match w_fds w fd with Some Foreign => set_fd w fd None | _ => w end)
  end.
Fixpoint m_run (x : port * world) (os : list mop) : run (port * world) :=
  match os with [] => Done x | o :: os => x <-- m_step x o ;; m_run x os end.
(** mbports.c:26-61 and modopt.c: a new TCP master; [junk] is what [scanning] happens to be *)
Definition new_tcp (persist : bool) (retries maxatt : Z) (junk : bool) : port :=
  mkP true persist junk true 0 [] 16 retries maxatt 0 false 0.
(** a serial master that was opened on [fd] *)
Definition new_serial (persist : bool) (retries maxatt itime fd : Z) (junk : bool) : port :=
  mkP false persist junk true fd [] 16 retries maxatt 0 false itime.
