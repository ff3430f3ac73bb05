(** * MbStart: start-up, threads and callbacks of the Modbus module (src/modules/modbus: modmain.c, modbus.c, mbserver.c, mbports.c, modopt.c) *)
From Verif Require Import Base Const Modbus Master MbPort.

(** ** The threads of the ports and the barrier
    modmain.c:470 makes a barrier for portcount + 1 threads: one for each port and the main thread, which waits once
    (modmain.c:386).  The barrier opens when that many threads wait at the same time, that is, all of them. *)
Inductive tpc :=
  | TNone          (* _setup_port or pthread_create failed (modmain.c:472-483): there is no thread *)
  | TTop (stale : bool)  (* the top of the loop in mb_run_port (modbus.c:47-52); [stale]: fd is not 0, so the port is not opened and [result] is the old error *)
  | TWaitRun       (* at the barrier with the port open or bound (modbus.c:65, 79, mbserver.c:192) *)
  | TWaitFail (stale : bool)  (* at the barrier after an error (modbus.c:56, mbserver.c:188) *)
  | TRun           (* in client_loop, master_loop, slave_loop or the loop of server_loop *)
  | TEnded.        (* mb_run_port has returned *)
Inductive kind := KMaster | KSlave | KServer.
Record threads := mkTh { th_pcs : list (kind * tpc); th_main : bool; th_past : bool }.   (* the main thread has arrived; it has passed *)
Definition waits (t : tpc) : bool := match t with TWaitRun | TWaitFail _ => true | _ => false end.
Definition released (t : tpc) : tpc := match t with TWaitRun => TRun | TWaitFail b => TTop b | _ => t end.
(** pthread_barrier_wait: the last to arrive lets all go *)
Definition barrier (s : threads) : threads :=
  if th_main s && negb (th_past s) && forallb (fun x => waits (snd x)) (th_pcs s)
  then mkTh (map (fun x => (fst x, released (snd x))) (th_pcs s)) true true else s.
Definition set_pc (s : threads) (i : Z) (k : kind) (t : tpc) : threads := mkTh (zset (th_pcs s) i (k, t)) (th_main s) (th_past s).
(** what a thread meets at the top of the loop (open, or socket and bind for a server), and how a loop ends *)
Inductive tev :=
  | EOpen (i : Z) (ok : bool)   (* open(2), or socket(2) and bind(2) *)
  | ENoSocket (i : Z)           (* socket(2) fails: mbserver.c:172-175 returns without waiting *)
  | EFails (i : Z) (gone : bool)  (* the loop returns: a slave or server loop because of an error (mbserver.c:256-260, 282-286, mbslave.c:107-112), a master loop after
                                     inhibition (modbus.c:207); [gone]: the descriptor was set to 0 before (mbslave.c:66-69, mbserver.c:196-200) *)
  | EMain.                      (* the main thread arrives at the barrier *)
Definition th_step (s : threads) (e : tev) : threads :=
  match e with
  | EOpen i ok =>
    match znth (th_pcs s) i with
    | Some (k, TTop stale) => barrier (set_pc s i k (if stale then TWaitFail true else if ok then TWaitRun else TWaitFail false))
    | _ => s
    end
  | ENoSocket i => s
  | EFails i gone =>
    match znth (th_pcs s) i with
    | Some (KMaster, TRun) => set_pc s i KMaster TEnded
    | Some (k, TRun) => set_pc s i k (TTop (negb gone))
    | _ => s
    end
  | EMain => if th_main s then s else barrier (mkTh (th_pcs s) true (th_past s))
  end.
Definition th_run (s : threads) (es : list tev) : threads := fold_left th_step es s.
(** the threads that were started, of all ports in the configuration *)
Definition th_start (ks : list (kind * bool)) : threads := mkTh (map (fun x : kind * bool => (fst x, if snd x then TTop false else TNone)) ks) false false.

(** ** The functions used by mb_send_command
    [sendrequest] and [getresponse] are static variables (modbus.c:667-668), shared by the threads of all ports.
    A thread: before the assignments, between them, after them, at the call of sendrequest, at the call of getresponse. *)
Inductive proto := PRtu | PAscii | PTcp.
Inductive spc := SIdle | SOne | SBoth | SSend | SGet.
(** what was called by which thread *)
Record call_of := mkCall { ca_thread : Z; ca_send : bool; ca_proto : option proto }.
Record sender := mkSnd { g_send : option proto; g_get : option proto; g_pcs : Z -> spc; g_calls : list call_of }.
Definition set_spc (g : sender) (t : Z) (x : spc) : sender := mkSnd (g_send g) (g_get g) (fun u => if u =? t then x else g_pcs g u) (g_calls g).
(** one step of thread [t] on a port with protocol [q]; [more]: what decides whether getresponse is called, and whether there is another round *)
Definition snd_step (q : proto) (g : sender) (t : Z) (more : bool) : sender :=
  match g_pcs g t with
  | SIdle => set_spc (mkSnd (Some q) (g_get g) (g_pcs g) (g_calls g)) t SOne          (* modbus.c:675, 678, 681 *)
  | SOne => set_spc (mkSnd (g_send g) (Some q) (g_pcs g) (g_calls g)) t SBoth         (* modbus.c:676, 679, 682 *)
  | SBoth => set_spc g t SSend                                                       (* modbus.c:686-697 *)
  | SSend => set_spc (mkSnd (g_send g) (g_get g) (g_pcs g) (g_calls g ++ [mkCall t true (g_send g)])) t (if more then SGet else SIdle)   (* modbus.c:699 *)
  | SGet => set_spc (mkSnd (g_send g) (g_get g) (g_pcs g) (g_calls g ++ [mkCall t false (g_get g)])) t (if more then SSend else SIdle)   (* modbus.c:701 *)
  end.
(** [who t]: the protocol of the port thread [t] is working on *)
Definition snd_run (who : Z -> proto) (os : list (Z * bool)) : sender :=
  fold_left (fun g o => snd_step (who (fst o)) g (fst o) (snd o)) os (mkSnd None None (fun _ => SIdle) []).

(** ** The events of commands *)
Inductive evkind := EvWrite | EvChange | EvTrigger.
(** the mode bits of a command that ask for events *)
Record mode := mkMode { md_id : Z; md_write : bool; md_change : bool; md_trigger : bool }.
(** one of the three blocks (modmain.c:297-366): [r] is the result of dax_tag_handle or, if that is 0, of dax_event_add *)
Definition set_event (want : bool) (r result : Z) : Z * bool := if want then if r =? 0 then (0, true) else (r + 1, false) else (result, false).
(** modmain.c:290-370 [_setup_master_events]: the value returned, the commands and the events that were added *)
Fixpoint setup_events (e : Z -> evkind -> Z) (result : Z) (ms : list mode) : Z * list mode * list (Z * evkind) :=
  match ms with
  | [] => (result, [], [])
  | m :: ms =>
    let '(result, dw) := set_event (md_write m) (e (md_id m) EvWrite) result in
    let m := if dw then mkMode (md_id m) false false (md_trigger m) else m in
    let '(result, dc) := set_event (md_change m) (e (md_id m) EvChange) result in
    let m := if dc then mkMode (md_id m) (md_write m) false (md_trigger m) else m in
    let '(result, dt) := set_event (md_trigger m) (e (md_id m) EvTrigger) result in
    let m := if dt then mkMode (md_id m) (md_write m) (md_change m) false else m in
    let '(result, ms, l) := setup_events e result ms in
    (result, m :: ms, (if dw then [(md_id m, EvWrite)] else []) ++ (if dc then [(md_id m, EvChange)] else []) ++ (if dt then [(md_id m, EvTrigger)] else []) ++ l)
  end.
(** modmain.c:494-497: all ports in turn; the result is that of the last one (-1 before the first round) *)
Fixpoint setup_ports (e : Z -> evkind -> Z) (errors : Z) (ps : list (list mode)) : Z * list (list mode) * list (Z * evkind) :=
  match ps with
  | [] => (errors, [], [])
  | p :: ps =>
    let '(r, p, l) := setup_events e 0 p in
    let '(errors, ps, l') := setup_ports e (0 + r) ps in (errors, p :: ps, l ++ l')
  end.
(** modmain.c:490-523: the rounds of the main loop; [e n] is what the server answers in round [n] *)
Fixpoint main_loop (n : nat) (e : Z -> Z -> evkind -> Z) (count errors : Z) (ps : list (list mode)) : Z * list (list mode) * list (Z * evkind) :=
  match n with
  | 0%nat => (errors, ps, [])
  | Datatypes.S n =>
    let '(errors, ps, l) := if negb (errors =? 0) && (count <? 60) then setup_ports (e count) errors ps else (errors, ps, []) in
    let '(errors, ps, l') := main_loop n e (u32 (count + 1)) errors ps in (errors, ps, l ++ l')
  end.

(** ** The tags of a master port *)
(** modmain.c:252-266: the bits written to the enable tag; [junk] is what malloc gives *)
Fixpoint enable_bits (n : Z) (bits : list Z) (en : list bool) : run (list Z) :=
  match en with [] => Done bits | v :: en => bits <-- assign_bit bits n v ;; enable_bits (n + 1) bits en end.
Definition initial_bits (junk : list Z) (en : list bool) : run (list Z) := enable_bits 0 junk en.
(** modmain.c:74-95 [_enable_callback]: the enable members after reading [bits] *)
Fixpoint enable_callback (n : Z) (bits : list Z) (old : list bool) : run (list bool) :=
  match old with
  | [] => Done []
  | _ :: old =>
    match znth bits (n / 8) with
    | None => Undef UOob
    | Some b => r <-- enable_callback (n + 1) bits old ;; Done (Z.testbit b (n mod 8) :: r)
    end
  end.
(** modmain.c:133-180 [_add_async_command_tag] for the master ports in turn: the types of their command tags.
    [type] is a local variable that is set in the first call only. *)
Fixpoint command_tags (added : bool) (ty : Z) (ports : list Z) : run (list (Z * Z)) :=
  match ports with
  | [] => Done []
  | p :: ports => if added then Undef UUninit else r <-- command_tags true ty ports ;; Done ((p, ty) :: r)
  end.
(** modmain.c:98-117 [_async_command_callback]: the command made of the first 15 bytes of the tag; [data] are the 240 bytes of its data area.
    Nothing is checked. *)
Definition async_cmd (b data : list Z) (last : Z) (first : bool) : mbcmd :=
  mk_mbcmd 1 (nthb b 9) (nthb b 10) (nthb b 11 + 256 * nthb b 12) (nthb b 13 + 256 * nthb b 14) data last first.
(** the command in the sense of MbPort *)
Definition async_port_cmd (b : list Z) (c : cmd) : cmd :=
  mkCmd (c_id c) true false (nthb b 3 + 256 * nthb b 4 + 65536 * nthb b 5 + 16777216 * nthb b 6) (nthb b 7 + 256 * nthb b 8) (c_interval c) (c_icount c)
    (c_requests c) (c_responses c) (c_timeouts c) (c_crcerrors c) (c_exceptions c) (c_lasterror c).
(** modmain.c:118-120: what is written back *)
Definition async_result (b : list Z) (lasterror : Z) : list Z := zset (zset (zset b 0 0) 1 (u8 lasterror)) 2 (u8 (lasterror / 256)).

(** ** Giving up privileges: modmain.c:373-420 [_demote_wait]
    [user], [group]: the attributes; [pw], [gr]: getpwnam and getgrnam. *)
Definition demote (pw gr : Z -> option Z) (user group : option Z) (c : creds) : run (creds * Z) :=
  let '(p, c, n) :=
    match user with
    | None => (None, c, 0)
    | Some u => match pw u with
                | Some uid => let '(c, r) := k_setuid uid c in (Some (Some uid), c, if r =? 0 then 0 else 1)
                | None => (Some None, c, 1)
                end
    end in
  match group with
  | None => Done (c, n)
  | Some g =>
    match p with
    | None => Undef UUninit                                   (* pw was never assigned *)
    | Some None => Done (c, n + 1)
    | Some (Some _) => match gr g with
                       | None => Undef UNull                  (* gr->gr_gid *)
                       | Some gid => let '(c, r) := k_setgid gid c in Done (c, if r =? 0 then n else n + 1)
                       end
    end
  end.

(** ** Settings of a port *)
(** a serial port as configured (modopt.c:55-117): the numbers after the checks, parity 0 none, 1 even, 2 odd *)
Record serial := mkSer { se_baud : Z; se_data : Z; se_parity : Z; se_stop : Z }.
Definition baudrates : list Z := [300; 600; 1200; 1800; 2400; 4800; 9600; 19200; 38400; 57600; 115200].
(** mbports.c:61-97, 242-268 [mb_set_serial_port] on a port as initport leaves it (mbports.c:26-61): what openport will use, and the result *)
Definition set_serial (s : serial) : serial * Z :=
  if negb (existsb (Z.eqb (se_baud s)) baudrates) then (mkSer 0 8 0 1, -1)
  else if negb ((5 <=? se_data s) && (se_data s <=? 8)) then (mkSer (se_baud s) 8 0 1, -1)
  else if negb ((se_stop s =? 1) || (se_stop s =? 2)) then (mkSer (se_baud s) (se_data s) 0 1, -1)
  else (mkSer (se_baud s) (se_data s) 0 (se_stop s), 0).
(** modopt.c:277-294: timeout and retries from what the file gives *)
Definition set_timing (timeout retries : Z) : Z * Z :=
  let t := if timeout =? 0 then 1000 else timeout in
  (if retries =? 0 then 1 else t, if 100 <? retries then 100 else retries).
(** mbports.c:279 strncpy of at most 15 bytes into an array of 16 whose bytes from 8 on were never set; then inet_addr reads it as a string
    (mbserver.c:182).  [a] has no zero. *)
Definition bind_address (a : list Z) (junk : list Z) : run (list Z) :=
  let n := firstn 15 (a ++ zeros 15) in
  let m := n ++ [nthb junk 15] in
  (fix str (l : list Z) : run (list Z) := match l with [] => Undef UOob | v :: l => if v =? 0 then Done [] else r <-- str l ;; Done (v :: r) end) m.

(** ** Connections of the TCP server: mbserver.c:29-117
    A client_buffer is never removed from the list.  [ps_set]: the descriptors in fdset; [ps_max]: maxfd.  FD_SET of a descriptor above 1023 is out of bounds. *)
Record pserver := mkPs { ps_buffs : list (Z * list Z); ps_set : list Z; ps_max : Z }.
Inductive pev :=
  | PAccept (fd : Z)            (* accept(2) returned a descriptor that is not open *)
  | PData (fd : Z) (d : list Z) (* read(2) gave these bytes and no message is complete *)
  | PDone (fd : Z) (d : list Z) (* read(2) gave these bytes, and the message they complete was answered *)
  | PEof (fd : Z)               (* read(2) gave nothing: the connection is closed *)
  | PQuiet.                     (* a second without data: all buffers are emptied *)
Fixpoint get_buff (l : list (Z * list Z)) (fd : Z) : option (list Z) :=
  match l with [] => None | (f, b) :: l => if f =? fd then Some b else get_buff l fd end.
Fixpoint put_buff (l : list (Z * list Z)) (fd : Z) (b : list Z) : list (Z * list Z) :=
  match l with [] => [] | (f, x) :: l => if f =? fd then (f, b) :: l else (f, x) :: put_buff l fd b end.
(** mbserver.c:45-50: the largest descriptor in the set from 0 to [n] *)
Fixpoint last_set (set : list Z) (n : nat) : Z :=
  if existsb (Z.eqb (Z.of_nat n)) set then Z.of_nat n else match n with 0%nat => 0 | Datatypes.S n => last_set set n end.
Definition ps_step (s : pserver) (e : pev) : run pserver :=
  match e with
  | PAccept fd => if 1023 <? fd then Undef UOob else Done (mkPs ((fd, []) :: ps_buffs s) (fd :: ps_set s) (if ps_max s <? fd then fd else ps_max s))
  | PData fd d => match get_buff (ps_buffs s) fd with None => Undef UAbort | Some b => Done (mkPs (put_buff (ps_buffs s) fd (b ++ d)) (ps_set s) (ps_max s)) end
  | PDone fd d => match get_buff (ps_buffs s) fd with None => Undef UAbort | Some b => Done (mkPs (put_buff (ps_buffs s) fd []) (ps_set s) (ps_max s)) end
  | PEof fd => let set := filter (fun x => negb (x =? fd)) (ps_set s) in
    Done (mkPs (ps_buffs s) set (if fd =? ps_max s then last_set set (Z.to_nat (ps_max s)) else ps_max s))
  | PQuiet => Done (mkPs (map (fun x => (fst x, [])) (ps_buffs s)) (ps_set s) (ps_max s))
  end.
Fixpoint ps_run (s : pserver) (es : list pev) : run pserver := match es with [] => Done s | e :: es => s <-- ps_step s e ;; ps_run s es end.
