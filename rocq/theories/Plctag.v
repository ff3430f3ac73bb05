(** * Plctag: the PLC client module (src/modules/plctag/plctag.c, plcthread.c)

    Simplifications.  libplctag is not part of the repository; what the module
    uses of it is modelled after its documentation: the memory of a PLC tag is a
    list of bytes, numbers are little endian, an access outside it gives the
    error value of the accessor and changes nothing.  A float keeps its bits when
    it is copied.  [widen]: conversion of the bits of a float to those of a double.
    [junk]: what the array rawbuff holds on entry.  The bytes of the event are
    those of the handle (h.size).  The tags of the queue are numbers. *)
From Verif Require Import Base Const Script.

(** plctag.h:31-43, the parts that matter; [p_type], [p_count], [p_size]: the
    handle; [p_buff] None: NULL; [p_es]: elem_size; [p_map]: byte_map *)
Record ptag := { p_type : Z; p_count : Z; p_size : Z; p_buff : option (list Z); p_es : Z; p_map : option (list Z) }.

(** ** The accessors of libplctag *)
Definition plc_get_u (n off : Z) (plc : list Z) : Z :=
  if in_bounds off n (zlen plc) then le_val (slice off n plc) else 256 ^ n - 1.
Definition plc_get_s (n off : Z) (plc : list Z) : Z :=
  if in_bounds off n (zlen plc)
  then let v := le_val (slice off n plc) in if v <? 256 ^ n / 2 then v else v - 256 ^ n
  else - (256 ^ n / 2).
(** the bits of the float; the error value is FLT_MIN *)
Definition plc_get_f (off : Z) (plc : list Z) : Z :=
  if in_bounds off 4 (zlen plc) then le_val (slice off 4 plc) else 8388608.
Definition plc_get_bit (k : Z) (plc : list Z) : Z :=
  if (0 <=? k) && (k <? 8 * zlen plc) then (if bit_of plc k then 1 else 0) else -1.
Definition plc_set (off : Z) (new plc : list Z) : list Z :=
  if in_bounds off (zlen new) (zlen plc) then splice off new plc else plc.
Definition plc_set_bit (k : Z) (b : bool) (plc : list Z) : list Z :=
  if (0 <=? k) && (k <? 8 * zlen plc)
  then updb plc (k / 8) (if b then Z.setbit (nthb plc (k / 8)) (k mod 8) else Z.clearbit (nthb plc (k / 8)) (k mod 8))
  else plc.

(** for(offset = 0; offset < count; offset++) *)
Fixpoint ploop {S} (k : nat) (n : Z) (f : Z -> S -> run S) (s : S) : run S :=
  match k with
  | O => Done s
  | S k => match f n s with Done s => ploop k (n + 1) f s | Undef u => Undef u end
  end.
(** offset * tag->elem_size, an int *)
Definition at_plc (n es : Z) : run Z := if fits32 (n * es) then Done (n * es) else Undef UOverflow.
(** a store into the block of the tag *)
Definition store (off : Z) (new buff : list Z) : run (list Z) :=
  if in_bounds off (zlen new) (zlen buff) then Done (splice off new buff) else Undef UOob.
Definition load (off n : Z) (buff : list Z) : run (list Z) :=
  if in_bounds off n (zlen buff) then Done (slice off n buff) else Undef UOob.

(** What a case of the switches of _read_tag and _event_callback does:
    [AU n], [AS n]: unsigned or signed numbers of n bytes; [AF]: plctag.c:136-141;
    [AL]: 142-147 *)
Inductive acc := ABit | AU (n : Z) | AS (n : Z) | AF | AL | ARaw.
(** plctag.c:70-148 and 248-323 *)
Definition acc_of (t : Z) : acc :=
  if t =? T_BOOL then ABit
  else if t =? T_BYTE then AU 1
  else if (t =? T_SINT) || (t =? T_CHAR) then AS 1
  else if (t =? T_WORD) || (t =? T_UINT) then AU 2
  else if t =? T_INT then AS 2
  else if (t =? T_DWORD) || (t =? T_UDINT) then AU 4
  else if t =? T_DINT then AS 4
  else if (t =? T_LWORD) || (t =? T_ULINT) then AU 8
  else if (t =? T_LINT) || (t =? T_TIME) then AS 8
  else if t =? T_REAL then AF
  else if t =? T_LREAL then AL
  else ARaw.

(** One element of a number type, plctag.c:85-86 and so on *)
Definition read_num (n es : Z) (get : Z -> Z) (i : Z) (buff : list Z) : run (list Z) :=
  match at_plc i es with
  | Undef u => Undef u
  | Done o => store (i * n) (le_bytes (Z.to_nat n) (get o)) buff
  end.
Definition read_bit1 (plc : list Z) (i : Z) (buff : list Z) : run (list Z) :=
  let r := plc_get_bit i plc in
  if r <? 0 then Done buff
  else if in_bounds (i / 8) 1 (zlen buff)
  then Done (updb buff (i / 8) (if 0 <? r then Z.setbit (nthb buff (i / 8)) (i mod 8)
                                else Z.clearbit (nthb buff (i / 8)) (i mod 8)))
  else Undef UOob.
(** plctag.c:149-156: n = 0 .. elem_size - 1 of one element at [i] *)
Definition unmap1 (raw map : list Z) (i n : Z) (buff : list Z) : run (list Z) :=
  match znth map n with
  | None => Undef UOob
  | Some m => match znth raw m with None => Undef UOob | Some b => store (i + n) [b] buff end
  end.
Definition read_map (plc map : list Z) (es : Z) (n : Z) (rb : list Z * list Z) : run (list Z * list Z) :=
  let (raw, buff) := rb in
  match at_plc n es with
  | Undef u => Undef u
  | Done i =>
      let raw := if in_bounds i es (zlen plc) then slice i es plc else raw in
      match ploop (Z.to_nat es) 0 (unmap1 raw map i) buff with Done b => Done (raw, b) | Undef u => Undef u end
  end.
(** plctag.c:158-161; offset * h.size / h.count is computed with 32 bits *)
Definition at_buff (n size count : Z) : Z := u32 (n * size) / count.
Definition read_raw (plc : list Z) (es size count : Z) (n : Z) (buff : list Z) : run (list Z) :=
  match at_plc n es with
  | Undef u => Undef u
  | Done i => if in_bounds i es (zlen plc) then store (at_buff n size count) (slice i es plc) buff else Done buff
  end.

(** _read_tag, plctag.c:63-165: the new bytes of tag->buff *)
Definition read_tag (widen : Z -> Z) (junk plc : list Z) (t : ptag) : run (list Z) :=
  if p_es t <=? 0 then Undef UOob            (* line 68: the length of an array *)
  else match p_buff t with
  | None => if p_count t =? 0 then Done [] else Undef UNull
  | Some buff =>
      let k := Z.to_nat (p_count t) in
      match acc_of (p_type t) with
      | ABit => ploop k 0 (read_bit1 plc) buff
      | AU n => ploop k 0 (read_num n (p_es t) (fun o => plc_get_u n o plc)) buff
      | AS n => ploop k 0 (read_num n (p_es t) (fun o => plc_get_s n o plc)) buff
      | AF => ploop k 0 (read_num 4 (p_es t) (fun o => plc_get_f o plc)) buff
      | AL => ploop k 0 (read_num 8 (p_es t) (fun o => widen (plc_get_f o plc))) buff
      | ARaw =>
          match p_map t with
          | Some map => match ploop k 0 (read_map plc map (p_es t)) (junk, buff) with Done (_, b) => Done b | Undef u => Undef u end
          | None => ploop k 0 (read_raw plc (p_es t) (p_size t) (p_count t)) buff
          end
      end
  end.

(** ** The other direction *)
Definition write_num (n es : Z) (buff : list Z) (i : Z) (plc : list Z) : run (list Z) :=
  match load (i * n) n buff with
  | Undef u => Undef u
  | Done v => match at_plc i es with Done o => Done (plc_set o v plc) | Undef u => Undef u end
  end.
Definition write_bit1 (buff : list Z) (i : Z) (plc : list Z) : run (list Z) :=
  if in_bounds (i / 8) 1 (zlen buff) then Done (plc_set_bit i (bit_of buff i) plc) else Undef UOob.
(** plctag.c:327-329 *)
Definition map1 (buff map : list Z) (i n : Z) (raw : list Z) : run (list Z) :=
  match load (i + n) 1 buff with
  | Undef u => Undef u
  | Done b => match znth map n with None => Undef UOob | Some m => store m b raw end
  end.
Definition write_map (buff map : list Z) (es : Z) (n : Z) (rp : list Z * list Z) : run (list Z * list Z) :=
  let (raw, plc) := rp in
  match at_plc n es with
  | Undef u => Undef u
  | Done i => match ploop (Z.to_nat es) 0 (map1 buff map i) raw with Done raw => Done (raw, plc_set i raw plc) | Undef u => Undef u end
  end.
Definition write_raw (buff : list Z) (es size count : Z) (n : Z) (plc : list Z) : run (list Z) :=
  match at_plc n es with
  | Undef u => Undef u
  | Done i => match load (at_buff n size count) es buff with Done v => Done (plc_set i v plc) | Undef u => Undef u end
  end.

(** _event_callback, plctag.c:240-341: the new memory of the PLC; [data]: the
    bytes the event brought, line 247 *)
Definition write_tag (junk data plc : list Z) (t : ptag) : run (list Z) :=
  if p_es t <=? 0 then Undef UOob            (* line 245 *)
  else match p_buff t with
  | None => Undef UNull
  | Some _ =>
      let k := Z.to_nat (p_count t) in
      match acc_of (p_type t) with
      | ABit => ploop k 0 (write_bit1 data) plc
      | AU n | AS n => ploop k 0 (write_num n (p_es t) data) plc
      | AF => ploop k 0 (write_num 4 (p_es t) data) plc
      | AL => ploop k 0 (write_num 8 (p_es t) data) plc
      | ARaw =>
          match p_map t with
          | Some map => match ploop k 0 (write_map data map (p_es t)) (junk, plc) with Done (_, p) => Done p | Undef u => Undef u end
          | None => ploop k 0 (write_raw data (p_es t) (p_size t) (p_count t)) plc
          end
      end
  end.

(** ** The life of a tag: plctag.c:178-180, 190-191, 351-356; plcopt.c:65-67.
    [TCreated es]: libplctag reports the element size; [TFound]: the tag server
    knows the tag and the handle is filled in; [TAlloc mem]: the block is there *)
Inductive tev := TCreated (es : Z) | TFound (ty count size : Z) | TAlloc (mem : list Z) | TRead (plc : list Z) | TChange (data plc : list Z).
Definition set_buff (b : list Z) (t : ptag) : ptag :=
  {| p_type := p_type t; p_count := p_count t; p_size := p_size t; p_buff := Some b; p_es := p_es t; p_map := p_map t |}.
(** plcopt.c:103-113; [es] is 0 when the configuration does not say it *)
Definition new_tag (es : Z) (map : option (list Z)) : ptag :=
  {| p_type := 0; p_count := 0; p_size := 0; p_buff := None; p_es := (if es =? 0 then -1 else es); p_map := map |}.
Definition tstep (widen : Z -> Z) (junk : list Z) (e : tev) (t : ptag) : run ptag :=
  match e with
  | TCreated es => Done {| p_type := p_type t; p_count := p_count t; p_size := p_size t; p_buff := p_buff t;
                           p_es := (if p_es t =? -1 then es else p_es t); p_map := p_map t |}
  | TFound ty count size =>
      match p_buff t with
      | Some _ => Done t
      | None => Done {| p_type := ty; p_count := count; p_size := size; p_buff := None; p_es := p_es t; p_map := p_map t |}
      end
  | TAlloc mem => match p_buff t with Some _ => Done t | None => Done (set_buff mem t) end
  | TRead plc =>
      match read_tag widen junk plc t with
      | Done b => Done (match p_buff t with Some _ => set_buff b t | None => t end)
      | Undef u => Undef u
      end
  | TChange data plc => match write_tag junk data plc t with Done _ => Done (set_buff data t) | Undef u => Undef u end
  end.

(** ** The queue between the callbacks of libplctag and the writing thread,
    plcthread.c.  The ring is that of Script.v: tag_queue_push (42-59) and
    tag_queue_pop (62-73) are the same code as there, but for the lock. *)
Inductive pthr :=
| PStart                (* created, has not waited yet: before plcthread.c:84 *)
| PWait                 (* in pthread_cond_wait, line 84 *)
| PWoken                (* signalled *)
| PWrite (x : Z)        (* line 88: the lock is free, the tag will be written *)
| PWrote.               (* after lines 89-97, at line 99 *)
(** [q_plc x]: the value in the PLC, [q_buf x]: tag->buff, [q_srv x]: the tag in
    the server, [q_evs]: change events under way, [q_held]: a callback has left
    with q_lock taken *)
Record psys := {
  q_ring : ring; q_thr : pthr; q_held : bool;
  q_plc : Z -> Z; q_buf : Z -> Z; q_srv : Z -> Z; q_evs : list (Z * Z);
  q_wrote : list (Z * Z) }.          (* the writes made by the thread: tag, value *)
Definition psys_init (n : nat) : psys :=
  {| q_ring := ring_init n; q_thr := PStart; q_held := false;
     q_plc := fun _ => 0; q_buf := fun _ => 0; q_srv := fun _ => 0; q_evs := []; q_wrote := [] |}.
Definition set_at (f : Z -> Z) (x v : Z) : Z -> Z := fun y => if y =? x then v else f y.

Inductive pev :=
| PlcSet (x v : Z)      (* the program of the PLC stores a value *)
| ReadDone (x : Z)      (* PLCTAG_EVENT_READ_COMPLETED *)
| Thread                (* the next critical section of the thread *)
| Write                 (* dax_tag_write of the tag it holds, lines 89-97 *)
| Event                 (* _event_callback for the first event *)
| Client (x v : Z).     (* another module writes the tag *)

(** A change event is sent when the value changes; [wr x]: the tag has
    write_update, plctag.c:356-363 *)
Definition srv_set (wr : Z -> bool) (x v : Z) (s : psys) : psys :=
  {| q_ring := q_ring s; q_thr := q_thr s; q_held := q_held s; q_plc := q_plc s; q_buf := q_buf s;
     q_srv := set_at (q_srv s) x v;
     q_evs := if wr x && negb (q_srv s x =? v) then q_evs s ++ [(x, v)] else q_evs s;
     q_wrote := q_wrote s |}.
Definition with_ring (r : ring) (th : pthr) (s : psys) : psys :=
  {| q_ring := r; q_thr := th; q_held := q_held s; q_plc := q_plc s; q_buf := q_buf s; q_srv := q_srv s; q_evs := q_evs s; q_wrote := q_wrote s |}.

(** plcthread.c:86-87: with the lock, at the inner loop *)
Definition thr_loop (s : psys) : run psys :=
  if r_empty (q_ring s) then Done (with_ring (q_ring s) PWait s)
  else match q_pop (q_ring s) with
  | Undef u => Undef u
  | Done (Some x, r) => Done (with_ring r (PWrite x) s)
  | Done (None, r) => Undef UNull
  end.

(** A step that cannot happen, or waits for the lock, leaves the state as it is *)
Definition pstep (wr : Z -> bool) (e : pev) (s : psys) : run psys :=
  match e with
  | PlcSet x v =>
      Done {| q_ring := q_ring s; q_thr := q_thr s; q_held := q_held s; q_plc := set_at (q_plc s) x v;
              q_buf := q_buf s; q_srv := q_srv s; q_evs := q_evs s; q_wrote := q_wrote s |}
  | ReadDone x =>
      (* plctag.c:191: the bytes are stored before the lock is asked for *)
      let s := {| q_ring := q_ring s; q_thr := q_thr s; q_held := q_held s; q_plc := q_plc s;
                  q_buf := set_at (q_buf s) x (q_plc s x); q_srv := q_srv s; q_evs := q_evs s; q_wrote := q_wrote s |} in
      if q_held s then Done s
      else match q_push x (q_ring s) with
      | Undef u => Undef u
      | Done (c, r) =>
          if c =? 0
          then Done (with_ring r (match q_thr s with PWait => PWoken | th => th end) s)
          else Done {| q_ring := r; q_thr := q_thr s; q_held := true;      (* line 55: no unlock *)
                       q_plc := q_plc s; q_buf := q_buf s; q_srv := q_srv s; q_evs := q_evs s; q_wrote := q_wrote s |}
      end
  | Thread =>
      if q_held s then Done s
      else match q_thr s with
      | PStart => Done (with_ring (q_ring s) PWait s)
      | PWoken | PWrote => thr_loop s
      | PWait | PWrite _ => Done s
      end
  | Write =>
      match q_thr s with
      | PWrite x =>
          let s' := srv_set wr x (q_buf s x) s in
          Done {| q_ring := q_ring s; q_thr := PWrote; q_held := q_held s; q_plc := q_plc s; q_buf := q_buf s;
                  q_srv := q_srv s'; q_evs := q_evs s'; q_wrote := q_wrote s ++ [(x, q_buf s x)] |}
      | _ => Done s
      end
  | Event =>
      match q_evs s with
      | [] => Done s
      | (x, v) :: r =>
          Done {| q_ring := q_ring s; q_thr := q_thr s; q_held := q_held s; q_plc := set_at (q_plc s) x v;
                  q_buf := set_at (q_buf s) x v; q_srv := q_srv s; q_evs := r; q_wrote := q_wrote s |}
      end
  | Client x v => Done (srv_set wr x v s)
  end.
Fixpoint pruns (wr : Z -> bool) (es : list pev) (s : psys) : run psys :=
  match es with
  | [] => Done s
  | e :: r => match pstep wr e s with Done s => pruns wr r s | Undef u => Undef u end
  end.
Fixpoint tsteps (widen : Z -> Z) (junk : list Z) (es : list tev) (t : ptag) : run ptag :=
  match es with
  | [] => Done t
  | e :: r => match tstep widen junk e t with Done t => tsteps widen junk r t | Undef u => Undef u end
  end.
