(** * Events: src/server/events.c, the evaluation of events on a write *)
From Verif Require Import Base Const Types State.

(** [0x01 << bit] stored in a uint8_t *)
Definition bmask (bit : Z) : run Z := if bit <? 31 then Done (u8 (2 ^ bit)) else Undef UShift.

(** [w] bytes at [pos] of a block *)
Definition rd (l : list Z) (pos w : Z) : run (list Z) :=
  if in_bounds pos w (zlen l) then Done (slice pos w l) else Undef UOob.

(** The bit loops of _event_change (events.c:77-93), _event_set (121-139), _event_reset (154-172).
    [f mask this that] = new this byte, hit. *)
Fixpoint bits_loop (f : Z -> Z -> Z -> Z * bool) (n : nat) (bit i : Z) (test : list Z)
         (data : list Z) (base : Z) (hit : bool) : run (list Z * bool) :=
  match n with
  | O => Done (test, hit)
  | S k =>
      m <-- bmask bit ;;
      match znth test i, znth data (base + i) with
      | Some a, Some b =>
          let '(a', h) := f m a b in
          let bit' := bit + 1 in
          if bit' =? 8 then bits_loop f k 0 (i + 1) (zset test i a') data base (hit || h)
          else bits_loop f k bit' i (zset test i a') data base (hit || h)
      | _, _ => Undef UOob
      end
  end.
(** events.c:83-86 *)
Definition f_change (m a b : Z) : Z * bool :=
  if Z.land a m =? Z.land b m then (a, false) else (b, true).
(** events.c:126-133 *)
Definition f_set (m a b : Z) : Z * bool :=
  if negb (Z.land b m =? 0) then
    if Z.land a m =? 0 then (Z.lor a m, true) else (a, false)
  else (Z.ldiff a m, false).
(** events.c:159-166 *)
Definition f_reset (m a b : Z) : Z * bool :=
  if Z.land b m =? 0 then
    if Z.land a m =? 0 then (Z.lor a m, true) else (a, false)
  else (Z.ldiff a m, false).

(** events.c:94-103 *)
Fixpoint change_loop (n : nat) (pt pd : Z) (test data : list Z) (hit : bool) : run (list Z * bool) :=
  match n with
  | O => Done (test, hit)
  | S k =>
      match znth test pt, znth data pd with
      | Some a, Some b =>
          if a =? b then change_loop k (pt + 1) (pd + 1) test data hit
          else change_loop k (pt + 1) (pd + 1) (zset test pt b) data true
      | _, _ => Undef UOob
      end
  end.

(** MIN(byte + size, offset + wsize) - MAX(offset, byte) with the C conversions
    (byte, offset, wsize are int, size is uint32_t), events.c:96, 263, 354 *)
Definition ov_len (byte size off wsize : Z) : Z :=
  s32 (Z.min (u32 (byte + size)) (u32 (off + wsize)) - Z.max off byte).

(** ** Values *)
(** IEEE-754 order on bit patterns; None = NaN.  [w] is 4 or 8. *)
Definition fkey (w bits : Z) : option Z :=
  let sign := if w =? 4 then 2 ^ 31 else 2 ^ 63 in
  let inf := if w =? 4 then 255 * 2 ^ 23 else 2047 * 2 ^ 52 in
  let mag := bits mod sign in
  if inf <? mag then None else Some (if sign <=? bits then - mag else mag).

(** how the switch statements of events.c and atomic.c look at a type:
    width read and interpretation.  Note TIME is handled as a 32-bit unsigned. *)
Inductive vkind := KU (w : Z) | KS (w : Z) | KF (w : Z).
Definition vkind_of (t : Z) : option vkind :=
  if t =? T_BYTE then Some (KU 1) else if (t =? T_SINT) || (t =? T_CHAR) then Some (KS 1)
  else if (t =? T_UINT) || (t =? T_WORD) then Some (KU 2) else if t =? T_INT then Some (KS 2)
  else if (t =? T_UDINT) || (t =? T_DWORD) || (t =? T_TIME) then Some (KU 4) else if t =? T_DINT then Some (KS 4)
  else if (t =? T_ULINT) || (t =? T_LWORD) then Some (KU 8) else if t =? T_LINT then Some (KS 8)
  else if t =? T_REAL then Some (KF 4) else if t =? T_LREAL then Some (KF 8) else None.
Definition kwidth (k : vkind) : Z := match k with KU w | KS w | KF w => w end.
Definition wrap_s (w x : Z) : Z :=
  if w =? 1 then s8 x else if w =? 2 then s16 x else if w =? 4 then s32 x else s64 x.
Definition wrap_u (w x : Z) : Z :=
  if w =? 1 then u8 x else if w =? 2 then u16 x else if w =? 4 then u32 x else u64 x.
(** the value a block of [kwidth k] bytes represents; None = NaN *)
Definition kval (k : vkind) (l : list Z) : option Z :=
  match k with
  | KU _ => Some (le_val l)
  | KS w => Some (wrap_s w (le_val l))
  | KF w => fkey w (le_val l)
  end.

(** events.c:175-248 [_generic_compare] *)
Definition generic_compare (t : Z) (l1 : list Z) (p1 : Z) (l2 : list Z) (p2 : Z) : run Z :=
  match vkind_of t with
  | None => Undef UAbort
  | Some k =>
      a <-- rd l1 p1 (kwidth k) ;;
      b <-- rd l2 p2 (kwidth k) ;;
      match kval k a, kval k b with
      | Some x, Some y => Done (if x <? y then -1 else if y <? x then 1 else 0)
      | _, _ => Done 0
      end
  end.

(** events.c:263-275, loop of [_event_compare]; [n] iterations *)
Fixpoint compare_loop (n : nat) (e : event) (cmp inc bit pd : Z) (test data : list Z) (hit : bool)
  : run (list Z * bool) :=
  match n with
  | O => Done (test, hit)
  | S k =>
      c <-- generic_compare (e_dtype e) (e_data e) 0 data pd ;;
      match znth test (bit / 8) with
      | None => Undef UOob
      | Some a =>
          let m := 2 ^ (bit mod 8) in
          if c =? cmp then
            if Z.land a m =? 0
            then compare_loop k e cmp inc (bit + 1) (pd + inc) (zset test (bit / 8) (Z.lor a m)) data true
            else compare_loop k e cmp inc (bit + 1) (pd + inc) test data hit
          else compare_loop k e cmp inc (bit + 1) (pd + inc) (zset test (bit / 8) (Z.ldiff a m)) data hit
      end
  end.
(** iterations of [for(n = 0; n < len; n += inc)] *)
Definition iters (len inc : Z) : nat := Z.to_nat ((len + inc - 1) / inc).

(** events.c:280-343 [_generic_deadband]: a = value at last firing, b = current value *)
Definition db_arith (E : env) (k : vkind) (a b d : Z) : run bool :=
  match k with
  | KU w =>
      if w <=? 2 then Done (d <=? Z.abs (a - b))                 (* exact in int16_t / int32_t *)
      else if w =? 4 then Done (d <=? u32 (a - b))               (* unsigned subtraction, widened *)
      else let x := s64 (a - b) in
           if x =? -9223372036854775808 then Undef UOverflow else Done (d <=? Z.abs x)
  | KS w =>
      if w <=? 2 then Done (d <=? Z.abs (wrap_s w (a - b)))      (* stored back into int8_t / int16_t *)
      else
        let fits := if w =? 4 then fits32 else fits64 in
        if fits (a - b) && fits (Z.abs (a - b)) then Done (d <=? Z.abs (a - b)) else Undef UOverflow
  | KF w =>
      match fkey w (en_fsub E w a b), fkey w d with
      | Some x, Some y => Done (y <=? Z.abs x)
      | _, _ => Done false
      end
  end.
(** integer kinds are decoded, floats stay bit patterns *)
Definition kraw (k : vkind) (l : list Z) : Z :=
  match k with KS w => wrap_s w (le_val l) | _ => le_val l end.
Definition generic_deadband (E : env) (e : event) (test : list Z) (pt : Z) (data : list Z) (pd : Z) : run bool :=
  match vkind_of (e_dtype e) with
  | None => Undef UAbort
  | Some k =>
      d <-- rd (e_data e) 0 (kwidth k) ;;
      a <-- rd test pt (kwidth k) ;;
      b <-- rd data pd (kwidth k) ;;
      db_arith E k (kraw k a) (kraw k b) (kraw k d)
  end.
(** events.c:353-363 *)
Fixpoint deadband_loop (E : env) (n : nat) (e : event) (inc pt pd : Z) (test data : list Z) (hit : bool)
  : run (list Z * bool) :=
  match n with
  | O => Done (test, hit)
  | S k =>
      h <-- generic_deadband E e test pt data pd ;;
      if h then
        x <-- rd data pd inc ;;
        if in_bounds pt inc (zlen test)
        then deadband_loop E k e inc (pt + inc) (pd + inc) (splice pt x test) data true
        else Undef UOob
      else deadband_loop E k e inc (pt + inc) (pd + inc) test data hit
  end.

(** events.c:368-392 [_event_hit] with 64-106, 109-173, 250-276, 345-364 inlined.
    [data] is the tag's data block after the write.  Result: new test area, hit. *)
Definition event_hit (E : env) (e : event) (data : list Z) (off wsize : Z) : run (list Z * bool) :=
  let len := ov_len (e_byte e) (e_size e) off wsize in
  let pt := Z.max 0 (off - e_byte e) in
  let pd := Z.max off (e_byte e) in
  let inc := typesize_bits (e_dtype e) / 8 in
  let n := Z.to_nat (e_count e) in
  let ty := e_etype e in
  if ty =? EV_WRITE then Done (e_test e, true)
  else if ty =? EV_CHANGE then
    if e_dtype e =? T_BOOL
    then bits_loop f_change n (e_bit e) 0 (e_test e) data (e_byte e) false
    else change_loop (Z.to_nat len) pt pd (e_test e) data false
  else if ty =? EV_SET then bits_loop f_set n (e_bit e) 0 (e_test e) data (e_byte e) false
  else if ty =? EV_RESET then bits_loop f_reset n (e_bit e) 0 (e_test e) data (e_byte e) false
  else if (ty =? EV_EQUAL) || (ty =? EV_GREATER) || (ty =? EV_LESS) then
    if inc =? 0 then Undef UDiv
    else compare_loop (iters len inc) e (if ty =? EV_EQUAL then 0 else if ty =? EV_GREATER then -1 else 1) inc
           (Z.max 0 (Z.quot (off - e_byte e) inc)) pd (e_test e) data false
  else if ty =? EV_DEADBAND then
    if inc =? 0 then
      (if 0 <? len then Undef UFuel else Done (e_test e, false))   (* n += 0 never ends *)
    else deadband_loop E (iters len inc) e inc pt pd (e_test e) data false
  else Done (e_test e, false).

(** events.c:415 - do the ranges intersect? *)
Definition ev_overlap (e : event) (off wsize : Z) : bool :=
  (u32 off <=? u32 (e_byte e + e_size e - 1)) && (e_byte e <=? off + wsize - 1).

Definition mod_by_uid (mods : list module) (uid : Z) : option module :=
  find (fun m => m_uid m =? uid) mods.

(** events.c:33-62 [_send_event].  [data]: the tag's data block, None if there is none. *)
Definition send_event (mods : list module) (idx : Z) (data : option (list Z)) (e : event) : run (list out) :=
  match mod_by_uid mods (e_mod e) with
  | None => Undef UUaf                                   (* event->notify was freed *)
  | Some m =>
      if Z.testbit (e_opts e) 0 then
        if DAX_MSGMAX <? u32 (e_size e + 16) then Done []
        else match data with
             | None => Undef UNull
             | Some b => if DAX_MSGMAX - 16 <? e_size e then Undef UOob   (* the sum above wrapped; buff[DAX_MSGMAX] *)
                         else x <-- rd b (e_byte e) (e_size e) ;;
                              Done [OEvent (m_fd m) (e_etype e) idx (e_id e) (Some x)]
             end
      else Done [OEvent (m_fd m) (e_etype e) idx (e_id e) None]
  end.

(** events.c:404-422 [event_check] on the event list of one tag *)
Fixpoint check_events (E : env) (mods : list module) (idx : Z) (data : list Z) (off wsize : Z) (evs : list event)
  : run (list event * list out) :=
  match evs with
  | [] => Done ([], [])
  | e :: r =>
      if ev_overlap e off wsize then
        x <-- event_hit E e data off wsize ;;
        let '(test', hit) := x in
        o <-- (if hit then send_event mods idx (Some data) e else Done []) ;;
        y <-- check_events E mods idx data off wsize r ;;
        Done (set_test e test' :: fst y, o ++ snd y)
      else
        y <-- check_events E mods idx data off wsize r ;;
        Done (e :: fst y, snd y)
  end.

(** events.c:424-440 [event_del_check] *)
Fixpoint del_events (mods : list module) (idx : Z) (data : option (list Z)) (evs : list event) : run (list out) :=
  match evs with
  | [] => Done []
  | e :: r =>
      o <-- (if e_etype e =? EV_DELETED then send_event mods idx data e else Done []) ;;
      y <-- del_events mods idx data r ;;
      Done (o ++ y)
  end.

(** events.c:442-479 [_verify_event_type]; true = allowed *)
Definition verify_event_type (ttype etype : Z) : bool :=
  if (etype =? EV_WRITE) || (etype =? EV_CHANGE) then true
  else if (etype =? EV_SET) || (etype =? EV_RESET) then ttype =? T_BOOL
  else if etype =? EV_EQUAL then
    negb ((ttype =? T_REAL) || (ttype =? T_LREAL) || (ttype =? T_BOOL) || (T_CUSTOM <=? ttype))
  else negb ((ttype =? T_BOOL) || (T_CUSTOM <=? ttype)).

(** events.c:481-571 [_set_event_data]: the data and test areas of a new event.
    [udata] are the bytes of the message behind the fixed part, [tdat] the tag's data block. *)
Definition set_event_data (E : env) (step : Z) (ts : list cdt) (etype dtype count byte : Z)
           (tdat : tdata) (udata : list Z) : run (list Z * list Z) :=
  let bitsz := Z.quot (count - 1) 8 + 1 in
  let copy_user n :=
    if n <? 0 then Undef UOob
    else Done (firstn (Z.to_nat n) (udata ++ jbytes E step 0 n)) in
  let copy_tag n :=
    if n <? 0 then Undef UOob
    else if n =? 0 then Done []
    else match tdat with
         | DBytes b => rd b byte n
         | DNull => Undef UNull
         | _ => Undef UOob
         end in
  let tsz k := sz <-- type_size ts dtype ;; k sz in
  if etype =? EV_CHANGE then
    if dtype =? T_BOOL then t <-- copy_tag bitsz ;; Done ([], t)
    else tsz (fun sz => if negb (fits32 (sz * count)) then Undef UOverflow
                        else t <-- copy_tag (sz * count) ;; Done ([], t))
  else if etype =? EV_DEADBAND then
    tsz (fun sz => if negb (fits32 (sz * count)) then Undef UOverflow
                   else d <-- copy_user sz ;; t <-- copy_tag (sz * count) ;; Done (d, t))
  else if (etype =? EV_SET) || (etype =? EV_RESET) then
    if bitsz <? 0 then Undef UOob else Done ([], zeros bitsz)
  else if (etype =? EV_EQUAL) || (etype =? EV_GREATER) || (etype =? EV_LESS) then
    tsz (fun sz => d <-- copy_user sz ;; if bitsz <? 0 then Undef UOob else Done (d, zeros bitsz))
  else Done ([], []).
