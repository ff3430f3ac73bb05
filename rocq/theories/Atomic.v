(** * Atomic: src/server/atomic.c, the operations on a data block *)
From Verif Require Import Base Const Types State Events.

(** byte [i] of the operand at &msg->data[21]; behind the message the buffer is uninitialised,
    behind the buffer (4088 bytes) it is another object *)
Definition opnd_at (E : env) (step : Z) (opnd : list Z) (i : Z) : run Z :=
  if (0 <=? i) && (i <? zlen opnd) then Done (nthb opnd i)
  else if (0 <=? i) && (i + 21 <? MSG_DATA_SIZE) then Done (u8 (en_junk E step i))
  else Undef UOob.
Fixpoint opnd_bytes (E : env) (step : Z) (opnd : list Z) (i : Z) (n : nat) : run (list Z) :=
  match n with
  | O => Done []
  | S k => x <-- opnd_at E step opnd i ;; r <-- opnd_bytes E step opnd (i + 1) k ;; Done (x :: r)
  end.

(** [for(n = k; ...) data[base + n] = f n data[base + n]], [n] iterations *)
Fixpoint byte_loop (f : Z -> Z -> run Z) (n : nat) (k base : Z) (b : list Z) : run (list Z) :=
  match n with
  | O => Done b
  | S n' =>
      match znth b (base + k) with
      | None => Undef UOob
      | Some x => y <-- f k x ;; byte_loop f n' (k + 1) base (zset b (base + k) y)
      end
  end.

(** atomic.c:41-83, 85-127 [_atomic_inc], [_atomic_dec]; [sub] selects dec *)
Definition atomic_incdec (E : env) (step : Z) (sub : bool) (h : handle) (opnd b : list Z) : run (list Z + Z) :=
  if negb (h_count h =? 1) then Done (inr E_ILLEGAL)
  else match vkind_of (h_type h) with
       | None => Done (inr E_ARG)
       | Some k =>
           let w := kwidth k in
           x <-- rd b (h_byte h) w ;;
           o <-- opnd_bytes E step opnd 0 (Z.to_nat w) ;;
           let a := kraw k x in
           let c := kraw k o in
           let r := if sub then a - c else a + c in
           let store v := Done (inl (splice (h_byte h) (le_bytes (Z.to_nat w) v) b)) in
           match k with
           | KF _ => store ((if sub then en_fsub E else en_fadd E) w a c)
           | KU _ => store r
           | KS 4 => if fits32 r then store r else Undef UOverflow
           | KS 8 => if fits64 r then store r else Undef UOverflow
           | KS _ => store r
           end
       end.

(** atomic.c:139-149, the bit loop of [_atomic_not] (bit > 30: shift out of range) *)
Fixpoint not_bits (n : nat) (bit byte : Z) (b : list Z) : run (list Z) :=
  match n with
  | O => Done b
  | S k =>
      m <-- bmask bit ;;
      match znth b byte with
      | None => Undef UOob
      | Some x =>
          let b' := zset b byte (Z.lxor x m) in
          if bit + 1 =? 8 then not_bits k 0 (byte + 1) b' else not_bits k (bit + 1) byte b'
      end
  end.
Definition atomic_not (h : handle) (b : list Z) : run (list Z + Z) :=
  if (h_type h =? T_REAL) || (h_type h =? T_LREAL) then Done (inr E_BADTYPE)
  else if h_type h =? T_BOOL then
    r <-- not_bits (Z.to_nat (h_count h)) (h_bit h) (h_byte h) b ;; Done (inl r)
  else r <-- byte_loop (fun _ x => Done (bnot x)) (Z.to_nat (h_size h)) 0 (h_byte h) b ;; Done (inl r).

(** atomic.c:30-38 [_left_shift] *)
Definition left_shift (src : list Z) (size bit : Z) : list Z :=
  map (fun n => if n =? 0 then u8 (nthb src 0 * 2 ^ bit)
                else Z.lor (nthb src (n - 1) / 2 ^ (8 - bit)) (u8 (nthb src n * 2 ^ bit)))
      (zseq 0 size).
(** hmask = 0xFF << ((bit + count%8)%8);  lmask = 0xFF >> (8-bit)   (atomic.c:171-172 etc.) *)
Definition hmask (bit count : Z) : Z := u8 (255 * 2 ^ ((bit + count mod 8) mod 8)).
Definition lmask (bit : Z) : Z := 255 / 2 ^ (8 - bit).
Definition first_last (temp : list Z) (size : Z) (fl ff : Z -> Z) : list Z :=
  let t1 := updb temp (size - 1) (fl (nthb temp (size - 1))) in
  updb t1 0 (ff (nthb t1 0)).

Inductive bop := BOr | BAnd | BNor | BNand | BXor | BXnor.
Definition bop_neg (o : bop) : bool := match o with BNor | BNand | BXnor => true | _ => false end.
Definition bop_and (o : bop) : bool := match o with BAnd | BNand => true | _ => false end.
Definition bop_base (o : bop) (x y : Z) : Z :=
  match o with
  | BOr | BNor => Z.lor x y
  | BAnd | BNand => Z.land x y
  | BXor | BXnor => Z.lxor x y
  end.

(** atomic.c:158-353: the six two-operand operations.  They share one structure; the two
    trailing toggles of the negated ones address data[size-1] and data[0] without h.byte. *)
Definition atomic_bin (E : env) (step : Z) (o : bop) (h : handle) (opnd b : list Z) : run (list Z + Z) :=
  if (h_type h =? T_REAL) || (h_type h =? T_LREAL) then Done (inr E_BADTYPE)
  else if (h_type h =? T_BOOL) && negb ((h_count h mod 8 =? 0) && (h_bit h =? 0)) then
    if 8 <? h_bit h then Undef UShift
    else if h_size h <=? 0 then Undef UOob
    else
      src <-- opnd_bytes E step opnd 0 (Z.to_nat (h_size h)) ;;
      let size := h_size h in
      let hm := hmask (h_bit h) (h_count h) in
      let lm := lmask (h_bit h) in
      let temp0 := left_shift src size (h_bit h) in
      let temp := if bop_and o
                  then first_last temp0 size (fun x => Z.lor x hm) (fun x => Z.lor x lm)
                  else first_last temp0 size (fun x => Z.ldiff x hm) (fun x => Z.ldiff x lm) in
      b1 <-- byte_loop (fun n x => Done (bop_base o x (nthb temp n))) (Z.to_nat size) 0 (h_byte h) b ;;
      if bop_neg o then
        b2 <-- byte_loop (fun _ x => Done (bnot x)) (Z.to_nat (size - 2)) 1 (h_byte h) b1 ;;
        match znth b2 (size - 1) with
        | None => Undef UOob
        | Some x =>
            let b3 := zset b2 (size - 1) (Z.lxor x (bnot hm)) in
            match znth b3 0 with
            | None => Undef UOob
            | Some y => Done (inl (zset b3 0 (Z.lxor y (bnot lm))))
            end
        end
      else Done (inl b1)
  else
    r <-- byte_loop (fun n x => y <-- opnd_at E step opnd (h_byte h + n) ;;
                                let v := bop_base o x y in Done (if bop_neg o then bnot v else v))
                    (Z.to_nat (h_size h)) 0 (h_byte h) b ;;
    Done (inl r).

(** atomic.c:383-415 the switch of [atomic_op]; ATOMIC_OP_* of opendax.h *)
Definition atomic_switch (E : env) (step : Z) (op : Z) (h : handle) (opnd b : list Z) : run (list Z + Z) :=
  if op =? 1 then (if h_type h =? T_BOOL then Done (inr E_BADTYPE) else atomic_incdec E step false h opnd b)
  else if op =? 2 then (if h_type h =? T_BOOL then Done (inr E_BADTYPE) else atomic_incdec E step true h opnd b)
  else if op =? 3 then atomic_not h b
  else if op =? 4 then atomic_bin E step BOr h opnd b
  else if op =? 5 then atomic_bin E step BAnd h opnd b
  else if op =? 6 then atomic_bin E step BNor h opnd b
  else if op =? 7 then atomic_bin E step BNand h opnd b
  else if op =? 8 then atomic_bin E step BXor h opnd b
  else if op =? 9 then atomic_bin E step BXnor h opnd b
  else Done (inr E_NOTIMPL).
