(** * ClientData: reading and writing tags through handles (src/lib/libdata.c)
    The client is connected and nothing is lost on the way: a request is one [step] of the server and the
    answer is the last message of that step (Prop_Encode shows that the messages decode to these requests).
    Requests of other clients between the parts of one call are not modelled.
    Memory allocation succeeds.  All number conversions of this file's functions are identities
    (libconv.h, server and client in the same format); what remains of them is which bytes they touch. *)
From Verif Require Import Base Const Types State Events Atomic Server ClientTypes.

(** libmsg.c:116-162 [_message_recv] seen from a call: the payload or the error code *)
Definition ask (E : env) (s : server) (o : op) : run (server * (list Z + Z)) :=
  s' <-- step E s o ;;
  Done (s', match rev (s_out s') with
            | OResp _ _ p :: _ => inl p
            | OErr _ _ c :: _ => inr c
            | _ => inr E_TIMEOUT
            end).

(** libmsg.c:674-708 [dax_read]: the answer is copied to position [at_] of the caller's buffer *)
Definition c_read (E : env) (fd idx off size at_ : Z) (x : server * list Z) : run (server * list Z * Z) :=
  let '(s, buf) := x in
  if MSG_DATA_SIZE <? size then Done (s, buf, E_2BIG)
  else
    r <-- ask E s (OpRead fd idx (s32 off) size) ;;
    match r with
    | (s, inr e) => Done (s, buf, e)
    | (s, inl p) => if in_bounds at_ (zlen p) (zlen buf) then Done (s, splice at_ p buf, 0) else Undef UOob
    end.
(** libmsg.c:725-766 [dax_write]: [d] is the whole buffer of the caller, [at_] and [size] the part to send *)
Definition c_write (E : env) (fd idx off size at_ : Z) (d : list Z) (s : server) : run (server * Z) :=
  if MSG_DATA_SIZE <? size + 8 then Done (s, E_2BIG)
  else if negb (in_bounds at_ size (zlen d)) then Undef UOob
  else
    r <-- ask E s (OpWrite fd idx (s32 off) (slice at_ size d)) ;;
    match r with (s, inr e) => Done (s, e) | (s, inl _) => Done (s, 0) end.
(** libmsg.c:783-820 [dax_mask] *)
Definition c_mask (E : env) (fd idx off size at_ : Z) (d m : list Z) (s : server) : run (server * Z) :=
  if MSG_DATA_SIZE <? size * 2 + 8 then Done (s, E_2BIG)
  else if negb (in_bounds at_ size (zlen d) && in_bounds at_ size (zlen m)) then Undef UOob
  else
    r <-- ask E s (OpMask fd idx (s32 off) (slice at_ size d) (slice at_ size m)) ;;
    match r with (s, inr e) => Done (s, e) | (s, inl _) => Done (s, 0) end.

(** the splitting loops (libdata.c:370-377, 554-561, 583-590, 656-663, 679-686): [f a n rsize] sends one part.
    Running out of fuel is the endless loop of a part of size 0. *)
Fixpoint chunks {A} (f : A -> Z -> Z -> run (A * Z)) (fuel : nat) (max tsz tsize n : Z) (a : A) : run (A * Z) :=
  if tsize <=? 0 then Done (a, 0)
  else match fuel with
  | O => Undef UFuel
  | S k =>
      if tsz =? 0 then Undef UDiv
      else
        let r := Z.min tsize max in
        let r := r - Z.rem r tsz in
        x <-- f a n r ;;
        let '(a, e) := x in
        if negb (e =? 0) then Done (a, e) else chunks f k max tsz (tsize - r) (n + r) a
  end.
Definition fuel_of (size : Z) : nat := S (Z.to_nat size).

(** libdata.c:249-338 [_read_format] ([dbl] false) and 415-498 [_write_format] ([dbl] true, which adds the offset
    of a nested member twice: it passes on [newdata], already shifted, together with [pos]).
    [data] is the position of the pointer in the caller's buffer of [len] bytes.
    get_cdt_pointer (libcdt.c:157-180) finds cached types; for another type it calls dax_cdt_get,
    which locks the mutex the caller holds: the call never returns (UAbort). *)
Fixpoint fmt (fuel : nat) (dbl : bool) (ts : list cdt) (cc : ctypes) (t0 count data off len : Z) : run Z :=
  match fuel with
  | O => Undef UFuel
  | S k =>
      let t := Z.clearbit t0 30 in
      let touch w := if in_bounds (data + off) (w * count) len then Done 0 else Undef UOob in
      if is_custom t then
        match znth cc (cdt_index t) with
        | Some (mk_cs (Some _) ms) =>
            (fix walk (ms : list cmember) (pos : Z) : run Z :=
               match ms with
               | [] => Done 0
               | m :: r =>
                   e <-- fmt k dbl ts cc (cm_type m) (cm_count m) (if dbl then data + off else data) pos len ;;
                   if negb (e =? 0) then Done e
                   else if is_custom (cm_type m) then
                     x <-- dax_get_typesize ts cc (cm_type m) ;;
                     walk r (pos + snd x * cm_count m)
                   else walk r (pos + typesize_bits (cm_type m) * cm_count m / 8)
               end) ms off
        | _ => Undef UAbort
        end
      else if (t =? T_BOOL) || (t =? T_BYTE) || (t =? T_SINT) || (t =? T_CHAR) then Done 0
      else if (t =? T_WORD) || (t =? T_UINT) || (t =? T_INT) then touch 2
      else if (t =? T_DWORD) || (t =? T_UDINT) || (t =? T_TIME) || (t =? T_DINT) || (t =? T_REAL) then touch 4
      else if (t =? T_LWORD) || (t =? T_ULINT) || (t =? T_LINT) || (t =? T_LREAL) then touch 8
      else Done E_ARG
  end.
Definition read_format (ts : list cdt) (cc : ctypes) (t count len : Z) : run Z := fmt (S (length ts)) false ts cc t count 0 0 len.
Definition write_format (ts : list cdt) (cc : ctypes) (t count len : Z) : run Z := fmt (S (length ts)) true ts cc t count 0 0 len.

(** [dst[k/8] |= 1 << k%8] *)
Definition set_bit (dst : list Z) (k : Z) : run (list Z) :=
  match znth dst (k / 8) with
  | None => Undef UOob
  | Some x => Done (zset dst (k / 8) (Z.lor x (2 ^ (k mod 8))))
  end.
(** libdata.c:394-399 and 538-541: copy [n] bits of [src] from bit [i] on to [dst] from bit [k] on; [dst] holds zeros there *)
Fixpoint copy_bits (n : nat) (src : list Z) (i : Z) (dst : list Z) (k : Z) : run (list Z) :=
  match n with
  | O => Done dst
  | S n' =>
      match znth src (i / 8) with
      | None => Undef UOob
      | Some x =>
          dst <-- (if Z.testbit x (i mod 8) then set_bit dst k else Done dst) ;;
          copy_bits n' src (i + 1) dst (k + 1)
      end
  end.
(** libdata.c:542: the mask gets ones in the same places *)
Fixpoint mark_bits (n : nat) (dst : list Z) (k : Z) : run (list Z) :=
  match n with
  | O => Done dst
  | S n' => dst <-- set_bit dst k ;; mark_bits n' dst (k + 1)
  end.

(** libdata.c:353-409 [dax_tag_read]; [buf] is the caller's buffer *)
Definition dax_tag_read (E : env) (cc : ctypes) (fd : Z) (s : server) (h : handle) (buf : list Z) : run (server * list Z * Z) :=
  x <-- (if MSG_DATA_SIZE <? h_size h then
           y <-- dax_get_typesize (s_types s) cc (h_type h) ;;
           let tsz := snd y in
           if MSG_DATA_SIZE <? tsz then Done (s, buf, E_2BIG)
           else chunks (fun a n r => c_read E fd (h_index h) (u32 (h_byte h + n)) r n a)
                  (fuel_of (h_size h)) MSG_DATA_SIZE tsz (s32 (h_size h)) 0 (s, buf)
         else c_read E fd (h_index h) (h_byte h) (h_size h) 0 (s, buf)) ;;
  let '(s, buf, e) := x in
  if negb (e =? 0) then Done (s, buf, e)
  else if h_type h =? T_BOOL then
    nd <-- copy_bits (Z.to_nat (h_count h)) buf (h_bit h) (zeros (h_size h)) 0 ;;
    if in_bounds 0 (h_size h) (zlen buf) then Done (s, splice 0 nd buf, 0) else Undef UOob
  else
    e <-- read_format (s_types s) cc (h_type h) (h_count h) (zlen buf) ;;
    Done (s, buf, e).

(** the BOOL branch of dax_tag_write and dax_tag_mask is taken when the slice is not made of whole bytes *)
Definition bits_path (h : handle) : bool := (h_type h =? T_BOOL) && ((0 <? h_bit h) || negb (h_count h mod 8 =? 0)).
(** libdata.c:526-563 and 625-667: the bits are moved into place and written under a mask made here;
    the mask given to dax_tag_mask is not looked at.  [lim] is the bound on the type size. *)
Definition write_bits (E : env) (cc : ctypes) (fd : Z) (lim : Z) (s : server) (h : handle) (d : list Z) : run (server * Z) :=
  let size := h_size h + (if negb (h_bit h =? 0) && (h_count h mod 8 =? 0) then 1 else 0) in
  nd <-- copy_bits (Z.to_nat (h_count h)) d 0 (zeros size) (h_bit h mod 8) ;;
  m <-- mark_bits (Z.to_nat (h_count h)) (zeros size) (h_bit h mod 8) ;;
  if 2040 <? h_size h then
    y <-- dax_get_typesize (s_types s) cc (h_type h) ;;
    let tsz := snd y in
    if lim <? tsz then Done (s, E_2BIG)
    else chunks (fun a n r => c_mask E fd (h_index h) (u32 (h_byte h + n)) r n nd m a) (fuel_of size) 2040 tsz size 0 s
  else c_mask E fd (h_index h) (h_byte h) size 0 nd m s.

(** libdata.c:519-598 [dax_tag_write] *)
Definition dax_tag_write (E : env) (cc : ctypes) (fd : Z) (s : server) (h : handle) (d : list Z) : run (server * Z) :=
  if bits_path h then write_bits E cc fd 2040 s h d
  else
    e <-- write_format (s_types s) cc (h_type h) (h_count h) (zlen d) ;;
    if negb (e =? 0) then Done (s, e)
    else if 4080 <? h_size h then
      y <-- dax_get_typesize (s_types s) cc (h_type h) ;;
      let tsz := snd y in
      if 4080 <? tsz then Done (s, E_2BIG)
      else chunks (fun a n r => c_write E fd (h_index h) (u32 (h_byte h + n)) r n d a) (fuel_of (h_size h)) 4080 tsz (s32 (h_size h)) 0 s
    else c_write E fd (h_index h) (h_byte h) (h_size h) 0 d s.

(** libdata.c:613-692 [dax_tag_mask] *)
Definition dax_tag_mask (E : env) (cc : ctypes) (fd : Z) (s : server) (h : handle) (d m : list Z) : run (server * Z) :=
  if bits_path h then write_bits E cc fd 4080 s h d
  else
    e <-- write_format (s_types s) cc (h_type h) (h_count h) (zlen d) ;;
    if negb (e =? 0) then Done (s, e)
    else if 2040 <? h_size h then
      y <-- dax_get_typesize (s_types s) cc (h_type h) ;;
      let tsz := snd y in
      if 2040 <? tsz then Done (s, E_2BIG)
      else chunks (fun a n r => c_mask E fd (h_index h) (u32 (h_byte h + n)) r n d m a) (fuel_of (h_size h)) 2040 tsz (s32 (h_size h)) 0 s
    else c_mask E fd (h_index h) (h_byte h) (h_size h) 0 d m s.
