(** * LuaConv: tags and Lua values (src/lib/lua/libdaxlua.c:38-473)

    Simplifications.  The type of a tag is given as a tree (the type cache of
    the client is in ClientTypes.v); offsets and sizes are mathematical integers
    (tags below 2 GiB).  Lua is configured as usual: 64 bit integers, double
    numbers, no LUA_USE_APICHECK.  A table is the list of its assignments, the
    newest first.  The Lua stack is a list, its top first. *)
From Verif Require Import Base Const Types.

(** ** Types: [LB t] a base type, [LC ms] a compound type; a member has a name,
    a type and a count (libdax.h, cdt_member) *)
Inductive lty := LB (t : Z) | LC (ms : lms)
with lms := MNil | MCons (nm : name) (ty : lty) (count : Z) (r : lms).
Definition is_bool (ty : lty) : bool := match ty with LB t => t =? T_BOOL | LC _ => false end.

(** dax_get_typesize, libcdt.c:110-152; [up8]: lines 126-129 without the wrap at 2^32 *)
Definition up8 (pos : Z) : Z := (pos + 7) / 8 * 8.
Fixpoint tsize (ty : lty) : Z :=
  match ty with
  | LB t => if typesize_bits t / 8 =? 0 then 1 else typesize_bits t / 8
  | LC ms => let pos := mbits ms 0 in if pos =? 0 then 1 else (pos - 1) / 8 + 1
  end
with mbits (ms : lms) (pos : Z) : Z :=
  match ms with
  | MNil => pos
  | MCons _ ty count r =>
      if is_bool ty then mbits r (pos + count)
      else match ty with
           | LB t => mbits r (up8 pos + typesize_bits t * count)
           | LC _ => mbits r (up8 pos + tsize ty * count * 8)
           end
  end.

(** The offsets that dax_cdt_iter computes for the next member, libcdt.c:819-838 *)
Definition next_pos (ty : lty) (count byte bit : Z) (r : lms) : Z * Z :=
  match r with
  | MNil => (byte, bit)
  | MCons _ nty _ _ =>
      if is_bool ty then
        let bit := bit + count mod 8 in
        let byte := byte + count / 8 in
        let '(byte, bit) := if 7 <? bit then (byte + 1, bit mod 8) else (byte, bit) in
        if negb (is_bool nty) && negb (bit =? 0) then (byte + 1, 0) else (byte, bit)
      else (byte + tsize ty * count, 0)
  end.

(** ** Lua values.  [FZ z]: the double with the integer value z; [FB b]: the
    double with the representation b *)
Inductive lnum := FZ (z : Z) | FB (b : Z).
Inductive key := KI (i : Z) | KS (s : name).
Inductive lval := LNil | LBool (b : bool) | LInt (z : Z) | LNum (x : lnum) | LStr (s : list Z) | LTab (t : list (key * lval)).
Definition key_eqb (a b : key) : bool :=
  match a, b with KI i, KI j => i =? j | KS s, KS t => name_eqb s t | _, _ => false end.
Fixpoint rawget (k : key) (t : list (key * lval)) : lval :=
  match t with [] => LNil | (j, v) :: r => if key_eqb k j then v else rawget k r end.

(** What is left open: conversion of a double to a float, of strings to numbers
    (LNil if the string is no numeral, else LInt or LNum) *)
Record lenv := { l_narrow : Z -> Z; l_strnum : list Z -> lval }.

(** *** IEEE 754 numbers with integer values.  [round_sig p z]: z rounded to p
    significant bits, ties to even *)
Definition round_sig (p z : Z) : Z :=
  let a := Z.abs z in
  let k := Z.log2 a - (p - 1) in
  if k <=? 0 then z
  else let q := a / 2 ^ k in
       let r := a mod 2 ^ k in
       let up := (2 ^ (k - 1) <? r) || ((r =? 2 ^ (k - 1)) && Z.odd q) in
       Z.sgn z * ((if up then q + 1 else q) * 2 ^ k).
(** representation with m bits of mantissa and an exponent of eb bits *)
Definition fp_enc (m eb z : Z) : Z :=
  let z := round_sig (m + 1) z in
  if z =? 0 then 0
  else let a := Z.abs z in
       let k := Z.log2 a in
       let f := if k <=? m then a * 2 ^ (m - k) else a / 2 ^ (k - m) in
       (if z <? 0 then 2 ^ (m + eb) else 0) + (k + (2 ^ (eb - 1) - 1)) * 2 ^ m + (f - 2 ^ m).
(** truncation towards zero; None: infinite or not a number *)
Definition fp_trunc (m eb b : Z) : option Z :=
  let e := (b / 2 ^ m) mod 2 ^ eb in
  let f := b mod 2 ^ m + 2 ^ m in
  if e =? 2 ^ eb - 1 then None
  else if e =? 0 then Some 0
  else let sh := e - (2 ^ (eb - 1) - 1) - m in
       let a := if 0 <=? sh then f * 2 ^ sh else f / 2 ^ (- sh) in
       Some (if Z.testbit b (m + eb) then - a else a).
(** does the double have an integer value? *)
Definition dbl_whole (b : Z) : bool :=
  match fp_trunc 52 11 b with
  | None => false
  | Some z => (b mod 2 ^ 63 =? 0) || ((negb (z =? 0)) && (fp_enc 52 11 z =? b))
  end.
Definition dbl_of_int (z : Z) : lnum := FZ (round_sig 53 z).

(** ** Reading: from data to Lua *)
Definition rd (n off : Z) (l : list Z) : run Z :=
  if in_bounds off n (zlen l) then Done (le_val (slice off n l)) else Undef UOob.

(** libdaxlua.c:39-81.  A float outside the range of lua_Integer is undefined *)
Definition read_to_stack (t off : Z) (l : list Z) : run lval :=
  if t =? T_BYTE then x <-- rd 1 off l ;; Done (LInt x)
  else if (t =? T_SINT) || (t =? T_CHAR) then x <-- rd 1 off l ;; Done (LInt (s8 x))
  else if (t =? T_WORD) || (t =? T_UINT) then x <-- rd 2 off l ;; Done (LInt x)
  else if t =? T_INT then x <-- rd 2 off l ;; Done (LInt (s16 x))
  else if (t =? T_DWORD) || (t =? T_UDINT) then x <-- rd 4 off l ;; Done (LInt x)
  else if t =? T_DINT then x <-- rd 4 off l ;; Done (LInt (s32 x))
  else if t =? T_REAL then
    x <-- rd 4 off l ;;
    match fp_trunc 23 8 x with
    | Some z => if fits64 z then Done (LNum (dbl_of_int z)) else Undef UOverflow
    | None => Undef UOverflow
    end
  else if (t =? T_LWORD) || (t =? T_ULINT) then x <-- rd 8 off l ;; Done (LNum (dbl_of_int (s64 x)))
  else if (t =? T_TIME) || (t =? T_LINT) then x <-- rd 8 off l ;; Done (LInt (s64 x))
  else if t =? T_LREAL then x <-- rd 8 off l ;; Done (LNum (FB x))
  else Undef UStr.                                  (* not a base type: nothing is pushed *)

(** libdaxlua.c:83-90; lua_pushstring ends at the first NUL *)
Fixpoint before_nul (l : list Z) : list Z :=
  match l with [] => [] | b :: r => if b =? 0 then [] else b :: before_nul r end.
Definition push_string (count off : Z) (l : list Z) : run lval :=
  if in_bounds off count (zlen l) then Done (LStr (before_nul (slice off count l))) else Undef UOob.

(** for(n = 0; n < count; n++) { ...; lua_rawseti(L, -2, n + 1); } *)
Fixpoint fill (k : nat) (n : Z) (f : Z -> run lval) (acc : list (key * lval)) : run (list (key * lval)) :=
  match k with
  | O => Done acc
  | S k => v <-- f n ;; fill k (n + 1) f ((KI (n + 1), v) :: acc)
  end.

Definition read_bit (off bit : Z) (l : list Z) : run lval :=
  if in_bounds (off + bit / 8) 1 (zlen l)
  then Done (LBool (Z.testbit (nthb l (off + bit / 8)) (bit mod 8))) else Undef UOob.

(** libdaxlua.c:93-135 *)
Definition push_base (t count bit off : Z) (l : list Z) : run lval :=
  if t =? T_BOOL then
    if 1 <? count then tb <-- fill (Z.to_nat count) 0 (fun n => read_bit off (n + bit) l) [] ;; Done (LTab tb)
    else read_bit off bit l
  else if 1 <? count then
    if t =? T_CHAR then push_string count off l
    else tb <-- fill (Z.to_nat count) 0 (fun n => read_to_stack t (off + typesize_bits t / 8 * n) l) [] ;; Done (LTab tb)
  else read_to_stack t off l.

(** [read_ty]: daxlua_dax_to_lua (libdaxlua.c:179-212) at the top, with [bit]
    and [off] 0, and what _read_callback (140-172) pushes for a member;
    [read_ms]: dax_cdt_iter with _read_callback *)
Fixpoint read_ty (l : list Z) (ty : lty) (count bit off : Z) : run lval :=
  match ty with
  | LB t => push_base t count bit off l
  | LC ms =>
      if 1 <? count then
        tb <-- fill (Z.to_nat count) 0 (fun n => x <-- read_ms l ms 0 0 (off + n * tsize ty) [] ;; Done (LTab x)) [] ;;
        Done (LTab tb)
      else x <-- read_ms l ms 0 0 off [] ;; Done (LTab x)
  end
with read_ms (l : list Z) (ms : lms) (byte bit off : Z) (acc : list (key * lval)) : run (list (key * lval)) :=
  match ms with
  | MNil => Done acc
  | MCons nm ty count r =>
      v <-- read_ty l ty count bit (off + byte) ;;
      let '(byte', bit') := next_pos ty count byte bit r in
      read_ms l r byte' bit' off ((KS nm, v) :: acc)
  end.
Definition dax_to_lua (l : list Z) (ty : lty) (count : Z) : run lval := read_ty l ty count 0 0.

(** ** Writing: from Lua to data and mask *)
Record lw := { w_stk : list lval; w_data : list Z; w_mask : list Z }.
Definition pop (w : lw) : lw := {| w_stk := tl (w_stk w); w_data := w_data w; w_mask := w_mask w |}.
Definition push (v : lval) (w : lw) : lw := {| w_stk := v :: w_stk w; w_data := w_data w; w_mask := w_mask w |}.
Definition top (w : lw) : lval := hd LNil (w_stk w).
(** lua_pushstring(name); lua_rawget(-2) and lua_rawgeti(-1): without a check
    that the value is a table *)
Definition get_key (k : key) (w : lw) : run lw :=
  match top w with LTab t => Done (push (rawget k t) w) | _ => Undef UOob end.
Definition is_table (v : lval) : bool := match v with LTab _ => true | _ => false end.
Definition is_lnil (v : lval) : bool := match v with LNil => true | _ => false end.

(** data and mask at [off] *)
Definition put_bytes (off : Z) (new : list Z) (w : lw) : run lw :=
  if in_bounds off (zlen new) (zlen (w_data w)) && in_bounds off (zlen new) (zlen (w_mask w))
  then Done {| w_stk := w_stk w; w_data := splice off new (w_data w);
               w_mask := splice off (repeat 255 (length new)) (w_mask w) |}
  else Undef UOob.
Definition put_bit (off bit : Z) (b : bool) (w : lw) : run lw :=
  let i := off + bit / 8 in
  let k := bit mod 8 in
  if in_bounds i 1 (zlen (w_data w)) && in_bounds i 1 (zlen (w_mask w))
  then Done {| w_stk := w_stk w;
               w_data := updb (w_data w) i (if b then Z.setbit (nthb (w_data w) i) k else Z.clearbit (nthb (w_data w) i) k);
               w_mask := updb (w_mask w) i (Z.setbit (nthb (w_mask w) i) k) |}
  else Undef UOob.

(** lua_tointeger, lua_tonumber, lua_toboolean *)
Definition num_toint (x : lnum) : Z :=
  match x with
  | FZ z => if fits64 z then z else 0
  | FB b => match fp_trunc 52 11 b with Some z => if dbl_whole b && fits64 z then z else 0 | None => 0 end
  end.
Definition toint (E : lenv) (v : lval) : Z :=
  match v with
  | LInt z => z | LNum x => num_toint x
  | LStr s => match l_strnum E s with LInt z => z | LNum x => num_toint x | _ => 0 end
  | _ => 0
  end.
Definition tonum (E : lenv) (v : lval) : lnum :=
  match v with
  | LInt z => dbl_of_int z | LNum x => x
  | LStr s => match l_strnum E s with LInt z => dbl_of_int z | LNum x => x | _ => FZ 0 end
  | _ => FZ 0
  end.
Definition tobool (v : lval) : bool := match v with LNil => false | LBool b => b | _ => true end.
(** Assignment of a double to an integer type: undefined outside its range
    (C11 6.3.1.4) *)
Definition dbl_to (lo hi : Z) (x : lnum) : run Z :=
  match (match x with FZ z => Some z | FB b => fp_trunc 52 11 b end) with
  | Some z => if (lo <=? z) && (z <=? hi) then Done z else Undef UOverflow
  | None => Undef UOverflow
  end.

(** libdaxlua.c:218-273 *)
Definition write_from_stack (E : lenv) (t idx off : Z) (w : lw) : run lw :=
  let v := top w in
  if (t =? T_BYTE) || (t =? T_SINT) || (t =? T_CHAR) then put_bytes (off + idx) (le_bytes 1 (Z.rem (toint E v) 256)) w
  else if (t =? T_WORD) || (t =? T_UINT) then x <-- dbl_to 0 65535 (tonum E v) ;; put_bytes (off + 2 * idx) (le_bytes 2 x) w
  else if t =? T_INT then x <-- dbl_to (-32768) 32767 (tonum E v) ;; put_bytes (off + 2 * idx) (le_bytes 2 x) w
  else if (t =? T_DWORD) || (t =? T_UDINT) || (t =? T_TIME) then
    x <-- dbl_to 0 4294967295 (tonum E v) ;; put_bytes (off + 4 * idx) (le_bytes 4 x) w
  else if t =? T_DINT then x <-- dbl_to (-2147483648) 2147483647 (tonum E v) ;; put_bytes (off + 4 * idx) (le_bytes 4 x) w
  else if t =? T_REAL then
    put_bytes (off + 4 * idx) (le_bytes 4 (match tonum E v with FZ z => fp_enc 23 8 z | FB b => l_narrow E b end)) w
  else if (t =? T_LWORD) || (t =? T_ULINT) then
    x <-- dbl_to 0 18446744073709551615 (tonum E v) ;; put_bytes (off + 8 * idx) (le_bytes 8 x) w
  else if t =? T_LINT then
    x <-- dbl_to (-9223372036854775808) 9223372036854775807 (tonum E v) ;; put_bytes (off + 8 * idx) (le_bytes 8 x) w
  else if t =? T_LREAL then
    put_bytes (off + 8 * idx) (le_bytes 8 (match tonum E v with FZ z => fp_enc 52 11 z | FB b => b end)) w
  else Done w.

(** the messages pushed with an error *)
Definition needed : lval := LStr (str "Table needed to set").

(** for(n = 0; n < count; n++), libdaxlua.c:300-318 *)
Fixpoint pop_loop (E : lenv) (k : nat) (n t bit off : Z) (w : lw) : run lw :=
  match k with
  | O => Done w
  | S k =>
      w <-- get_key (KI (n + 1)) w ;;
      w <-- (if is_lnil (top w) then Done w
             else if t =? T_BOOL then put_bit off (n + bit) (tobool (top w)) w
             else write_from_stack E t n off w) ;;
      pop_loop E k (n + 1) t bit off (pop w)
  end.
(** _pop_base_datatype, libdaxlua.c:278-332 *)
Definition pop_base (E : lenv) (t count bit off : Z) (w : lw) : run (Z * lw) :=
  if 1 <? count then
    match top w with
    | LStr s =>
        (* memcpy of min(count, len) bytes, memset of count bytes of the mask *)
        let new := firstn (Z.to_nat count) s in
        if in_bounds off (zlen new) (zlen (w_data w)) && in_bounds off count (zlen (w_mask w))
        then Done (0, {| w_stk := w_stk w; w_data := splice off new (w_data w);
                         w_mask := splice off (repeat 255 (Z.to_nat count)) (w_mask w) |})
        else Undef UOob
    | LTab _ => w <-- pop_loop E (Z.to_nat count) 0 t bit off w ;; Done (0, w)
    | _ => Done (-1, push needed w)
    end
  else if t =? T_BOOL then w <-- put_bit off bit (tobool (top w)) w ;; Done (0, w)
  else w <-- write_from_stack E t 0 off w ;; Done (0, w).

(** The loops over an array of a compound type, libdaxlua.c:352-376 and 430-449;
    [f]: dax_cdt_iter for element n *)
Fixpoint cdt_loop (k : nat) (n : Z) (f : Z -> lw -> run (Z * lw)) (w : lw) : run (Z * lw) :=
  match k with
  | O => Done (0, w)
  | S k =>
      if negb (is_table (top w)) then Done (-1, push needed w)
      else
        w <-- get_key (KI (n + 1)) w ;;
        if is_lnil (top w) then cdt_loop k (n + 1) f (pop w)
        else if negb (is_table (top w)) then Done (-1, push needed (pop w))
        else x <-- f n w ;;
             let '(e, w) := x in
             if e =? 0 then cdt_loop k (n + 1) f (pop w) else Done (e, pop w)
  end.

(** [write_cb]: _write_callback, libdaxlua.c:337-406; the result is the error
    it stores in udata, 0 if none.  [write_ms]: dax_cdt_iter with it; the
    iteration goes on after an error *)
Fixpoint write_cb (E : lenv) (ty : lty) (nm : name) (count bit off : Z) (w : lw) : run (Z * lw) :=
  match ty with
  | LB t =>
      w <-- get_key (KS nm) w ;;
      x <-- (if is_lnil (top w) then Done (0, w) else pop_base E t count bit off w) ;;
      let '(e, w) := x in Done (e, pop w)
  | LC ms =>
      w <-- get_key (KS nm) w ;;
      if 1 <? count then
        x <-- cdt_loop (Z.to_nat count) 0 (fun n w => write_ms E ms 0 0 (off + n * tsize ty) 0 w) w ;;
        let '(e, w) := x in if e =? 0 then Done (0, pop w) else Done (e, w)
      else if is_lnil (top w) then Done (0, pop w)
      else if negb (is_table (top w)) then Done (-1, push needed w)
      else
        x <-- write_ms E ms 0 0 off 0 w ;;
        let '(e, w) := x in if e =? 0 then Done (0, pop w) else Done (e, w)
  end
with write_ms (E : lenv) (ms : lms) (byte bit off err : Z) (w : lw) : run (Z * lw) :=
  match ms with
  | MNil => Done (err, w)
  | MCons nm ty count r =>
      x <-- write_cb E ty nm count bit (off + byte) w ;;
      let '(e, w) := x in
      let '(byte', bit') := next_pos ty count byte bit r in
      write_ms E r byte' bit' off (if e =? 0 then err else e) w
  end.

(** daxlua_lua_to_dax, libdaxlua.c:418-473 *)
Definition lua_to_dax (E : lenv) (ty : lty) (count : Z) (w : lw) : run (Z * lw) :=
  match ty with
  | LB t => pop_base E t count 0 0 w
  | LC ms =>
      if 1 <? count then cdt_loop (Z.to_nat count) 0 (fun n w => write_ms E ms 0 0 (n * tsize ty) 0 w) w
      else if is_lnil (top w) then Done (0, w)
      else if negb (is_table (top w)) then Done (-1, push needed w)
      else write_ms E ms 0 0 0 0 w
  end.
