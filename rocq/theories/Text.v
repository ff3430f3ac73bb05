(** * Text: values to text and back (src/lib/libfunc.c:45-300)
    REAL, LREAL and TIME go through printf/strtod/gmtime of the C library and are left open ([te_print], [te_parse]). *)
From Verif Require Import Base Const Types Lib Events.

Record tenv := mk_te {
  te_print : Z -> Z -> name;           (* type, bit pattern *)
  te_parse : Z -> name -> Z * Z        (* type, text: bit pattern, return value *)
}.

(** printf of a signed or unsigned number *)
Definition print_dec (v : Z) : name := if v <? 0 then 45 :: dec_str (- v) else dec_str v.
(** snprintf(3) into a buffer of [size] bytes: what is stored *)
Definition snprint (size : Z) (text : list Z) : list Z := if size <? 1 then [] else firstn (Z.to_nat (size - 1)) text ++ [0].

(** element [index] of an array of [w]-byte values *)
Definition elem (l : list Z) (w index : Z) : run (list Z) := rd l (index * w) w.
Definition put_elem (l : list Z) (w index v : Z) : run (list Z) :=
  if in_bounds (index * w) w (zlen l) then Done (splice (index * w) (le_bytes (Z.to_nat w) v) l) else Undef UOob.

(** libfunc.c:45-109 [dax_val_to_string]: what is put in the buffer *)
Definition val_to_string (T : tenv) (size t : Z) (val : list Z) (index : Z) : run (list Z) :=
  let unsigned w := x <-- elem val w index ;; Done (snprint size (print_dec (le_val x))) in
  let signed w := x <-- elem val w index ;; Done (snprint size (print_dec (wrap_s w (le_val x)))) in
  if t =? T_BOOL then
    if index <? 0 then Undef UShift
    else match znth val (index / 8) with
         | None => Undef UOob
         | Some b => Done (snprint size (if Z.testbit b (index mod 8) then [49] else [48]))
         end
  else if t =? T_BYTE then unsigned 1
  else if t =? T_SINT then signed 1
  else if t =? T_CHAR then x <-- elem val 1 index ;; Done (snprint size x)
  else if (t =? T_WORD) || (t =? T_UINT) then unsigned 2
  else if t =? T_INT then signed 2
  else if (t =? T_DWORD) || (t =? T_UDINT) then unsigned 4
  else if t =? T_DINT then signed 4
  else if (t =? T_LWORD) || (t =? T_ULINT) then unsigned 8
  else if t =? T_LINT then signed 8
  else if (t =? T_REAL) || (t =? T_LREAL) || (t =? T_TIME) then
    x <-- elem val (if t =? T_REAL then 4 else 8) index ;; Done (snprint size (te_print T t (le_val x)))
  else Done [].

(** strtoul(3), strtoull(3) with base 0: the value and whether errno is set to ERANGE *)
Definition strtoul_neg (neg : bool) (m : Z) : Z * bool :=
  if 18446744073709551615 <? m then (18446744073709551615, true) else (u64 (if neg then - m else m), false).
Definition strtoul0 (s : name) : Z * bool :=
  match skip_space s with
  | 45 :: r => strtoul_neg true (strtol_mag r)
  | 43 :: r => strtoul_neg false (strtol_mag r)
  | r => strtoul_neg false (strtol_mag r)
  end.
(** errno after strtoll(3): ERANGE when the number does not fit *)
Definition strtol_range (s : name) : bool :=
  let out x := negb ((-9223372036854775808 <=? x) && (x <=? 9223372036854775807)) in
  match skip_space s with
  | 45 :: r => out (- strtol_mag r)
  | 43 :: r => out (strtol_mag r)
  | r => out (strtol_mag r)
  end.

(** the comparisons with DAX_x_MIN and DAX_x_MAX *)
Definition limit (lo hi x : Z) : Z * Z := if x <? lo then (lo, E_UNDERFLOW) else if hi <? x then (hi, E_OVERFLOW) else (x, 0).
Definition put_bit (on : bool) (l : list Z) (index : Z) : run (list Z) :=
  if index <? 0 then Undef UShift
  else match znth l (index / 8) with
       | None => Undef UOob
       | Some b => Done (zset l (index / 8) (if on then Z.lor b (2 ^ (index mod 8)) else Z.ldiff b (2 ^ (index mod 8))))
       end.
Definition on_mask (mask : option (list Z)) (f : list Z -> run (list Z)) : run (option (list Z)) :=
  match mask with None => Done None | Some m => m <-- f m ;; Done (Some m) end.

(** libfunc.c:129-300 [dax_string_to_val].  [txt] is the memory at instr; the result: buff, mask, return value *)
Definition string_to_val (T : tenv) (txt : list Z) (t : Z) (buff : list Z) (mask : option (list Z)) (index : Z)
  : run (list Z * option (list Z) * Z) :=
  match cstr txt with
  | None => Undef UStr
  | Some s =>
      let store w (x : Z * Z) :=
        b <-- put_elem buff w index (fst x) ;;
        m <-- on_mask mask (fun m => put_elem m w index (-1)) ;;
        Done (b, m, snd x) in
      if t =? T_BOOL then
        b <-- put_bit (negb (strtol0 s =? 0)) buff index ;;
        m <-- on_mask mask (fun m => put_bit true m index) ;;
        Done (b, m, 0)
      else if t =? T_BYTE then store 1 (limit 0 255 (strtol0 s))
      else if t =? T_CHAR then
        match znth txt 1 with                                        (* instr[1] == 0 *)
        | None => Undef UOob
        | Some 0 => store 1 (nthb txt 0, 0)
        | Some _ => store 1 (limit (-128) 127 (strtol0 s))
        end
      else if t =? T_SINT then store 1 (limit (-128) 127 (strtol0 s))
      else if (t =? T_WORD) || (t =? T_UINT) then store 2 (limit 0 65535 (s64 (fst (strtoul0 s))))   (* strtoul assigned to a long *)
      else if t =? T_INT then store 2 (limit (-32768) 32767 (strtol0 s))
      else if (t =? T_DWORD) || (t =? T_UDINT) then store 4 (limit 0 4294967295 (strtol0 s))
      else if t =? T_DINT then store 4 (limit (-2147483648) 2147483647 (strtol0 s))
      else if (t =? T_LWORD) || (t =? T_ULINT) then
        if nthb s 0 =? 45 then b <-- put_elem buff 8 index 0 ;; Done (b, mask, E_UNDERFLOW)   (* the mask is not set *)
        else store 8 (fst (strtoul0 s), if snd (strtoul0 s) then E_OVERFLOW else 0)
      else if t =? T_LINT then
        store 8 (strtol0 s, if strtol_range s then if nthb s 0 =? 45 then E_UNDERFLOW else E_OVERFLOW else 0)
      else if (t =? T_REAL) || (t =? T_LREAL) || (t =? T_TIME) then store (if t =? T_REAL then 4 else 8) (te_parse T t s)
      else Done (buff, mask, 0)
  end.
