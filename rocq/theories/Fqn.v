(** * Fqn: from a handle back to a name (src/lib/libcdt.c:843-1028)
    The tag database is present as the function [tags] (dax_tag_byindex: the cache, then the server), the types as in ClientTypes.
    Simplification: the sizes of the members of a type are taken for all of them, also behind the one that is found. *)
From Verif Require Import Base Const Types State Text ClientTypes Cache Path CdtIter.

(** libcdt.c:852-869 [dax_cdt_member_count] *)
Definition cdt_member_count (ts : list cdt) (cc : ctypes) (t : Z) : run (ctypes * Z) :=
  x <-- cdt_pointer ts cc t ;;
  match x with (cc, inr e) => Done (cc, e) | (cc, inl sl) => Done (cc, zlen (cs_members sl)) end.

(** libcdt.c:872-885 [struct _fqn_data]; [fq_member] is not initialised *)
Record fqdata := mk_fq { fq_member : option item; fq_done : bool; fq_byte : Z; fq_bit : Z }.
(** libcdt.c:892, 907: what the callback needs of a member *)
Definition fqn_item (ts : list cdt) (cc : ctypes) (it : item) : run (ctypes * (item * Z)) :=
  if it_type it =? T_BOOL then Done (cc, (it, 0))
  else x <-- dax_get_typesize ts cc (it_type it) ;; let '(cc, n) := x in Done (cc, (it, n)).
(** libcdt.c:886-918 [_fqn_callback] *)
Definition fqn_step (fbyte fbit : Z) (d : fqdata) (x : item * Z) : run fqdata :=
  let '(it, size) := x in
  if fq_done d then Done d
  else if it_type it =? T_BOOL then
    y <-- cint (fq_byte d + Z.quot (it_count it) 8) ;; b <-- cint (fq_bit d + Z.rem (it_count it) 8) ;;
    here <-- cint (y * 8 + b) ;; final <-- cint (fbyte * 8 + fbit) ;;
    if final <? here then Done (mk_fq (Some it) true (fq_byte d) (fq_bit d)) else Done (mk_fq (fq_member d) false y b)
  else
    let '(y, b) := if 0 <? fq_bit d then (fq_byte d + 1, 0) else (fq_byte d, fq_bit d) in
    n <-- cint (it_count it * size) ;; e <-- cint (y + n) ;;
    if fbyte <? e then Done (mk_fq (Some it) true y b) else Done (mk_fq (fq_member d) false e b).
Fixpoint fqn_steps (fbyte fbit : Z) (d : fqdata) (l : list (item * Z)) : run fqdata :=
  match l with [] => Done d | x :: r => d <-- fqn_step fbyte fbit d x ;; fqn_steps fbyte fbit d r end.

(** strncat into [s], which has room for 1024 characters; the piece went through [temp] or [d], which have room for 64 *)
Definition glue (s piece : name) : run name := if (64 <=? zlen piece) || (1024 <=? zlen s + zlen piece) then Undef UOob else Done (s ++ piece).
(** libcdt.c:920-960 [_fqn_cdt_member].  The C recursion is bounded by fuel *)
Fixpoint fqn_member (fuel : nat) (ts : list cdt) (fbyte fbit : Z) (cc : ctypes) (s : name) (t : Z) (d : fqdata) : run (ctypes * name) :=
  match fuel with
  | O => Undef UFuel
  | S k =>
      x <-- cdt_iter ts (fqn_item ts) cc t ;;
      let '(cc, l, _) := x in
      d <-- fqn_steps fbyte fbit (mk_fq (fq_member d) false (fq_byte d) (fq_bit d)) l ;;
      match fq_member d with
      | None => Undef UUninit
      | Some m =>
          x <-- (if 1 <? it_count m then
                   if it_type m =? T_BOOL then
                     i <-- cint ((fbyte - fq_byte d) * 8 + (fbit - fq_bit d)) ;;
                     s <-- glue s ([46] ++ it_name m ++ [91] ++ print_d i ++ [93]) ;; Done (cc, s, fq_byte d)
                   else
                     x <-- dax_get_typesize ts cc (it_type m) ;;
                     let '(cc, n) := x in
                     if n =? 0 then Undef UDiv
                     else
                       let i := Z.quot (fbyte - fq_byte d) n in
                       y <-- cint (fq_byte d + i * n) ;;
                       s <-- glue s ([46] ++ it_name m ++ [91] ++ print_d i ++ [93]) ;; Done (cc, s, y)
                 else s <-- glue s ([46] ++ it_name m) ;; Done (cc, s, fq_byte d)) ;;
          let '(cc, s, y) := x in
          if negb (y =? fbyte) || negb (fq_bit d =? fbit) then
            if is_custom (it_type m) then fqn_member k ts fbyte fbit cc s (it_type m) (mk_fq (fq_member d) (fq_done d) y (fq_bit d))
            else if negb (it_type m =? T_BOOL) then
              i <-- cint ((fbyte - y) * 8 + (fbit - fq_bit d)) ;; s <-- glue s ([46] ++ print_d i) ;; Done (cc, s)
            else Done (cc, s)
          else Done (cc, s)
      end
  end.
(** libcdt.c:974-1028 [dax_fqn]; None is NULL.  The index [i] and [h.byte - offset] are computed without sign *)
Definition dax_fqn (ts : list cdt) (tags : Z -> option ctag) (cc : ctypes) (h : handle) : run (ctypes * option name) :=
  match tags (h_index h) with
  | None => Done (cc, None)
  | Some tag =>
      if ct_type tag =? T_BOOL then
        if (0 <? h_byte h) || (0 <? h_bit h) then
          Done (cc, Some (ct_name tag ++ [91] ++ print_d (u32 (h_byte h * 8 + h_bit h)) ++ [93]))
        else Done (cc, Some (ct_name tag))
      else
        x <-- dax_get_typesize ts cc (ct_type tag) ;;
        let '(cc, n) := x in
        if n =? 0 then Undef UAbort
        else
          let '(s, i) := if (1 <? ct_count tag) && ((0 <? h_byte h) || negb (h_count h =? ct_count tag))
                         then let i := s32 (h_byte h / u32 n) in (ct_name tag ++ [91] ++ print_d i ++ [93], i)
                         else (ct_name tag, 0) in
          offset <-- cint (i * n) ;;
          if is_custom (ct_type tag) && negb (h_type h =? ct_type tag) then
            x <-- fqn_member (S (length ts)) ts (s32 (h_byte h)) (h_bit h) cc s (ct_type tag) (mk_fq None false offset 0) ;;
            let '(cc, s) := x in Done (cc, Some s)
          else if h_type h =? T_BOOL then
            s <-- glue s ([46] ++ print_d (u32 (h_bit h + u32 (h_byte h - offset) * 8))) ;; Done (cc, Some s)
          else Done (cc, Some s)
  end.
