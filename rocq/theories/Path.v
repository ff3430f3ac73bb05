(** * Path: from a textual tag path to a handle (src/lib/libcdt.c:473-742)
    The tag database is present as the function [db] (dax_tag_byname: the cache, then the server), the types as in
    ClientTypes.  Text is a list of character codes without the final NUL.
    Simplifications: dax_log calls are left out; the member list used by a loop is the one present when it starts. *)
From Verif Require Import Base Const Types State ClientTypes Cache.

(** libcdt.c:475-490 [_split_tagname] *)
Fixpoint split_tagname (s : name) : name * option name :=
  match s with
  | [] => ([], None)
  | c :: r => if c =? 46 then ([], Some r) else let '(a, b) := split_tagname r in (c :: a, b)
  end.
(** libcdt.c:498-516 [_get_index]: the text before '[' and the index.  The closing bracket is not required. *)
Fixpoint cut_at (d : Z) (s : name) : name * option name :=
  match s with
  | [] => ([], None)
  | c :: r => if c =? d then ([], Some r) else let '(a, b) := cut_at d r in (c :: a, b)
  end.
Definition get_index (s : name) : name * Z :=
  match cut_at 91 s with
  | (n, None) => (n, E_NOTFOUND)
  | (n, Some r) => (n, if forallb isdigit (fst (cut_at 93 r)) then s32 (strtol10 r) else E_ARG)
  end.
(** signed arithmetic on int *)
Definition cint (x : Z) : run Z := if fits32 x then Done x else Undef UOverflow.
(** libcdt.c:543, 634, 651, 692, 715: bytes that hold [count] bits from bit [bit] on *)
Definition bit_bytes (bit count : Z) : run Z := x <-- cint (bit + count - 1) ;; Done (u32 (Z.quot x 8 - bit / 8 + 1)).
Definition at_pos (h : handle) (byte bit : Z) : handle := mk_h (h_index h) byte bit (h_count h) (h_size h) (h_type h).
Definition of_type (h : handle) (t : Z) : handle := mk_h (h_index h) (h_byte h) (h_bit h) (h_count h) (h_size h) t.
Definition extent (h : handle) (size count : Z) : handle := mk_h (h_index h) (h_byte h) (h_bit h) (u32 count) (u32 size) (h_type h).

Fixpoint after_digits (s : name) : name := match s with c :: r => if isdigit c then after_digits r else s | [] => [] end.
(** libcdt.c:521-552 [_parse_bit_index]; [digit] starts with a digit *)
Definition parse_bit_index (ts : list cdt) (cc : ctypes) (t : Z) (h : handle) (digit : name) (index count : Z) : run (ctypes * (handle + Z)) :=
  if (t =? T_BOOL) || (t =? T_TIME) || (t =? T_REAL) || (t =? T_LREAL) || is_custom t then Done (cc, inr E_BADTYPE)
  else
    let index := if index <? 0 then 0 else index in
    let bit := u8 (strtol10 digit) in                       (* unsigned char bit *)
    if negb (is_nil (after_digits digit)) then Done (cc, inr E_ARG)
    else
      x <-- dax_get_typesize ts cc t ;;
      let '(cc, size) := x in
      if size * 8 <? bit then Done (cc, inr E_2BIG)
      else
        let count := if count =? 0 then 1 else count in
        e <-- cint (bit + count) ;;
        if size * 8 <? e then Done (cc, inr E_2BIG)
        else
          o <-- cint (size * index) ;; o <-- cint (o + bit / 8) ;;
          n <-- bit_bytes (bit mod 8) count ;;
          Done (cc, inl (of_type (extent (at_pos h (u32 (h_byte h + o)) (bit mod 8)) n count) T_BOOL)).

(** libcdt.c:577-599: the search for the member; [h_type] is the type of the last member passed *)
Fixpoint seek (ts : list cdt) (cc : ctypes) (nm : name) (ms : list cmember) (h : handle) : run (ctypes * handle * option cmember) :=
  match ms with
  | [] => Done (cc, h, None)
  | m :: r =>
      if name_eqb nm (cm_name m) then Done (cc, h, Some m)
      else if cm_type m =? T_BOOL then
        let b := u8 (h_bit h + cm_count m) in               (* unsigned char bit *)
        let h := if 7 <? b then at_pos h (u32 (h_byte h + b / 8)) (b mod 8) else at_pos h (h_byte h) b in
        seek ts cc nm r (of_type h (cm_type m))
      else
        let byte := if (h_type h =? T_BOOL) && (0 <? h_bit h) then u32 (h_byte h + 1) else h_byte h in
        x <-- dax_get_typesize ts cc (cm_type m) ;;
        let '(cc, size) := x in
        o <-- cint (size * cm_count m) ;;
        seek ts cc nm r (of_type (at_pos h (u32 (byte + o)) 0) (cm_type m))
  end.
(** libcdt.c:624-658: the last item of the path *)
Definition last_item (ts : list cdt) (cc : ctypes) (h : handle) (m : cmember) (index count : Z) : run (ctypes * (handle + Z)) :=
  let h := if (h_type h =? T_BOOL) && negb (cm_type m =? T_BOOL) && (0 <? h_bit h) then at_pos h (u32 (h_byte h + 1)) 0 else h in
  let h := of_type h (cm_type m) in
  if negb (index =? E_NOTFOUND) then
    let count := if count =? 0 then 1 else count in
    e <-- cint (index + count) ;;
    if cm_count m <? e then Done (cc, inr E_2BIG)
    else if cm_type m =? T_BOOL then
      let h := at_pos h (u32 (h_byte h + index / 8)) (u8 (h_bit h + index mod 8)) in
      n <-- bit_bytes (h_bit h) count ;; Done (cc, inl (extent h n count))
    else
      x <-- dax_get_typesize ts cc (cm_type m) ;;
      let '(cc, size) := x in
      n <-- cint (size * count) ;; o <-- cint (size * index) ;;
      Done (cc, inl (extent (at_pos h (u32 (h_byte h + o)) 0) n count))
  else if cm_count m <? count then Done (cc, inr E_2BIG)
  else
    let count := if count =? 0 then cm_count m else count in
    if cm_type m =? T_BOOL then n <-- bit_bytes (h_bit h) count ;; Done (cc, inl (extent h n count))
    else
      x <-- dax_get_typesize ts cc (cm_type m) ;;
      let '(cc, size) := x in
      n <-- cint (size * count) ;; Done (cc, inl (extent (at_pos h (h_byte h) 0) n count)).
(** libcdt.c:554-661 [_parse_next_member].  Fuel: every level consumes a '.'. *)
Fixpoint next_member (fuel : nat) (ts : list cdt) (cc : ctypes) (lasttype : Z) (h : handle) (s : name) (count : Z) : run (ctypes * (handle + Z)) :=
  match fuel with
  | O => Undef UFuel
  | S k =>
      let '(nm, nextname) := split_tagname s in
      let '(nm, index) := get_index nm in
      if (index <? 0) && negb (index =? E_NOTFOUND) then Done (cc, inr index)
      else
        x <-- type_to_string ts cc lasttype ;;
        let '(cc, tn) := x in
        match tn with
        | None => Done (cc, inr E_NOTFOUND)
        | Some _ =>
            match znth cc (cdt_index lasttype) with
            | None => Undef UOob                              (* ds->datatypes[...] *)
            | Some sl =>
                y <-- seek ts cc nm (cs_members sl) h ;;
                match y with
                | (cc, _, None) => Done (cc, inr E_NOTFOUND)
                | (cc, h, Some m) =>
                    match nextname with
                    | None => last_item ts cc h m index count
                    | Some nx =>
                        if isdigit (nthb nx 0) then
                          if (1 <? cm_count m) && (index <? 0) then Done (cc, inr E_ARG)
                          else parse_bit_index ts cc (cm_type m) h nx index count
                        else
                          z <-- next_member k ts cc (cm_type m) h nx count ;;
                          match z with
                          | (cc, inr e) => Done (cc, inr e)
                          | (cc, inl h) =>
                              if index =? E_NOTFOUND then Done (cc, inl h)
                              else
                                let count := if count =? 0 then 1 else count in
                                e <-- cint (index + count) ;;
                                if cm_count m <? e then Done (cc, inr E_2BIG)
                                else
                                  x <-- dax_get_typesize ts cc (cm_type m) ;;
                                  let '(cc, size) := x in
                                  o <-- cint (size * index) ;;
                                  Done (cc, inl (at_pos h (u32 (h_byte h + o)) (h_bit h)))
                          end
                    end
                end
            end
        end
  end.
(** libcdt.c:663-728 [_dax_tag_handle] and 745-758 [dax_tag_handle].  The tag's count is unsigned, so the sums are compared as unsigned. *)
Definition whole_tag (ts : list cdt) (cc : ctypes) (tag : ctag) (index count : Z) : run (ctypes * (handle + Z)) :=
  let h := mk_h (ct_idx tag) 0 0 0 0 (ct_type tag) in
  if negb (index =? E_NOTFOUND) then
    let count := if count =? 0 then 1 else count in
    e <-- cint (index + count) ;;
    if ct_count tag <? u32 e then Done (cc, inr E_2BIG)
    else if ct_type tag =? T_BOOL then
      n <-- bit_bytes (index mod 8) count ;; Done (cc, inl (extent (at_pos h (index / 8) (index mod 8)) n count))
    else
      x <-- dax_get_typesize ts cc (ct_type tag) ;;
      let '(cc, size) := x in
      n <-- cint (size * count) ;; o <-- cint (size * index) ;;
      Done (cc, inl (extent (at_pos h (u32 o) 0) n count))
  else if ct_count tag <? u32 count then Done (cc, inr E_2BIG)
  else
    let count := if count =? 0 then s32 (ct_count tag) else count in
    if ct_type tag =? T_BOOL then n <-- bit_bytes 0 count ;; Done (cc, inl (extent h n count))
    else
      x <-- dax_get_typesize ts cc (ct_type tag) ;;
      let '(cc, size) := x in
      n <-- cint (size * count) ;; Done (cc, inl (extent h n count)).
Definition tag_handle (ts : list cdt) (db : name -> option ctag) (cc : ctypes) (s : name) (count : Z) : run (ctypes * (handle + Z)) :=
  let '(nm, member) := split_tagname s in
  let '(nm, index) := get_index nm in
  if (index <? 0) && negb (index =? E_NOTFOUND) then Done (cc, inr index)
  else
    match db nm with
    | None => Done (cc, inr E_NOTFOUND)
    | Some tag =>
        match member with
        | None => whole_tag ts cc tag index count
        | Some mn =>
            let h := mk_h (ct_idx tag) 0 0 0 0 0 in
            if isdigit (nthb mn 0) then
              if (1 <? ct_count tag) && (index <? 0) then Done (cc, inr E_ARG)
              else parse_bit_index ts cc (ct_type tag) h mn index count
            else if negb (is_custom (ct_type tag)) then Done (cc, inr E_ARG)
            else if (1 <? ct_count tag) && (index =? E_NOTFOUND) then Done (cc, inr E_ARBITRARY)
            else
              z <-- next_member (S (length mn)) ts cc (ct_type tag) h mn count ;;
              match z with
              | (cc, inr e) => Done (cc, inr e)
              | (cc, inl h) =>
                  if index =? E_NOTFOUND then Done (cc, inl h)
                  else
                    x <-- dax_get_typesize ts cc (ct_type tag) ;;
                    let '(cc, size) := x in
                    o <-- cint (size * index) ;;
                    Done (cc, inl (at_pos h (u32 (h_byte h + o)) (h_bit h)))
              end
        end
    end.
