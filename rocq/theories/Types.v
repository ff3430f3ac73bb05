(** * Types: the server's compound data type registry (src/server/tagbase.c) *)
From Verif Require Import Base Const.

(** daxtypes.h: struct cdt_member, struct datatype.  The member linked list is a list. *)
Record cmember := mk_cm { cm_name : name; cm_type : Z; cm_count : Z }.
(** [refcount] and [flags] are never read by any request and are not modelled. *)
Record cdt := mk_cdt { c_name : name; c_members : list cmember }.

Definition base_types : list Z :=
  [T_BOOL; T_BYTE; T_SINT; T_CHAR; T_WORD; T_INT; T_UINT; T_DWORD; T_DINT; T_UDINT; T_TIME;
   T_REAL; T_LWORD; T_LINT; T_ULINT; T_LREAL].

(** tagbase.c:69-116 [_checktype] (true = 0, false = ERR_NOTFOUND) *)
Definition checktype (ts : list cdt) (t0 : Z) : bool :=
  let t := Z.clearbit t0 30 in
  existsb (Z.eqb t) base_types ||
  (is_custom t && (cdt_index t <? zlen ts)).

(** tagbase.c:1415-1438, the member loop of [type_size].  [tsz] is the recursive call.
    [pos] is an unsigned int (bit position). *)
Definition align8 (pos : Z) : Z :=
  if pos mod 8 =? 0 then pos else u32 (Z.lor pos 7 + 1).
Fixpoint members_bits (tsz : Z -> run Z) (ms : list cmember) (pos : Z) : run Z :=
  match ms with
  | [] => Done pos
  | m :: r =>
      if cm_type m =? T_BOOL then members_bits tsz r (u32 (pos + cm_count m))
      else
        let pos := align8 pos in
        if is_custom (cm_type m) then
          sz <-- tsz (cm_type m) ;;
          if 0 <? sz then members_bits tsz r (u32 (pos + u32 (u32 (sz * cm_count m) * 8)))
          else Undef UAbort                               (* assert(result > 0) *)
        else members_bits tsz r (u32 (pos + u32 (typesize_bits (cm_type m) * cm_count m)))
  end.
Definition bits_to_bytes (pos : Z) : Z := if pos =? 0 then 0 else (pos - 1) / 8 + 1.

(** tagbase.c:1404-1448 [type_size].  The C recursion is bounded by fuel; [type_size] below
    uses one more unit than there are types, which suffices because members only refer to
    earlier types (proved in TypesProofs). *)
Fixpoint type_size_f (fuel : nat) (ts : list cdt) (t : Z) : run Z :=
  match fuel with
  | O => Undef UFuel
  | S k =>
      if negb (checktype ts t) then Done E_NOTFOUND
      else if is_custom t then
        match znth ts (cdt_index t) with
        | None => Undef UOob
        | Some c =>
            pos <-- members_bits (type_size_f k ts) (c_members c) 0 ;;
            Done (bits_to_bytes pos)
        end
      else Done (typesize_bits t / 8)
  end.
Definition type_size (ts : list cdt) (t : Z) : run Z := type_size_f (S (length ts)) ts t.

(** tagbase.c:131-150 [_validate_name].  isalpha/isdigit as in the C locale. *)
Definition validate_name (n : name) : Z :=
  if TAGNAME_SIZE <? zlen n then E_2BIG
  else match n with
       | [] => E_ARG
       | c :: r =>
           if negb (isalpha c) && negb (c =? 95) then E_ARG
           else if forallb (fun c => isalpha c || (c =? 95) || isdigit c) r then 0 else E_ARG
       end.

(** tagbase.c:1042-1088 [cdt_get_type] *)
Definition base_names : list (name * Z) :=
  [(str "BOOL", T_BOOL); (str "BYTE", T_BYTE); (str "SINT", T_SINT); (str "CHAR", T_CHAR);
   (str "WORD", T_WORD); (str "INT", T_INT); (str "UINT", T_UINT); (str "DWORD", T_DWORD);
   (str "DINT", T_DINT); (str "UDINT", T_UDINT); (str "TIME", T_TIME); (str "REAL", T_REAL);
   (str "LWORD", T_LWORD); (str "LINT", T_LINT); (str "ULINT", T_ULINT); (str "LREAL", T_LREAL)].
Fixpoint find_base (n : name) (l : list (name * Z)) : option Z :=
  match l with [] => None | (b, t) :: r => if case_eqb n b then Some t else find_base n r end.
Fixpoint find_cdt (n : name) (ts : list cdt) (i : Z) : option Z :=
  match ts with [] => None | c :: r => if case_eqb n (c_name c) then Some i else find_cdt n r (i + 1) end.
Definition cdt_get_type (ts : list cdt) (n : name) : Z :=
  match find_base n base_names with
  | Some t => t
  | None => match find_cdt n ts 0 with Some i => cdt_type i | None => 0 end
  end.

(** tagbase.c:1090-1142 [cdt_get_name]; None = NULL *)
Fixpoint base_name_of (t : Z) (l : list (name * Z)) : option name :=
  match l with [] => None | (b, t') :: r => if t =? t' then Some b else base_name_of t r end.
Definition cdt_get_name (ts : list cdt) (t : Z) : option name :=
  if is_custom t then
    match znth ts (cdt_index t) with Some c => Some (c_name c) | None => None end
  else base_name_of t base_names.

(** strtok_r(3): next token and the remaining string *)
Fixpoint skip_delim (d : Z) (s : name) : name :=
  match s with c :: r => if c =? d then skip_delim d r else s | [] => [] end.
Fixpoint take_tok (d : Z) (s : name) : name * name :=
  match s with
  | [] => ([], [])
  | c :: r => if c =? d then ([], r) else let '(t, r') := take_tok d r in (c :: t, r')
  end.
Definition strtok (d : Z) (s : name) : option (name * name) :=
  match skip_delim d s with [] => None | s' => Some (take_tok d s') end.

(** strtol(3) with base 0, then the conversion long -> int (tagbase.c:900) stored in a
    uint32_t (daxtypes.h cdt_member.count).  Saturation at LONG_MIN/LONG_MAX included. *)
Definition digit_val (c : Z) : option Z :=
  if isdigit c then Some (c - 48)
  else if (97 <=? c) && (c <=? 122) then Some (c - 87)
  else if (65 <=? c) && (c <=? 90) then Some (c - 55) else None.
Fixpoint digits (base : Z) (acc : Z) (s : name) : Z :=
  match s with
  | [] => acc
  | c :: r => match digit_val c with
              | Some d => if d <? base then digits base (acc * base + d) r else acc
              | None => acc
              end
  end.
Fixpoint skip_space (s : name) : name :=
  match s with c :: r => if isspace c then skip_space r else s | [] => [] end.
Definition sat64 (x : Z) : Z := Z.max (-9223372036854775808) (Z.min 9223372036854775807 x).
Definition is_hex (c : Z) : bool :=
  match digit_val c with Some d => d <? 16 | None => false end.
Definition strtol_mag (s : name) : Z :=
  match s with
  | 48 :: x :: h :: r => if ((x =? 120) || (x =? 88)) && is_hex h then digits 16 0 (h :: r)
                         else digits 8 0 s
  | 48 :: _ => digits 8 0 s
  | _ => digits 10 0 s
  end.
Definition strtol0 (s : name) : Z :=
  match skip_space s with
  | 45 :: r => sat64 (- strtol_mag r)
  | 43 :: r => sat64 (strtol_mag r)
  | r => sat64 (strtol_mag r)
  end.

(** tagbase.c:882-952 [cdt_append]: the new member list or an error code *)
Definition cdt_append (ts : list cdt) (ms : list cmember) (s : name) : list cmember + Z :=
  match strtok 44 s with
  | None => inr E_ARG
  | Some (nm, s1) =>
    match strtok 44 s1 with
    | None => inr E_ARG
    | Some (tn, s2) =>
      match strtok 44 s2 with
      | None => inr E_ARG
      | Some (cs, _) =>
          let count := u32 (strtol0 cs) in
          if negb (validate_name nm =? 0) then inr (validate_name nm)
          else if cdt_get_type ts tn =? 0 then inr E_ARG
          else if existsb (fun m => case_eqb nm (cm_name m)) ms then inr E_DUPL
          else inl (ms ++ [mk_cm nm (cdt_get_type ts tn) count])
      end
    end
  end.

(** snprintf "%d" of a uint32_t count (tagbase.c:1374, 1394) *)
Fixpoint dec_rev (fuel : nat) (n : Z) : name :=
  match fuel with
  | O => []
  | S k => if n <? 10 then [48 + n] else (48 + n mod 10) :: dec_rev k (n / 10)
  end.
Definition dec_str (n : Z) : name := rev (dec_rev 20 n).
Definition print_d (n : Z) : name :=
  let v := s32 n in if v <? 0 then 45 :: dec_str (- v) else dec_str v.

(** tagbase.c:1346-1400 [serialize_datatype].  inl = the string, inr = error code.
    cdt_get_name of a member type is never NULL for registered types; NULL is UNull. *)
Fixpoint serialize_members (ts : list cdt) (ms : list cmember) : run name :=
  match ms with
  | [] => Done []
  | m :: r =>
      match cdt_get_name ts (cm_type m) with
      | None => Undef UNull
      | Some tn =>
          rest <-- serialize_members ts r ;;
          Done ([58] ++ cm_name m ++ [44] ++ tn ++ [44] ++ print_d (cm_count m) ++ rest)
      end
  end.
Definition serialize_datatype (ts : list cdt) (t : Z) : run (name + Z) :=
  if zlen ts <=? cdt_index t then Done (inr E_ARG)
  else match znth ts (cdt_index t) with
       | None => Done (inr E_ARG)
       | Some c => r <-- serialize_members ts (c_members c) ;; Done (inl (c_name c ++ r))
       end.

(** tagbase.c:1004-1012: the loop over the ':' separated members.
    Fuel: every iteration consumes at least one character. *)
Fixpoint append_all (fuel : nat) (ts : list cdt) (ms : list cmember) (s : name) : run (list cmember + Z) :=
  match fuel with
  | O => Undef UFuel
  | S k =>
      match strtok 58 s with
      | None => Done (inl ms)
      | Some (m, s') =>
          match cdt_append ts ms m with
          | inr e => Done (inr e)
          | inl ms' => append_all k ts ms' s'
          end
      end
  end.

(** tagbase.c:954-1039 [cdt_create]: new registry, returned type (0 = failure), and what
    was stored in *error ([None]: nothing was stored - tagbase.c:991-994 forgets to). *)
Definition cdt_create (ts : list cdt) (s : name) : run (list cdt * Z * option Z) :=
  match strtok 58 s with
  | None => Undef UNull                        (* _validate_name(NULL) *)
  | Some (nm, rest) =>
      if negb (validate_name nm =? 0) then Done (ts, 0, Some (validate_name nm))
      else
        let t := cdt_get_type ts nm in
        if negb (t =? 0) then
          ser <-- serialize_datatype ts t ;;
          match ser with
          | inr _ => Undef UUninit             (* serial stays uninitialised, strcmp(serial, ..) *)
          | inl s' => if name_eqb s' s then Done (ts, t, None) else Done (ts, 0, Some E_DUPL)
          end
        else
          r <-- append_all (S (length rest)) ts [] rest ;;
          match r with
          | inr e => Done (ts, 0, Some e)
          | inl ms => Done (ts ++ [mk_cdt nm ms], cdt_type (zlen ts), Some 0)
          end
  end.
