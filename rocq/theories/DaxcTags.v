(** * DaxcTags: ADD TAG and LIST TAGS of the command line client (src/modules/daxc/daxc_tag.c:28-258)
    A string is the list of its characters without the terminator.  The client is connected as in ClientData.v and no tag is in its
    cache (C50 is about the cache). *)
From Verif Require Import Base Const Types State Events Atomic Server Text ClientTypes ClientMsg ClientData Daxc.

(** daxc_tag.c:47-62 [_get_attributes]; TAG_ATTR_RETAIN is 4 *)
Fixpoint get_attributes (a : list name) (attr : Z) : Z :=
  match a with
  | [] => attr
  | w :: r => if starts 6 w (str "retain") then get_attributes r (Z.lor attr A_RETAIN) else 0
  end.
(** libmsg.c:466-525 [dax_tag_add]: the index of the tag or an error; the handle is not used by daxc except for its index *)
Definition dax_tag_add (E : env) (fd : Z) (s : server) (nm : name) (type count attr : Z) : run (server * (Z + Z)) :=
  if count =? 0 then Done (s, inr E_ARG)
  else if 32 <? zlen nm then Done (s, inr E_2BIG)
  else if 41 <? 12 + zlen nm + 1 then Undef UOob
  else
    r <-- ask E s (OpTagAdd fd nm type count attr) ;;
    match r with (s, inr e) => Done (s, inr e) | (s, inl p) => Done (s, inl (s32 (le_val (slice 0 4 p)))) end.
(** daxc_tag.c:64-124 [tag_add]: inl: the index printed; inr: the error (1: the command was not understood).
    dax_string_to_type gives 0 for an unknown type, and [type < 0] compares an unsigned number *)
Definition tag_add_cmd (E : env) (cc : ctypes) (fd : Z) (s : server) (a : list name) : run (ctypes * server * (Z + Z)) :=
  match a with
  | nm :: tn :: rest =>
      x <-- dax_string_to_type (s_types s) cc tn ;;
      let '(cc, t) := x in
      let go count attr := y <-- dax_tag_add E fd s nm t count attr ;; Done (cc, fst y, snd y) in
      match rest with
      | [] => go 1 0
      | c :: more =>
          let count := s32 (strtol0 c) in
          if count =? 0 then
            let attr := get_attributes rest 0 in
            if attr =? 0 then Done (cc, s, inr 1) else go 1 attr
          else go count (get_attributes more 0)
      end
  | _ => Done (cc, s, inr 1)
  end.

(** what show_tag prints (daxc_tag.c:28-45): name, type, count, and the words READONLY, VIRTUAL, RETAINED and OVERRIDE *)
Record row := mk_row { r_name : name; r_type : Z; r_count : Z; r_readonly : bool; r_virtual : bool; r_retained : bool; r_override : bool }.
(** libmsg.c:625-660 [dax_tag_byindex]; the answer is parsed as in lines 649-654 *)
Definition dax_tag_byindex (E : env) (fd : Z) (s : server) (i : Z) : run (server * (row + Z)) :=
  r <-- ask E s (OpTagGetIdx fd i) ;;
  match r with
  | (s, inr e) => Done (s, inr e)
  | (s, inl p) =>
      let attr := le_val (slice 12 2 p) in
      match cstr (skipn 14 p) with
      | None => Undef UStr
      | Some nm => Done (s, inl (mk_row nm (le_val (slice 4 4 p)) (le_val (slice 8 4 p)) (has attr A_READONLY) (has attr A_VIRTUAL) (has attr A_RETAIN) (has attr A_OVR_SET)))
      end
  end.
(** daxc_tag.c:241-253: all tags *)
Fixpoint list_all (fuel : nat) (E : env) (fd : Z) (s : server) (n last : Z) : run (server * list (Z * row) * Z) :=
  match fuel with
  | O => Undef UFuel
  | S k =>
      if last <? n then Done (s, [], 0)
      else
        x <-- dax_tag_byindex E fd s n ;;
        match x with
        | (s, inl t) => y <-- list_all k E fd s (n + 1) last ;; let '(s, l, e) := y in Done (s, (n, t) :: l, e)
        | (s, inr e) => if e =? E_DELETED then list_all k E fd s (n + 1) last else Done (s, [], e)
        end
  end.
(** daxc_tag.c:204-219 and 222-237: up to [count] tags from [next] on; [n] are printed.  The new [nextindex] and the result *)
Fixpoint list_page (fuel : nat) (E : env) (fd : Z) (s : server) (count n next last : Z) : run (server * list (Z * row) * Z * Z) :=
  match fuel with
  | O => Undef UFuel
  | S k =>
      if (n <? count) && (next <=? last) then
        x <-- dax_tag_byindex E fd s next ;;
        match x with
        | (s, inl t) => y <-- list_page k E fd s count (n + 1) (next + 1) last ;; let '(s, l, nx, e) := y in Done (s, (next, t) :: l, nx, e)
        | (s, inr e) => if e =? E_DELETED then list_page k E fd s count n (next + 1) last else Done (s, [], next, 1)
        end
      else Done (s, [], next, 0)
  end.
(** the arguments of LIST TAGS as numbers: none, a count, or a start and a count *)
Inductive largs := LAll | LNext (count : Z) | LFrom (start count : Z).
(** daxc_tag.c:169-256 [list_tags] without the case of a tagname; [next] is the static variable [nextindex]; _lastindex is tag 1.
    What is printed, the new [nextindex], and the result *)
Definition list_tags (E : env) (fd : Z) (s : server) (next : Z) (a : largs) : run (server * list (Z * row) * Z * Z) :=
  r <-- ask E s (OpRead fd 1 0 4) ;;
  match r with
  | (s, inr e) => Done (s, [], next, e)
  | (s, inl p) =>
      let last := s32 (le_val p) in
      let next := if last <=? next then 0 else next in
      match a with
      | LAll => x <-- list_all (S (Z.to_nat (last + 1))) E fd s 0 last ;; let '(s, l, e) := x in Done (s, l, if e =? 0 then 0 else next, e)
      | LNext count => list_page (S (Z.to_nat (last + 1 - next))) E fd s count 0 next last
      | LFrom start count => list_page (S (Z.to_nat (last + 1 - start))) E fd s count 0 start last
      end
  end.
(** LIST TAGS [count] typed again and again: all that is printed *)
Fixpoint list_again (m : nat) (E : env) (fd : Z) (s : server) (next count : Z) : run (list (Z * row)) :=
  match m with
  | O => Done []
  | S k => x <-- list_tags E fd s next (LNext count) ;; let '(s, l, nx, _) := x in y <-- list_again k E fd s nx count ;; Done (l ++ y)
  end.
