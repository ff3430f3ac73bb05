(** * Cache: the client's tag cache (src/lib/libdata.c:60-242)
    The nodes live in a heap; the list is circular and doubly linked, as in the C code.
    Addresses are never reused, so an access to a freed node is the outcome [UUaf].
    Memory allocation succeeds. *)
From Verif Require Import Base Const.

(** opendax.h dax_tag *)
Record ctag := mk_ct { ct_name : name; ct_idx : Z; ct_type : Z; ct_count : Z; ct_attr : Z }.
(** libdax.h tag_cnode *)
Record cnode := mk_cn { cn_tag : ctag; cn_next : Z; cn_prev : Z }.
Definition heap := Z -> option cnode.
(** the cache part of dax_state: libdax.h:113-115; [ca_new] is the next address malloc returns *)
Record cache := mk_cache { ca_heap : heap; ca_new : Z; ca_head : option Z; ca_count : Z; ca_limit : Z }.
Definition hupd (h : heap) (a : Z) (n : option cnode) : heap := fun x => if x =? a then n else h x.
Definition deref (h : heap) (a : Z) : run cnode := match h a with Some n => Done n | None => Undef UUaf end.
Definition put_next (h : heap) (a b : Z) : run heap := n <-- deref h a ;; Done (hupd h a (Some (mk_cn (cn_tag n) b (cn_prev n)))).
Definition put_prev (h : heap) (a b : Z) : run heap := n <-- deref h a ;; Done (hupd h a (Some (mk_cn (cn_tag n) (cn_next n) b))).
Definition put_tag (h : heap) (a : Z) (t : ctag) : run heap := n <-- deref h a ;; Done (hupd h a (Some (mk_cn t (cn_next n) (cn_prev n)))).
(** libinit.c:58-60 *)
Definition cache_init (limit : Z) : cache := mk_cache (fun _ => None) 0 None 0 limit.

(** libdata.c:62-96 [_cache_hit] *)
Definition cache_hit (c : cache) (this : Z) : run (cache * ctag) :=
  match ca_head c with
  | None => Undef UNull
  | Some head =>
      n <-- deref (ca_heap c) this ;;
      if this =? head then Done (c, cn_tag n)
      else
        hn <-- deref (ca_heap c) head ;;
        if ca_count c =? 2 then Done (mk_cache (ca_heap c) (ca_new c) (Some (cn_next hn)) (ca_count c) (ca_limit c), cn_tag n)
        else
          let head := if this =? cn_next hn then this else head in
          let after := cn_prev n in
          an <-- deref (ca_heap c) after ;;
          let before := cn_prev an in
          h <-- put_next (ca_heap c) before this ;;
          h <-- put_prev h after this ;;
          tn <-- deref h this ;;
          h <-- put_next h after (cn_next tn) ;;
          tn <-- deref h this ;;
          h <-- put_prev h (cn_next tn) after ;;
          h <-- put_next h this after ;;
          h <-- put_prev h this before ;;
          Done (mk_cache h (ca_new c) (Some head) (ca_count c) (ca_limit c), cn_tag n)
  end.

(** the search of check_cache_index (libdata.c:106-122), check_cache_name (135-151) and cache_tag_del (203-219).
    Fuel: there are at most [ca_new] nodes. *)
Fixpoint search (fuel : nat) (h : heap) (p : ctag -> bool) (head this : Z) : run (option Z) :=
  match fuel with
  | O => Undef UFuel
  | S k =>
      if this =? head then Done None
      else n <-- deref h this ;; if p (cn_tag n) then Done (Some this) else search k h p head (cn_next n)
  end.
Definition find (c : cache) (p : ctag -> bool) : run (option Z) :=
  match ca_head c with
  | None => Done None
  | Some head =>
      n <-- deref (ca_heap c) head ;;
      if p (cn_tag n) then Done (Some head) else search (S (Z.to_nat (ca_new c))) (ca_heap c) p head (cn_next n)
  end.
(** libdata.c:102-126 [check_cache_index] and 131-156 [check_cache_name] *)
Definition check_cache (c : cache) (p : ctag -> bool) : run (cache * option ctag) :=
  r <-- find c p ;;
  match r with
  | None => Done (c, None)
  | Some a => x <-- cache_hit c a ;; Done (fst x, Some (snd x))
  end.
Definition has_idx (i : Z) (t : ctag) : bool := ct_idx t =? i.
Definition has_name (n : name) (t : ctag) : bool := name_eqb (ct_name t) n.
Definition check_cache_index (c : cache) (i : Z) : run (cache * option ctag) := check_cache c (has_idx i).
Definition check_cache_name (c : cache) (n : name) : run (cache * option ctag) := check_cache c (has_name n).

(** libdata.c:159-197 [cache_tag_add] *)
Definition cache_tag_add (c : cache) (t : ctag) : run cache :=
  match ca_head c with
  | None =>
      let a := ca_new c in
      Done (mk_cache (hupd (ca_heap c) a (Some (mk_cn t a a))) (a + 1) (Some a) (ca_count c + 1) (ca_limit c))
  | Some head =>
      hn <-- deref (ca_heap c) head ;;
      if ca_count c <? ca_limit c then
        let a := ca_new c in
        let h := hupd (ca_heap c) a (Some (mk_cn t head (cn_prev hn))) in
        h <-- put_next h (cn_prev hn) a ;;
        h <-- put_prev h head a ;;
        Done (mk_cache h (a + 1) (Some head) (ca_count c + 1) (ca_limit c))
      else
        h <-- put_tag (ca_heap c) (cn_prev hn) t ;;
        Done (mk_cache h (ca_new c) (Some head) (ca_count c) (ca_limit c))
  end.

(** libdata.c:201-242 [cache_tag_del] *)
Definition cache_tag_del (c : cache) (i : Z) : run (cache * Z) :=
  r <-- find c (has_idx i) ;;
  match r with
  | None => Done (c, E_NOTFOUND)
  | Some this =>
      n <-- deref (ca_heap c) this ;;
      if cn_next n =? this then Done (mk_cache (hupd (ca_heap c) this None) (ca_new c) None (ca_count c - 1) (ca_limit c), 0)
      else
        h <-- put_prev (ca_heap c) (cn_next n) (cn_prev n) ;;
        h <-- put_next h (cn_prev n) (cn_next n) ;;
        let head := if match ca_head c with Some x => x =? this | None => false end then Some (cn_next n) else ca_head c in
        Done (mk_cache (hupd h this None) (ca_new c) head (ca_count c - 1) (ca_limit c), 0)
  end.

(** what the library's calls do with the cache; the answer of the server comes with the call *)
Inductive cop :=
| CByName (n : name) (answer : option ctag)     (* libmsg.c:563-613 dax_tag_byname *)
| CByIndex (i : Z) (answer : option ctag)       (* libmsg.c:625-660 dax_tag_byindex *)
| CAdd (t : ctag)                               (* libmsg.c:513-521 dax_tag_add accepted by the server *)
| CDeleted (i : Z).                             (* libmsg.c:702-704, 757-759, 813-815, 1125-1127: the server says the tag is deleted *)
(** the tag the caller gets *)
Definition cstep (c : cache) (o : cop) : run (cache * option ctag) :=
  match o with
  | CByName n ans =>
      x <-- check_cache_name c n ;;
      match x with
      | (c, Some t) => Done (c, Some t)
      | (c, None) => match ans with None => Done (c, None) | Some t => c <-- cache_tag_add c t ;; Done (c, Some t) end
      end
  | CByIndex i ans =>
      x <-- check_cache_index c i ;;
      match x with
      | (c, Some t) => Done (c, Some t)
      | (c, None) => match ans with None => Done (c, None) | Some t => c <-- cache_tag_add c t ;; Done (c, Some t) end
      end
  | CAdd t => x <-- cache_tag_del c (ct_idx t) ;; c <-- cache_tag_add (fst x) t ;; Done (c, Some t)
  | CDeleted i => x <-- cache_tag_del c i ;; Done (fst x, None)
  end.
