(** * Server: tagbase.c, virtualtag.c, mapping.c, groups.c, module.c, retain.c and the
    message handlers of message.c, on decoded requests. *)
From Verif Require Import Base Const Types State Events Atomic.

(** ** Small accessors *)
Definition tag_at (i : Z) : SM tag :=
  fun s => match znth (s_db s) i with Some t => Done (s, t) | None => Undef UOob end.
Definition put_tag (i : Z) (t : tag) : SM unit := modify (fun s => set_tag s i t).
Definition emit (o : list out) : SM unit := modify (fun s => set_out s (s_out s ++ o)).

(** contents of an entry of the _db array before tag_add uses it: tagbase.c:361 xmalloc clears
    the first 1024, _database_grow (199-200) does not clear the rest *)
Definition fresh_attr (E : env) (i : Z) : Z := if i <? 1024 then 0 else u16 (en_attr E i).
(** _db[i].attr for any index a client may send (is_tag_readonly is called before the bounds check) *)
Definition attr_at (E : env) (s : server) (i : Z) : run Z :=
  match znth (s_db s) i with
  | Some t => Done (t_attr t)
  | None => if (0 <=? i) && (i <? s_dbsize s) then Done (fresh_attr E i) else Undef UOob
  end.
(** tagbase.c:718-721 [is_tag_owned] (an unused entry counts as not owned) *)
Definition tag_owned (s : server) (fd i : Z) : bool :=
  match znth (s_db s) i with
  | Some t => has (t_attr t) A_OWNED && (t_fd t =? fd)
  | None => false
  end.

(** tagbase.c:118-129 [tag_get_size] *)
Definition tag_size (ts : list cdt) (t : tag) : run Z :=
  if t_type t =? T_BOOL then Done (s32 (t_count t / 8 + 1))
  else sz <-- type_size ts (t_type t) ;; Done (s32 (sz * t_count t)).
(** _db[idx].count * type_size(type), as used by the override functions and ret_tag_write *)
Definition raw_size (ts : list cdt) (t : tag) : run Z :=
  sz <-- type_size ts (t_type t) ;; Done (s32 (t_count t * sz)).

Definition find_mod (s : server) (fd : Z) : option module :=
  find (fun m => m_fd m =? fd) (s_mods s).
Definition upd_mod (uid : Z) (f : module -> module) (s : server) : server :=
  set_mods s (map (fun m => if m_uid m =? uid then f m else m) (s_mods s)).

(** ** The name index: tagbase.c:152-174, 220-287.  Binary search between min and max;
    [inl i] found at position i, [inr n] not found, insertion position n. *)
Fixpoint bsearch (fuel : nat) (ix : list (name * Z)) (n : name) (mn mx : Z) : run (Z + Z) :=
  if mx <? mn then Done (inr mn)
  else match fuel with
       | O => Undef UFuel
       | S k =>
           let try := mn + (mx - mn) / 2 in
           match znth ix try with
           | None => Undef UOob
           | Some (m, _) =>
               match strcmp n m with
               | Gt => bsearch k ix n (try + 1) mx
               | Lt => bsearch k ix n mn (try - 1)
               | Eq => Done (inl try)
               end
           end
       end.
Definition search (ix : list (name * Z)) (n : name) : run (Z + Z) :=
  bsearch (S (length ix)) ix n 0 (zlen ix - 1).
(** [_get_by_name]: the tag index or ERR_NOTFOUND *)
Definition get_by_name (ix : list (name * Z)) (n : name) : run Z :=
  r <-- search ix n ;;
  match r with
  | inl i => match znth ix i with Some (_, t) => Done t | None => Undef UOob end
  | inr _ => Done E_NOTFOUND
  end.
(** [_add_index] *)
Definition add_index (ix : list (name * Z)) (n : name) (i : Z) : run (list (name * Z)) :=
  r <-- search ix n ;;
  match r with
  | inl _ => Undef UAbort                               (* assert(0) *)
  | inr p => Done (firstn (Z.to_nat p) ix ++ (n, i) :: skipn (Z.to_nat p) ix)
  end.
(** [_del_index] *)
Definition del_index (ix : list (name * Z)) (n : name) : run (list (name * Z)) :=
  r <-- search ix n ;;
  match r with
  | inl p => Done (firstn (Z.to_nat p) ix ++ skipn (S (Z.to_nat p)) ix)
  | inr _ => Undef UOob                                 (* memmove(&_index[-1], ...) *)
  end.

(** ** Retention (retain.c), HAVE_SQLITE.  SQLite is modelled as a table that survives restarts;
    each statement is atomic and durable. *)
(** retain.c:176-222 [_add_type]; recursion bounded like type_size *)
Definition type_rows_add (rows : list (Z * name * name)) (i : Z) (nm def : name) : list (Z * name * name) :=
  if existsb (fun r => (fst (fst r) =? i) || name_eqb (snd (fst r)) nm) rows then rows
  else rows ++ [(i, nm, def)].
Fixpoint ret_add_type (fuel : nat) (ts : list cdt) (open : bool) (t : Z) (rows : list (Z * name * name))
  : run (list (Z * name * name)) :=
  match fuel with
  | O => Undef UFuel
  | S k =>
      let i := cdt_index t in
      if negb ((0 <? i) && (i <? zlen ts)) then Undef UNull      (* cdt_get_entry = NULL is dereferenced *)
      else match znth ts i with
           | None => Undef UNull
           | Some c =>
               rows1 <-- fold_left (fun acc m => r <-- acc ;;
                            if is_custom (cm_type m) then ret_add_type k ts open (cm_type m) r else Done r)
                          (c_members c) (Done rows) ;;
               ser <-- serialize_datatype ts t ;;
               match ser with
               | inr _ => Undef UUninit
               | inl def => Done (if open then type_rows_add rows1 i (c_name c) def else rows1)
               end
           end
  end.
(** retain.c:224-256 [ret_add_tag]: new tables and the new ret_file_pointer *)
Definition ret_add_tag (ts : list cdt) (r : rdb) (t : tag) : run (rdb * Z) :=
  ty <-- (if is_custom (t_type t) then ret_add_type (S (length ts)) ts (r_open r) (t_type t) (r_types r)
          else Done (r_types r)) ;;
  if negb (r_open r) then Done (mk_rdb (r_open r) (r_rows r) (r_next r) ty, t_retid t)
  else
    match t_name t with
    | None => Undef UNull
    | Some nm =>
        let tn := match cdt_get_name ts (t_type t) with Some x => x | None => str "(null)" end in
        if existsb (fun row => name_eqb (rr_name row) nm) (r_rows r)      (* UNIQUE violated: -1 *)
        then Done (mk_rdb (r_open r) (r_rows r) (r_next r) ty, t_retid t)
        else Done (mk_rdb (r_open r) (r_rows r ++ [mk_row (r_next r) nm tn (t_count t) None]) (r_next r + 1) ty,
                   r_next r)
    end.
(** retain.c:266-281 [ret_tag_write] *)
Definition ret_tag_write (ts : list cdt) (r : rdb) (t : tag) : run rdb :=
  if negb (r_open r) then Done r
  else
    sz <-- raw_size ts t ;;
    match t_data t with
    | DBytes b =>
        x <-- rd b 0 sz ;;
        Done (mk_rdb (r_open r)
               (map (fun row => if rr_id row =? t_retid t
                                then mk_row (rr_id row) (rr_name row) (rr_type row) (rr_count row) (Some x)
                                else row) (r_rows r))
               (r_next r) (r_types r))
    | _ => Undef UOob
    end.

(** ** Reading and writing *)
(** virtualtag.c:142-183 [special_tag_write], [special_tag_mask_write] (identical).
    The module tag type is the first type created: 0x80000000. *)
Definition module_type : Z := T_CUSTOM.
Definition special_write (s : server) (fd idx : Z) (t : tag) (off size : Z) : Z :=
  if t_type t =? module_type then
    if (off =? 77) && (size =? 1) then 0
    else match find_mod s fd with
         | None => E_NOTFOUND
         | Some m => if negb (m_tagidx m =? idx) then E_READONLY
                     else if off <? 12 then E_READONLY else 0
         end
  else 0.

(** the common tail of tag_write (814-820), tag_mask_write (857-863) and atomic_op (417-420):
    the new data block is in place; check the events, update the retention file *)
Definition commit (E : env) (idx : Z) (t : tag) (b : list Z) (off size : Z) : SM unit :=
  fun s =>
    r <-- check_events E (s_mods s) idx b off size (t_events t) ;;
    let t' := set_events (set_data t (DBytes b)) (fst r) in
    let s1 := set_out (set_tag s idx t') (s_out s ++ snd r) in
    if has (t_attr t) A_RETAIN then
      x <-- ret_tag_write (s_types s) (s_ret s) t' ;; Done (set_ret s1 x, tt)
    else Done (s1, tt).

(** virtualtag.c:77-113 [write_queue] *)
Definition grow_slots (E : env) (step : Z) (q : queue) : list slot :=
  let n := zlen (q_slots q) in
  let junk := map (fun p => if en_qnull E step p then SNull else SWild) (zseq n n) in
  if 0 <? q_read q
  then q_slots q ++ firstn (Z.to_nat (q_read q)) (q_slots q) ++ skipn (Z.to_nat (q_read q)) junk
  else q_slots q ++ junk.
Definition queue_write (E : env) (step : Z) (q : queue) (d : list Z) : run queue :=
  let slots := if q_count q =? zlen (q_slots q) then grow_slots E step q else q_slots q in
  let next := (q_read q + q_count q) mod zlen slots in
  match znth slots next with
  | None => Undef UOob
  | Some SWild => Undef UUninit
  | Some SNull => Done (mk_q (q_size q) (zset slots next (SBlk (zlen (q_blocks q)))) (q_blocks q ++ [d])
                             (q_count q + 1) (q_read q))
  | Some (SBlk k) => Done (mk_q (q_size q) slots (zset (q_blocks q) k d) (q_count q + 1) (q_read q))
  end.
(** virtualtag.c:115-130 [read_queue]: new queue and the bytes copied, None = ERR_EMPTY *)
Definition queue_read (q : queue) : run (option (queue * list Z)) :=
  if q_count q =? 0 then Done None
  else match znth (q_slots q) (q_read q) with
       | Some (SBlk k) =>
           match znth (q_blocks q) k with
           | Some d =>
               let rd' := if q_read q + 1 =? zlen (q_slots q) then 0 else q_read q + 1 in
               Done (Some (mk_q (q_size q) (q_slots q) (q_blocks q) (q_count q - 1) rd', d))
           | None => Undef UOob
           end
       | Some SNull => Undef UNull
       | Some SWild => Undef UUninit
       | None => Undef UOob
       end.
(** tagbase.c:289-326 [_queue_add]: START_QUEUE_SIZE = 16 *)
Definition new_queue (size : Z) : queue := mk_q size (repeat SNull 16) [] 0 0.

(** tagbase.c:782-822 [tag_write]: size = length of the data *)
Definition tag_write (E : env) (fd idx off : Z) (d : list Z) : SM Z :=
  fun s =>
    match znth (s_db s) idx with
    | None => Done (s, E_ARG)
    | Some t =>
        if has (t_attr t) A_VIRTUAL then
          match t_data t with
          | DQueue q =>
              if negb (off =? 0) || negb (zlen d =? q_size q) then Done (s, E_ILLEGAL)
              else
                q' <-- queue_write E (s_step s) q d ;;
                (* event_check: the data pointer is a virt_functions, no data block *)
                r <-- check_events E (s_mods s) idx [] off (zlen d) (t_events t) ;;
                Done (set_out (set_tag s idx (set_events (set_data t (DQueue q')) (fst r))) (s_out s ++ snd r), 0)
          | DTime | DMyName => Done (s, E_READONLY)
          | DNull => Undef UNull
          | DBytes _ | DBad => Undef UUninit
          end
        else if negb (fits32 (off + zlen d)) then Undef UOverflow
        else
          sz <-- tag_size (s_types s) t ;;
          if sz <? off + zlen d then Done (s, E_2BIG)
          else match t_data t with
               | DNull => Done (s, E_DELETED)
               | DBytes b =>
                   let sp := if has (t_attr t) A_SPECIAL then special_write s fd idx t off (zlen d) else 0 in
                   if negb (sp =? 0) then Done (s, sp)
                   else if negb (in_bounds off (zlen d) (zlen b)) then Undef UOob
                   else match commit E idx t (splice off d b) off (zlen d) s with
                        | Done (s', _) => Done (s', 0)
                        | Undef u => Undef u
                        end
               | _ => Undef UOob
               end
    end.

(** (new & mask) | (old & ~mask), byte by byte (tagbase.c:854-856) *)
Fixpoint mix (old new mask : list Z) : list Z :=
  match old, new, mask with
  | o :: old', n :: new', m :: mask' => Z.lor (Z.land n m) (Z.land o (bnot m)) :: mix old' new' mask'
  | _, _, _ => []
  end.

(** tagbase.c:824-864 [tag_mask_write]; data and mask have the same length *)
Definition tag_mask_write (E : env) (fd idx off : Z) (d m : list Z) : SM Z :=
  fun s =>
    a <-- attr_at E s idx ;;
    if has a A_VIRTUAL then Done (s, E_ILLEGAL)
    else match znth (s_db s) idx with
         | None => Done (s, E_ARG)
         | Some t =>
             if negb (fits32 (off + zlen d)) then Undef UOverflow
             else
               sz <-- tag_size (s_types s) t ;;
               if sz <? off + zlen d then Done (s, E_2BIG)
               else match t_data t with
                    | DNull => Done (s, E_DELETED)
                    | DBytes b =>
                        let sp := if has (t_attr t) A_SPECIAL then special_write s fd idx t off (zlen d) else 0 in
                        if negb (sp =? 0) then Done (s, sp)
                        else if negb (in_bounds off (zlen d) (zlen b)) || (zlen m <? zlen d) then Undef UOob
                        else match commit E idx t (splice off (mix (slice off (zlen d) b) d m) b) off (zlen d) s with
                             | Done (s', _) => Done (s', 0)
                             | Undef u => Undef u
                             end
                    | _ => Undef UOob
                    end
         end.

(** tagbase.c:735-780 [tag_read].  [cap]: room in the caller's buffer.
    inl = the bytes copied to the buffer, inr = error code *)
Definition tag_read (E : env) (fd idx off size cap : Z) : SM (list Z + Z) :=
  fun s =>
    match znth (s_db s) idx with
    | None => Done (s, inr E_ARG)
    | Some t =>
        if has (t_attr t) A_VIRTUAL then
          match t_data t with
          | DQueue q =>
              r <-- queue_read q ;;
              match r with
              | None => Done (s, inr E_EMPTY)
              | Some (q', d) => if cap <? zlen d then Undef UOob
                                else Done (set_tag s idx (set_data t (DQueue q')), inl d)
              end
          | DTime =>                                            (* virtualtag.c:51-59 server_time *)
              if in_bounds 0 size 8 && (size <=? cap)
              then Done (s, inl (slice 0 size (le_bytes 8 (s_now s)))) else Undef UOob
          | DMyName =>                                          (* virtualtag.c:61-74 *)
              match find_mod s fd with
              | None => Done (s, inr E_NOTFOUND)
              | Some m =>
                  if m_tagidx m =? 0 then Done (s, inr E_NOTFOUND)
                  else match znth (s_db s) (m_tagidx m) with
                       | None => Done (s, inr E_ARG)
                       | Some mt =>
                           match t_data mt, t_name mt with
                           | DNull, _ => Done (s, inr E_DELETED)
                           | _, None => Undef UNull
                           | _, Some nm =>
                               if cap <? Z.max 32 (zlen nm + 1) then Undef UOob
                               else Done (s, inl (splice 0 (nm ++ [0]) (zeros 32)))
                           end
                       end
              end
          | DNull => Undef UNull
          | DBytes _ | DBad => Undef UUninit
          end
        else if negb (fits32 (off + size)) then Undef UOverflow
        else
          sz <-- tag_size (s_types s) t ;;
          if sz <? off + size then Done (s, inr E_2BIG)
          else match t_data t with
               | DNull => Done (s, inr E_DELETED)
               | DBytes b =>
                   if negb (in_bounds off size (zlen b)) || (cap <? size) then Undef UOob
                   else if has (t_attr t) A_OVR_SET then
                     match t_odata t, t_omask t with
                     | Some od, Some om =>
                         o <-- rd od off size ;; m <-- rd om off size ;;
                         Done (s, inl (mix (slice off size b) o m))
                     | _, _ => if size =? 0 then Done (s, inl []) else Undef UNull
                     end
                   else Done (s, inl (slice off size b))
               | _ => Undef UOob
               end
    end.

(** ** Tags *)
(** writes to the system tags; the C code tests only [data != NULL] and ignores the result *)
Definition sys_write (E : env) (i : Z) (d : list Z) : SM unit :=
  fun s => match znth (s_db s) i with
           | Some t => match t_data t with
                       | DNull => Done (s, tt)
                       | _ => match tag_write E (-1) i 0 d s with Done (s', _) => Done (s', tt) | Undef u => Undef u end
                       end
           | None => Done (s, tt)
           end.
Definition IX_TAGCOUNT := 0. Definition IX_LASTINDEX := 1. Definition IX_ADDED := 2. Definition IX_DELETED := 3.
Definition IX_DBSIZE := 4. Definition IX_STARTED := 5. Definition IX_LASTMODULE := 6.
Definition IX_OVI := 7. Definition IX_OVS := 8.

(** tagbase.c:431-445 [_set_attribute] *)
Definition set_attribute (E : env) (idx attr : Z) : SM unit :=
  fun s =>
    match znth (s_db s) idx with
    | None => Undef UOob
    | Some t =>
        if has attr A_RETAIN then
          x <-- ret_add_tag (s_types s) (s_ret s) t ;;
          Done (set_ret (set_tag s idx (set_attr (set_retid t (snd x)) (set_flag (t_attr t) A_RETAIN))) (fst x), tt)
        else if has attr A_OWNED && has attr A_READONLY then
          Done (set_tag s idx (set_attr t (set_flag (t_attr t) (A_OWNED + A_READONLY))), tt)
        else if has attr A_OWNED then
          Done (set_tag s idx (set_attr t (set_flag (t_attr t) A_OWNED)), tt)
        else Done (s, tt)
    end.

(** the 47-byte tag description (tagbase.c:564-571, 623-630).  33 bytes are copied from the name,
    whatever follows its terminator included.  (The memset of 48 bytes over the 47-byte array is
    one byte too long; it hits padding and is not modelled.) *)
Definition tag_desc (E : env) (step idx type count attr : Z) (nm : name) : list Z :=
  le_bytes 4 idx ++ le_bytes 4 type ++ le_bytes 4 count ++ le_bytes 2 attr ++
  firstn 33 (nm ++ [0] ++ jbytes E step 0 33).

(** tagbase.c:497-500 size in bytes of a new tag (unsigned int) *)
Definition new_size (ts : list cdt) (type count : Z) : run Z :=
  if type =? T_BOOL then Done (count / 8 + 1)
  else sz <-- type_size ts type ;; Done (u32 (sz * count)).

(** xrealloc of the data block (tagbase.c:515): grown bytes are uninitialised; realloc(p, 0)
    frees the block and returns NULL *)
Definition regrow (E : env) (step : Z) (d : tdata) (size : Z) : tdata * bool :=
  if size =? 0 then (DBad, false)
  else match d with
       | DBytes b => (DBytes (firstn (Z.to_nat size) b ++ jbytes E step 100 (size - zlen b)), true)
       | DQueue q => if size <? 24 then (DBad, true) else (DQueue q, true)
       | d => (d, true)
       end.

(** tagbase.c:447-578 [tag_add] *)
Definition tag_add (E : env) (fd : Z) (nm : name) (type count attr : Z) : SM Z :=
  if count =? 0 then ret E_ARG
  else
    s0 <- get ;;
    (if s_dbsize s0 <=? zlen (s_db s0) then put (set_dbsize s0 (s_dbsize s0 * 2)) else ret tt) ;;;
    s <- get ;;
    if negb (checktype (s_types s) type) then ret E_BADTYPE
    else if negb (validate_name nm =? 0) then ret E_TAG_BAD
    else
      size <- lift (new_size (s_types s) type count) ;;
      n <- lift (get_by_name (s_index s) nm) ;;
      if 0 <=? n then
        t <- tag_at n ;;
        if has (t_attr t) A_OWNED && negb (t_fd t =? fd) then ret E_TAG_DUPL
        else if t_type t =? type then
          if count <=? t_count t then set_attribute E n attr ;;; ret n
          else
            let '(d, ok) := regrow E (s_step s) (t_data t) size in
            if ok then
              put_tag n (set_count (set_data t d) count) ;;;
              set_attribute E n attr ;;;
              tag_write E (-1) IX_ADDED 0 (le_bytes 4 n) ;;;
              ret n
            else put_tag n (set_data t d) ;;; ret E_ALLOC
        else ret E_TAG_DUPL
      else
        let idx := zlen (s_db s) in
        ix <- lift (add_index (s_index s) nm idx) ;;
        sys_write E IX_LASTINDEX (le_bytes 4 idx) ;;;
        modify (fun s =>
          let attr0 := fresh_attr E idx in
          let t := mk_tag type (if is_queue type then set_flag attr0 A_VIRTUAL else attr0) count (Some nm) fd 1 1 []
                     (if (idx <? 1024) || en_maps0 E idx then Some [] else None)
                     (if is_queue type then DQueue (new_queue (s32 size)) else DBytes (zeros size))
                     None None (if idx <? 1024 then 0 else u32 (en_retid E idx)) in
          set_tagcount (set_index (set_db s (s_db s ++ [t])) ix) (s_tagcount s + 1)) ;;;
        s1 <- get ;;
        sys_write E IX_TAGCOUNT (le_bytes 4 (s_tagcount s1)) ;;;
        set_attribute E idx attr ;;;
        tag_write E (-1) IX_ADDED 0 (tag_desc E (s_step s) idx type count (u16 attr) nm) ;;;
        ret idx.

(** tagbase.c:592-649 [tag_del] *)
Definition data_block (d : tdata) : option (list Z) := match d with DBytes b => Some b | _ => None end.
Definition tag_del (E : env) (idx : Z) : SM Z :=
  s <- get ;;
  match znth (s_db s) idx with
  | None => ret E_ARG
  | Some t =>
      match t_data t, t_name t, t_maps t with
      | DNull, _, _ => ret E_DELETED
      | _, None, _ => undef UNull
      | _, _, None => undef UUninit                        (* map_del_all on a garbage pointer *)
      | d, Some nm, Some _ =>
          o <- lift (del_events (s_mods s) idx (data_block d) (t_events t)) ;;
          emit o ;;;
          put_tag idx (set_maps (set_events t []) (Some [])) ;;;
          ix <- lift (del_index (s_index s) nm) ;;
          modify (fun s => set_index s ix) ;;;
          tag_write E (-1) IX_DELETED 0 (tag_desc E (s_step s) idx (t_type t) (t_count t) (u16 (t_attr t)) nm) ;;;
          t1 <- tag_at idx ;;
          put_tag idx (set_attr (set_data (set_name t1 None) DNull) 0) ;;;
          modify (fun s => set_tagcount s (s_tagcount s - 1)) ;;;
          s2 <- get ;;
          sys_write E IX_TAGCOUNT (le_bytes 4 (s_tagcount s2)) ;;;
          ret 0
      end
  end.

(** tagbase.c:651-695 [tag_get_name], [tag_get_index]: (index, type, count, attr, name) or error *)
Definition tag_info := (Z * Z * Z * Z * name)%type.
Definition info_at (s : server) (i : Z) : run (tag_info + Z) :=
  match znth (s_db s) i with
  | None => Undef UOob
  | Some t => match t_data t, t_name t with
              | DNull, _ => Done (inr E_DELETED)
              | _, None => Undef UNull
              | _, Some nm => Done (inl (i, t_type t, t_count t, t_attr t, nm))
              end
  end.
Definition tag_get_name (s : server) (n : name) : run (tag_info + Z) :=
  i <-- get_by_name (s_index s) n ;;
  if i <? 0 then Done (inr E_NOTFOUND) else info_at s i.
Definition tag_get_index (s : server) (i : Z) : run (tag_info + Z) :=
  if (i <? 0) || (zlen (s_db s) <=? i) then Done (inr E_ARG) else info_at s i.

(** ** Overrides: tagbase.c:1218-1344 *)
Definition is_none {A} (o : option A) : bool := match o with None => true | _ => false end.
Definition override_add (E : env) (idx off : Z) (d m : list Z) : SM Z :=
  s <- get ;;
  match znth (s_db s) idx with
  | None => ret E_ARG
  | Some t =>
      match t_data t with
      | DNull => ret E_DELETED
      | _ =>
          tsz <- lift (raw_size (s_types s) t) ;;
          let size := zlen d in
          let fresh pos := zeros size ++ jbytes E (s_step s) pos (tsz - size) in
          (match t_odata t with
           | None => if (0 <=? tsz) && (tsz <? size) then undef UOob       (* bzero(odata, size) *)
                     else if tsz <? 0 then ret tt
                     else put_tag idx (set_ovr t (Some (fresh 200)) (Some (fresh 300)))
           | Some _ => ret tt
           end) ;;;
          if (tsz <? 0) && is_none (t_odata t) then ret E_ALLOC            (* malloc(huge) *)
          else if negb (fits32 (off + size)) then undef UOverflow
          else if tsz <? off + size then ret E_2BIG
          else
            t1 <- tag_at idx ;;
            match t_odata t1, t_omask t1 with
            | Some od, Some om =>
                if negb (in_bounds off size (zlen od)) || negb (in_bounds off size (zlen om)) then undef UOob
                else
                  put_tag idx (set_ovr t1 (Some (splice off m om)) (Some (splice off d od))) ;;;
                  (if negb (has (t_attr t1) A_OVERRIDE) then
                     modify (fun s => set_ovi s (s_ovi s + 1)) ;;;
                     s1 <- get ;;
                     sys_write E IX_OVI (le_bytes 4 (s_ovi s1))
                   else ret tt) ;;;
                  t2 <- tag_at idx ;;
                  put_tag idx (set_attr t2 (set_flag (t_attr t2) A_OVERRIDE)) ;;;
                  ret 0
            | _, _ => undef UNull
            end
      end
  end.

Definition override_del (E : env) (idx off : Z) (m : list Z) : SM Z :=
  s <- get ;;
  match znth (s_db s) idx with
  | None => ret E_ARG
  | Some t =>
      match t_data t with
      | DNull => ret E_DELETED
      | _ =>
          tsz <- lift (raw_size (s_types s) t) ;;
          match t_odata t with
          | None => ret E_GENERIC
          | Some od =>
              match t_omask t with
              | None => undef UNull
              | Some om =>
                  let size := zlen m in
                  if (0 <? size) && (negb (in_bounds off size (zlen od)) || negb (in_bounds off size (zlen om)))
                  then undef UOob
                  else
                    let clr l := splice off (mix (slice off size l) (zeros size) m) l in
                    let om' := if 0 <? size then clr om else om in
                    let od' := if 0 <? size then clr od else od in
                    put_tag idx (set_ovr t (Some om') (Some od')) ;;;
                    if existsb (fun x => negb (x =? 0)) (firstn (Z.to_nat tsz) om') then ret 0
                    else if zlen om' <? tsz then undef UOob
                    else
                      put_tag idx (set_attr (set_ovr t (Some om') (Some od'))
                                            (clr_flag (t_attr t) (A_OVERRIDE + A_OVR_SET))) ;;;
                      modify (fun s => set_ovi s (s_ovi s - 1)) ;;;
                      s1 <- get ;;
                      sys_write E IX_OVI (le_bytes 4 (s_ovi s1)) ;;;
                      t2 <- tag_at idx ;;
                      put_tag idx (set_ovr t2 None None) ;;;
                      ret 0
              end
          end
      end
  end.

(** tagbase.c:1300-1315 [override_get] copies the tag's data (not the override data), from
    offset 0.  inl = (data, mask) *)
Definition override_get (idx off size : Z) : SM ((list Z * list Z) + Z) :=
  s <- get ;;
  match znth (s_db s) idx with
  | None => ret (inr E_ARG)
  | Some t =>
      match t_data t with
      | DNull => ret (inr E_DELETED)
      | d =>
          tsz <- lift (raw_size (s_types s) t) ;;
          if negb (fits32 (off + size)) then undef UOverflow
          else if tsz <? off + size then ret (inr E_2BIG)
          else if size =? 0 then ret (inl ([], []))
          else if (size <? 0) || (MSG_DATA_SIZE <? 2 * size) then undef UOob
          else match d, t_omask t with
               | DBytes b, Some om => x <- lift (rd b 0 size) ;; y <- lift (rd om 0 size) ;; ret (inl (x, y))
               | DBytes _, None => undef UNull
               | _, _ => undef UOob
               end
      end
  end.

Definition override_set (E : env) (idx flag : Z) : SM Z :=
  s <- get ;;
  match znth (s_db s) idx with
  | None => ret E_ARG
  | Some t =>
      match t_data t with
      | DNull => ret E_DELETED
      | _ =>
          if negb (flag =? 0) then
            match t_odata t with
            | None => ret E_ILLEGAL
            | Some _ =>
                if has (t_attr t) A_OVR_SET then ret 0
                else
                  modify (fun s => set_ovs s (s_ovs s + 1)) ;;;
                  s1 <- get ;; sys_write E IX_OVS (le_bytes 4 (s_ovs s1)) ;;;
                  t2 <- tag_at idx ;;
                  put_tag idx (set_attr t2 (set_flag (t_attr t2) A_OVR_SET)) ;;; ret 0
            end
          else if has (t_attr t) A_OVR_SET then
            modify (fun s => set_ovs s (s_ovs s - 1)) ;;;
            s1 <- get ;; sys_write E IX_OVS (le_bytes 4 (s_ovs s1)) ;;;
            t2 <- tag_at idx ;;
            put_tag idx (set_attr t2 (clr_flag (t_attr t2) A_OVR_SET)) ;;; ret 0
          else ret 0
      end
  end.

(** ** Events *)
(** events.c:573-648 [event_add] *)
Definition event_add (E : env) (h : handle) (etype : Z) (udata : list Z) (m : module) : SM Z :=
  s <- get ;;
  match znth (s_db s) (h_index h) with
  | None => ret E_ARG
  | Some t =>
      if has (t_attr t) A_VIRTUAL && negb (is_queue (t_type t)) then ret E_ILLEGAL
      else if is_queue (t_type t) then
        if negb (h_byte h =? 0) || negb (etype =? EV_WRITE) then ret E_ILLEGAL
        else undef UOob                                    (* tag_get_size(type): _db[type] *)
      else
        sz <- lift (tag_size (s_types s) t) ;;
        if u32 sz <? u32 (h_byte h + h_size h) then ret E_2BIG
        else if negb (verify_event_type (h_type h) etype) then ret E_ARG
        else
          x <- lift (set_event_data E (s_step s) (s_types s) etype (h_type h) (s32 (h_count h)) (s32 (h_byte h))
                       (t_data t) udata) ;;
          let e := mk_ev (t_nextev t) (s32 (h_byte h)) (h_bit h) (s32 (h_count h)) (h_size h) 0 (h_type h) etype
                         (fst x) (snd x) (m_uid m) in
          let a := match t_events t with [] => set_flag (t_attr t) A_EVENT | _ => t_attr t end in
          put_tag (h_index h) (set_attr (set_nextev (set_events t (e :: t_events t)) (t_nextev t + 1)) a) ;;;
          modify (upd_mod (m_uid m) (fun m => set_evcount m (m_evcount m + 1))) ;;;
          ret (t_nextev t)
  end.

Fixpoint remove_ev (id : Z) (l : list event) : list event :=
  match l with [] => [] | e :: r => if e_id e =? id then r else e :: remove_ev id r end.

(** events.c:673-716 [event_del].  Deleting the first event of the list reads the freed node
    (line 696) and reports ERR_NOTFOUND although the event is gone. *)
Definition event_del (E : env) (idx id : Z) (mo : option module) : SM Z :=
  s <- get ;;
  match znth (s_db s) idx with
  | None => ret E_2BIG
  | Some t =>
      let owner e := match mo with Some m => e_mod e =? m_uid m | None => false end in
      let finish evs res :=
        let a := match evs with [] => clr_flag (t_attr t) A_EVENT | _ => t_attr t end in
        put_tag idx (set_attr (set_events t evs) a) ;;;
        match mo with
        | None => undef UNull                                  (* module->event_count-- *)
        | Some m => modify (upd_mod (m_uid m) (fun m => set_evcount m (m_evcount m - 1))) ;;; ret res
        end in
      match t_events t with
      | [] => ret E_NOTFOUND
      | e :: r =>
          if e_id e =? id then
            if negb (owner e) then ret E_AUTH
            else if en_strict E then undef UUaf
            else if existsb (fun x => e_id x =? id) r then undef UUaf
            else finish r E_NOTFOUND
          else
            match find (fun x => e_id x =? id) r with
            | Some x => if negb (owner x) then ret E_AUTH else finish (e :: remove_ev id r) 0
            | None => finish (e :: r) E_NOTFOUND
            end
      end
  end.

(** events.c:659-671, 731-753 [event_opt] *)
Definition event_opt (idx id opts : Z) (mo : option module) : SM Z :=
  s <- get ;;
  match znth (s_db s) idx with
  | None => ret E_2BIG
  | Some t =>
      match find (fun x => e_id x =? id) (t_events t) with
      | None => ret E_NOTFOUND
      | Some e =>
          if match mo with Some m => e_mod e =? m_uid m | None => false end then
            put_tag idx (set_events t
              ((fix go l := match l with [] => [] | x :: r => if e_id x =? id then set_opts x opts :: r else x :: go r end)
                 (t_events t))) ;;; ret 0
          else ret E_AUTH
      end
  end.

(** events.c:756-778 [events_cleanup].  The walk continues from freed nodes. *)
Fixpoint cleanup_tag (E : env) (n : Z) (uid : Z) (snapshot : list event) : SM unit :=
  match snapshot with
  | [] => ret tt
  | e :: r =>
      (if e_mod e =? uid then
         if en_strict E then undef UUaf
         else s <- get ;; event_del E n (e_id e) (mod_by_uid (s_mods s) uid) ;;; ret tt
       else ret tt) ;;;
      cleanup_tag E n uid r
  end.
Fixpoint cleanup_loop (E : env) (k : nat) (uid : Z) : SM unit :=
  match k with
  | O => ret tt
  | S n =>
      s <- get ;;
      match mod_by_uid (s_mods s) uid with
      | None => ret tt
      | Some m =>
          if 0 <? m_evcount m then
            t <- tag_at (Z.of_nat n) ;;
            cleanup_tag E (Z.of_nat n) uid (t_events t) ;;;
            cleanup_loop E n uid
          else ret tt
      end
  end.

(** ** Mapping: mapping.c *)
Definition handle_eqb (a b : handle) : bool :=
  (h_index a =? h_index b) && (h_type a =? h_type b) && (h_count a =? h_count b) &&
  (h_byte a =? h_byte b) && (h_bit a =? h_bit b) && (h_size a =? h_size b).

(** mapping.c:124-135: set [n] bits from [bit] on in a block *)
Fixpoint mask_loop (n : nat) (bit off : Z) (mask : list Z) : run (list Z) :=
  match n with
  | O => Done mask
  | S k =>
      v <-- bmask bit ;;
      match znth mask off with
      | None => Undef UOob
      | Some x =>
          let mask' := zset mask off (Z.lor x v) in
          if bit + 1 =? 8 then mask_loop k 0 (off + 1) mask' else mask_loop k (bit + 1) off mask'
      end
  end.

(** mapping.c:63-143 [map_add] *)
Definition map_add (src dst : handle) : SM Z :=
  s <- get ;;
  match znth (s_db s) (h_index src), znth (s_db s) (h_index dst) with
  | Some ts, Some td =>
      if has (t_attr ts) A_VIRTUAL || has (t_attr td) A_VIRTUAL then ret E_ILLEGAL
      else if has (t_attr td) A_READONLY then ret E_READONLY
      else
        ss <- lift (tag_size (s_types s) ts) ;;
        if u32 ss <? u32 (h_byte src + h_size src) then ret E_2BIG
        else
          sd <- lift (tag_size (s_types s) td) ;;
          if u32 sd <? u32 (h_byte dst + h_size dst) then ret E_2BIG
          else if h_size dst <? h_size src then ret E_2BIG
          else match t_maps ts with
               | None => undef UUninit
               | Some maps =>
                   match find (fun m => handle_eqb src (m_src m) && handle_eqb dst (m_dst m)) maps with
                   | Some m => ret (m_id m)
                   | None =>
                       mask <- lift (if h_type src =? T_BOOL
                                     then x <-- mask_loop (Z.to_nat (h_count src)) (h_bit dst) 0 (zeros (h_size src)) ;; Done (Some x)
                                     else Done None) ;;
                       put_tag (h_index src)
                         (set_attr (set_nextmap (set_maps ts (Some (mk_map (t_nextmap ts) src dst mask :: maps))) (t_nextmap ts + 1))
                                   (set_flag (t_attr ts) A_MAPPING)) ;;;
                       ret (t_nextmap ts)
                   end
               end
  | _, _ => ret E_ARG
  end.

(** the part of a list after the first element satisfying p *)
Fixpoint after {A} (p : A -> bool) (l : list A) : option (list A) :=
  match l with [] => None | x :: r => if p x then Some r else after p r end.
(** mapping.c:146-175 [map_del].  [prev] stays at the first node, so whatever lies between it and
    the deleted node is unlinked as well. *)
Definition map_del (idx id : Z) : SM Z :=
  s <- get ;;
  match znth (s_db s) idx with
  | None => ret E_ARG
  | Some t =>
      match t_maps t with
      | None => undef UUninit
      | Some [] => undef UNull
      | Some (m :: r) =>
          if m_id m =? id then put_tag idx (set_maps t (Some r)) ;;; ret 0
          else match after (fun x => m_id x =? id) r with
               | Some rest => put_tag idx (set_maps t (Some (m :: rest))) ;;; ret 0
               | None => ret E_NOTFOUND
               end
      end
  end.

(** mapping.c:177-195 [map_get] *)
Definition map_get (s : server) (idx id : Z) : run ((handle * handle) + Z) :=
  match znth (s_db s) idx with
  | None => Done (inr E_ARG)
  | Some t =>
      match t_maps t with
      | None => Undef UUninit
      | Some maps => match find (fun m => m_id m =? id) maps with
                     | Some m => Done (inl (m_src m, m_dst m))
                     | None => Done (inr E_NOTFOUND)
                     end
      end
  end.

(** mapping.c:232-256: move the source bits to the destination's bit position *)
Fixpoint shift_bits (n : nat) (sbyte sbit dbyte dbit : Z) (src : list Z) (base : Z) (acc : list Z) : run (list Z) :=
  match n with
  | O => Done acc
  | S k =>
      ms <-- bmask sbit ;; md <-- bmask dbit ;;
      match znth src (base + sbyte), (if Z.land (nthb src (base + sbyte)) ms =? 0 then Some 0 else znth acc dbyte) with
      | Some x, Some y =>
          let acc' := if Z.land x ms =? 0 then acc else zset acc dbyte (Z.lor y md) in
          let '(sbit', sbyte') := if sbit + 1 =? 8 then (0, sbyte + 1) else (sbit + 1, sbyte) in
          let '(dbit', dbyte') := if dbit + 1 =? 8 then (0, dbyte + 1) else (dbit + 1, dbyte) in
          shift_bits k sbyte' sbit' dbyte' dbit' src base acc'
      | _, _ => Undef UOob
      end
  end.

(** mapping.c:226 *)
Definition map_overlap (m : dmap) (off wsize : Z) : bool :=
  (u32 off <=? u32 (h_byte (m_src m) + h_size (m_src m) - 1)) && (h_byte (m_src m) <=? u32 (off + wsize - 1)).

Definition areas_overlap (o1 n1 o2 n2 : Z) : bool :=
  (0 <? n1) && (0 <? n2) && (o1 <? o2 + n2) && (o2 <? o1 + n1).

(** one iteration of the loop of [map_check] (mapping.c:224-273) *)
Definition map_fire (E : env) (m : dmap) : SM unit :=
  let src := m_src m in
  let dst := m_dst m in
  t <- tag_at (h_index src) ;;
  match t_data t with
  | DBytes b =>
      r <- (match m_mask m with
            | Some mask =>
                nd <- lift (shift_bits (Z.to_nat (h_count src)) 0 (h_bit src) 0 (h_bit dst) b (h_byte src) (zeros (h_size src))) ;;
                tag_mask_write E (-1) (h_index dst) (s32 (h_byte dst)) nd mask
            | None =>
                d <- lift (rd b (h_byte src) (h_size src)) ;;
                if (h_index src =? h_index dst) && areas_overlap (h_byte src) (h_size src) (h_byte dst) (h_size src)
                then undef UOverlap
                else tag_write E (-1) (h_index dst) (s32 (h_byte dst)) d
            end) ;;
      if r =? E_DELETED then
        map_del (h_index src) (m_id m) ;;;
        (if en_strict E then undef UUaf else ret tt)          (* this = this->next on the freed node *)
      else ret tt
  | DNull => undef UNull
  | _ => undef UOob
  end.
Fixpoint map_loop (E : env) (maps : list dmap) (off wsize : Z) : SM unit :=
  match maps with
  | [] => ret tt
  | m :: r => (if map_overlap m off wsize then map_fire E m else ret tt) ;;; map_loop E r off wsize
  end.
(** mapping.c:211-275 [map_check] *)
Definition map_check (E : env) (idx off wsize : Z) : SM unit :=
  t <- tag_at idx ;;
  match t_maps t with
  | None => undef UUninit
  | Some maps => map_loop E maps off wsize
  end.

(** ** Groups: groups.c *)
Definition empty_group : group := mk_g false [].
Definition resize_groups (g : list group) (n : Z) : list group :=
  firstn (Z.to_nat n) g ++ repeat empty_group (Z.to_nat n - length g).
(** position of the first empty group among the first [n] *)
Fixpoint first_empty (g : list group) (n : nat) (i : Z) : option Z :=
  match n, g with
  | O, _ => None
  | S _, [] => None
  | S k, x :: r => if g_live x then first_empty r k (i + 1) else Some i
  end.
(** groups.c:37-71 [_group_add]: groups array, groups_size, slot or error *)
Definition group_slot (g : list group) (size : Z) : list group * Z * Z :=
  let '(g, size) := if size =? 0 then (repeat empty_group 16, 16) else (g, size) in
  match first_empty g (Z.to_nat size) 0 with
  | Some i => (g, size, i)
  | None =>
      let newsize := u32 (size * 2) in
      if 4096 <? newsize then (g, size, E_2BIG)
      else (firstn (Z.to_nat size) (resize_groups g newsize) ++ repeat empty_group (Z.to_nat (newsize - size)),
            newsize, size)
  end.
(** groups.c:94-104: running total of the member sizes; MSG_TAG_GROUP_DATA_SIZE is a size_t,
    so the int total is compared as an unsigned long *)
Fixpoint group_fits (l : list handle) (total : Z) : bool :=
  match l with
  | [] => true
  | h :: r => let t := s32 (total + h_size h) in
              if (t <? 0) || (MSG_GROUP_SIZE <? t) then false else group_fits r t
  end.
(** groups.c:73-112 [group_add] *)
Definition group_add (uid : Z) (m : module) (hs : list handle) : SM Z :=
  if 150 <? zlen hs then ret E_ARG
  else
    let '(g, size, i) := group_slot (m_groups m) (m_gsize m) in
    if i <? 0 then modify (upd_mod uid (fun m => set_groups m g size)) ;;; ret i
    else if group_fits hs 0 then
      modify (upd_mod uid (fun m => set_groups m (zset g i (mk_g true hs)) size)) ;;; ret i
    else modify (upd_mod uid (fun m => set_groups m g size)) ;;; ret E_2BIG.
(** groups.c:115-126 [group_del] *)
Definition group_del (uid : Z) (m : module) (i : Z) : SM Z :=
  match znth (m_groups m) i with
  | None => undef UOob
  | Some g => if g_live g then
                modify (upd_mod uid (fun m => set_groups m (zset (m_groups m) i empty_group) (u32 (m_gsize m - 1)))) ;;; ret 0
              else ret E_NOTFOUND
  end.
(** groups.c:128-144 [group_read]; the buffer has 4084 bytes.  The running offset is an int in C; here it does not wrap, which
    differs only for members of 2^31 bytes or more, possible only on queue tags *)
Fixpoint group_read_loop (E : env) (hs : list handle) (offset : Z) (buf : list Z) : SM (list Z + Z) :=
  match hs with
  | [] => ret (inl (firstn (Z.to_nat offset) buf))
  | h :: r =>
      x <- tag_read E (-1) (h_index h) (s32 (h_byte h)) (s32 (h_size h)) (MSG_GROUP_SIZE - offset) ;;
      match x with
      | inr e => ret (inr e)
      | inl d => group_read_loop E r (offset + h_size h) (splice offset d buf)
      end
  end.
Definition group_read (E : env) (m : module) (i : Z) : SM (list Z + Z) :=
  match znth (m_groups m) i with
  | None => undef UOob
  | Some g => if g_live g then s <- get ;; group_read_loop E (g_members g) 0 (jbytes E (s_step s) 0 MSG_GROUP_SIZE)
              else ret (inr E_NOTFOUND)
  end.
(** groups.c:146-161 [group_write]; result 0 or an error *)
Fixpoint group_write_loop (E : env) (hs : list handle) (offset : Z) (buf : list Z) : SM Z :=
  match hs with
  | [] => ret 0
  | h :: r =>
      x <- tag_write E (-1) (h_index h) (s32 (h_byte h)) (slice offset (h_size h) buf) ;;
      if negb (x =? 0) then ret x else group_write_loop E r (offset + h_size h) buf
  end.
Definition group_write (E : env) (m : module) (i : Z) (payload : list Z) : SM Z :=
  match znth (m_groups m) i with
  | None => undef UOob
  | Some g => if g_live g then
                s <- get ;;
                group_write_loop E (g_members g) 0
                  (payload ++ jbytes E (s_step s) (zlen payload) (MSG_GROUP_SIZE - zlen payload))
              else ret E_NOTFOUND
  end.

(** ** Modules: module.c *)
Definition del_owned (E : env) (fd : Z) (n : Z) : SM unit :=
  s <- get ;; if tag_owned s fd n then tag_del E n ;;; ret tt else ret tt.
Fixpoint del_owned_loop (E : env) (fd : Z) (k : nat) (n : Z) : SM unit :=
  match k with O => ret tt | S k' => del_owned E fd n ;;; del_owned_loop E fd k' (n + 1) end.
(** module.c:292-315 [module_unregister].  groups_cleanup only frees memory. *)
Definition module_unregister (E : env) (fd : Z) : SM unit :=
  s <- get ;;
  match find_mod s fd with
  | None => ret tt
  | Some m =>
      cleanup_loop E (length (s_db s)) (m_uid m) ;;;
      s1 <- get ;;
      del_owned_loop E fd (length (s_db s1)) 0 ;;;
      tag_del E (m_tagidx m) ;;;
      modify (fun s => set_mods s (filter (fun x => negb (m_uid x =? m_uid m)) (s_mods s)))
  end.

(** %0Nd *)
Definition pad_dec (w : nat) (n : Z) : name :=
  let d := dec_str n in repeat 48 (w - length d) ++ d.
(** module.c:250-266: the name of the module tag *)
Definition module_tagname (s : server) (nm : name) : run (name * Z) :=
  let base := str "_m" ++ firstn 30 nm in
  r <-- tag_get_name s base ;;
  match r with
  | inr _ => Done (base, s_moduuid s)
  | inl _ =>
      let w := if s_moduuid s <? 1000 then 3%nat else 5%nat in
      let x := if s_moduuid s <? 1000 then 29 else 27 in
      let nm' := firstn (Z.to_nat (Z.min (zlen base) x)) base ++ pad_dec w (s_moduuid s) in
      if 32 <? zlen nm' then Undef UOob else Done (nm', s_moduuid s + 1)
  end.

(** module.c:225-289 [module_register] *)
Definition module_register (E : env) (nm : name) (fd : Z) : SM unit :=
  s <- get ;;
  (match find_mod s fd with Some m => module_unregister E (m_fd m) | None => ret tt end) ;;;
  s <- get ;;
  let uid := s_nextuid s in
  put (set_nextuid (set_mods s (mk_mod uid nm fd 0 0 [] 0 :: s_mods s)) (uid + 1)) ;;;
  if existsb (fun x => name_eqb x nm) (en_excl E) then ret tt
  else
    s <- get ;;
    x <- lift (module_tagname s nm) ;;
    let '(tn, uuid) := x in
    modify (fun s => set_moduuid s uuid) ;;;
    s <- get ;;
    r <- tag_add E (-1) tn (cdt_get_type (s_types s) (str "_module")) 1 0 ;;
    if r <? 0 then undef UOob                          (* tag_set_attribute(negative): _db[-8].attr |= *)
    else
      modify (upd_mod uid (fun m => set_tagidx m r)) ;;;
      s <- get ;;
      tag_write E (-1) r 0 (le_bytes 8 (s_now s)) ;;;
      tag_write E (-1) r 8 (le_bytes 4 fd) ;;;
      t <- tag_at r ;;
      put_tag r (set_attr t (set_flag (t_attr t) A_SPECIAL)) ;;;
      tag_write E (-1) IX_LASTMODULE 0 (firstn 32 (tn ++ zeros 33)) ;;;
      ret tt.

(** ** Requests *)
Inductive op :=
| OpRegister (fd : Z) (nm : name)
| OpUnregMsg (fd : Z)                                   (* registration message of size 0 *)
| OpBadReg (fd : Z)                                     (* registration without CONNECT_SYNC *)
| OpDisconnect (fd : Z)
| OpTagAdd (fd : Z) (nm : name) (type count attr : Z)
| OpTagDel (fd idx : Z)
| OpTagGetName (fd : Z) (nm : name)
| OpTagGetIdx (fd idx : Z)
| OpTagList (fd : Z)
| OpRead (fd idx off size : Z)
| OpWrite (fd idx off : Z) (d : list Z)
| OpMask (fd idx off : Z) (d m : list Z)
| OpEvAdd (fd : Z) (h : handle) (etype : Z) (udata : list Z)
| OpEvDel (fd idx id : Z)
| OpEvGet (fd : Z)
| OpEvOpt (fd idx id opts : Z)
| OpCdtCreate (fd : Z) (def : name)
| OpCdtGetName (fd : Z) (nm : name)
| OpCdtGetType (fd type : Z)
| OpMapAdd (fd : Z) (src dst : handle)
| OpMapDel (fd idx id : Z)
| OpMapGet (fd idx id : Z)
| OpGrpAdd (fd : Z) (hs : list handle)
| OpGrpDel (fd i : Z)
| OpGrpRead (fd i : Z)
| OpGrpWrite (fd i : Z) (payload : list Z)
| OpGrpMwrite (fd : Z)
| OpAtomic (fd : Z) (h : handle) (opr : Z) (opnd : list Z)
| OpOvAdd (fd idx off : Z) (d m : list Z)
| OpOvDel (fd idx off : Z) (m : list Z)
| OpOvGet (fd idx off size : Z)
| OpOvSet (fd idx flag : Z)
| OpTick (now : Z).                                     (* time passes *)

(** message.c:90-121 [_message_send]: a payload of more than 4088 bytes is not sent at all *)
Definition respond (fd cmd : Z) (payload : list Z) : SM unit :=
  if MSG_DATA_SIZE <? zlen payload then ret tt else emit [OResp fd cmd payload].
Definition reply_err (fd cmd code : Z) : SM unit := emit [OErr fd cmd code].
(** result < 0 (or idx < 0): error, otherwise response carrying the int *)
Definition reply_int (fd cmd r : Z) : SM unit :=
  if r <? 0 then reply_err fd cmd r else respond fd cmd (le_bytes 4 r).
(** result != 0 / < 0: error, otherwise empty response *)
Definition reply_status (fd cmd r : Z) : SM unit :=
  if negb (r =? 0) then reply_err fd cmd r else respond fd cmd [].

Definition MSG_MOD_REG := 1. Definition MSG_TAG_ADD := 2. Definition MSG_TAG_DEL := 3. Definition MSG_TAG_GET := 4.
Definition MSG_TAG_READ := 6. Definition MSG_TAG_WRITE := 7. Definition MSG_TAG_MWRITE := 8.
Definition MSG_EVNT_ADD := 9. Definition MSG_EVNT_DEL := 10. Definition MSG_EVNT_OPT := 12.
Definition MSG_CDT_CREATE := 13. Definition MSG_CDT_GET := 14.
Definition MSG_MAP_ADD := 15. Definition MSG_MAP_DEL := 16. Definition MSG_MAP_GET := 17.
Definition MSG_GRP_ADD := 18. Definition MSG_GRP_DEL := 19. Definition MSG_GRP_READ := 20.
Definition MSG_GRP_WRITE := 21. Definition MSG_GRP_MWRITE := 22. Definition MSG_ATOMIC_OP := 23.
Definition MSG_ADD_OVRD := 24. Definition MSG_DEL_OVRD := 25. Definition MSG_GET_OVRD := 26. Definition MSG_SET_OVRD := 27.

Definition handle_bytes (h : handle) : list Z :=
  le_bytes 4 (h_index h) ++ le_bytes 4 (h_byte h) ++ [u8 (h_bit h)] ++ le_bytes 4 (h_count h) ++
  le_bytes 4 (h_size h) ++ le_bytes 4 (h_type h).
Definition info_bytes (i : tag_info) : list Z :=
  let '(idx, ty, cnt, at_, nm) := i in
  le_bytes 4 idx ++ le_bytes 4 ty ++ le_bytes 4 cnt ++ le_bytes 2 at_ ++ nm ++ [0].

(** message.c:498-513: a failed lookup calls strlen on the uninitialised tag.name first *)
Definition h_tag_get (E : env) (fd : Z) (r : run (tag_info + Z)) : SM unit :=
  x <- lift r ;;
  match x with
  | inl i => respond fd MSG_TAG_GET (info_bytes i)
  | inr e => if en_strict E then undef UUninit else reply_err fd MSG_TAG_GET e
  end.

(** message.c:519-552 [msg_tag_read]; the stack buffer has 4088 bytes *)
Definition h_read (E : env) (fd idx off size : Z) : SM unit :=
  s <- get ;;
  r <- tag_read E fd idx off size MSG_DATA_SIZE ;;
  match r with
  | inr e => reply_err fd MSG_TAG_READ e
  | inl d => if (size <? 0) || (MSG_DATA_SIZE <? size) then ret tt
             else respond fd MSG_TAG_READ (firstn (Z.to_nat size) (d ++ jbytes E (s_step s) (zlen d) (size - zlen d)))
  end.

(** message.c:555-583 [msg_tag_write] *)
Definition h_write (E : env) (fd idx off : Z) (d : list Z) : SM unit :=
  s <- get ;;
  a <- lift (attr_at E s idx) ;;
  r <- (if has a A_READONLY && negb (tag_owned s fd idx) then ret E_READONLY else tag_write E fd idx off d) ;;
  if negb (r =? 0) then reply_err fd MSG_TAG_WRITE r
  else map_check E idx off (zlen d) ;;; respond fd MSG_TAG_WRITE [].

(** message.c:586-614 [msg_tag_mask_write] *)
Definition h_mask (E : env) (fd idx off : Z) (d m : list Z) : SM unit :=
  s <- get ;;
  a <- lift (attr_at E s idx) ;;
  r <- (if has a A_READONLY then ret E_READONLY else tag_mask_write E fd idx off d m) ;;
  if negb (r =? 0) then reply_err fd MSG_TAG_MWRITE r
  else map_check E idx off (zlen d) ;;; respond fd MSG_TAG_MWRITE [].

(** atomic.c:356-422 [atomic_op] *)
Definition atomic_op (E : env) (h : handle) (opr : Z) (opnd : list Z) : SM Z :=
  s <- get ;;
  if is_custom (h_type h) then ret E_BADTYPE
  else match znth (s_db s) (h_index h) with
       | None => ret E_ARG
       | Some t =>
           if u32 (t_count t * typesize_bits (t_type t)) <? u32 (h_byte h + h_size h) then ret E_2BIG
           else if has (t_attr t) A_VIRTUAL || has (t_attr t) A_SPECIAL then ret E_READONLY
           else match t_data t with
                | DNull => ret E_DELETED
                | DBytes b =>
                    r <- lift (atomic_switch E (s_step s) opr h opnd b) ;;
                    match r with
                    | inr e => ret e
                    | inl b' => commit E (h_index h) t b' (s32 (h_byte h)) (h_size h) ;;; ret 0
                    end
                | _ => undef UOob
                end
       end.
(** message.c:952-979 [msg_atomic_op] *)
Definition h_atomic (E : env) (fd : Z) (h : handle) (opr : Z) (opnd : list Z) : SM unit :=
  s <- get ;;
  a <- lift (attr_at E s (h_index h)) ;;
  r <- (if has a A_READONLY && negb (tag_owned s fd (h_index h)) then ret E_READONLY else atomic_op E h opr opnd) ;;
  if r <? 0 then reply_err fd MSG_ATOMIC_OP r
  else map_check E (h_index h) (s32 (h_byte h)) (s32 (h_size h)) ;;; respond fd MSG_ATOMIC_OP [].

(** message.c:455-482 [msg_tag_del] *)
Definition h_tag_del (E : env) (fd idx : Z) : SM unit :=
  s <- get ;;
  x <- lift (tag_get_index s idx) ;;
  r <- (match x with
        | inr _ => ret E_ARG
        | inl (_, _, _, _, nm) => if nthb nm 0 =? 95 then ret E_ILLEGAL else tag_del E idx
        end) ;;
  if r =? 0 then respond fd MSG_TAG_DEL (le_bytes 4 idx) else reply_err fd MSG_TAG_DEL r.

(** message.c:704-720 [msg_cdt_create]: [result] is uninitialised when the identical type exists *)
Definition h_cdt_create (E : env) (fd : Z) (def : name) : SM unit :=
  s <- get ;;
  x <- lift (cdt_create (s_types s) def) ;;
  let '(ts, ty, err) := x in
  modify (fun s => set_types s ts) ;;;
  let res := match err with Some e => e | None => s32 (en_int E (s_step s)) end in
  if res <? 0 then reply_err fd MSG_CDT_CREATE res else respond fd MSG_CDT_CREATE (le_bytes 4 ty).
(** message.c:723-770 [msg_cdt_get] *)
Definition h_cdt_get (fd ty : Z) : SM unit :=
  s <- get ;;
  x <- lift (serialize_datatype (s_types s) ty) ;;
  match x with
  | inr e => reply_err fd MSG_CDT_GET e
  | inl d => if MSG_DATA_SIZE - 4 <? zlen d + 1 then reply_err fd MSG_CDT_GET E_2BIG
             else respond fd MSG_CDT_GET (le_bytes 4 ty ++ d ++ [0])
  end.

Definition with_mod (fd : Z) (k : module -> SM unit) : SM unit :=
  s <- get ;; match find_mod s fd with None => undef UNull | Some m => k m end.

(** the handlers, message.c:366-1057; the C functions' own return value only matters for
    map_del/map_get, where a negative one makes msg_receive return early (message.c:331) -
    not observable by a client *)
Definition handle_op (E : env) (o : op) : SM unit :=
  match o with
  | OpRegister fd nm =>
      module_register E nm fd ;;;
      s <- get ;;
      r <- tag_read E (-1) IX_STARTED 0 4 8 ;;
      let id := match r with inl d => d | inr _ => jbytes E (s_step s) 0 4 end in
      (* REG_TEST_INT, REG_TEST_DINT, REG_TEST_LINT, REG_TEST_REAL, REG_TEST_LREAL; 31 bytes sent *)
      respond fd MSG_MOD_REG
        (id ++ le_bytes 2 48350 ++ le_bytes 4 1450744508 ++ le_bytes 8 1311768467463790320 ++
         le_bytes 4 1078530011 ++ le_bytes 8 13946528213758077531 ++ jbytes E (s_step s) 30 1)
  | OpUnregMsg fd => respond fd MSG_MOD_REG []
  | OpBadReg fd => reply_err fd MSG_MOD_REG E_MSG_BAD
  | OpDisconnect fd => module_unregister E fd
  | OpTagAdd fd nm type count attr =>
      r <- (if nthb nm 0 =? 95 then ret E_ILLEGAL else tag_add E fd nm (u32 type) (u32 count) (u32 attr)) ;;
      reply_int fd MSG_TAG_ADD r
  | OpTagDel fd idx => h_tag_del E fd idx
  | OpTagGetName fd nm => s <- get ;; h_tag_get E fd (tag_get_name s nm)
  | OpTagGetIdx fd idx => s <- get ;; h_tag_get E fd (tag_get_index s idx)
  | OpTagList _ => ret tt
  | OpRead fd idx off size => h_read E fd idx off size
  | OpWrite fd idx off d => h_write E fd idx off d
  | OpMask fd idx off d m => h_mask E fd idx off d m
  | OpEvAdd fd h etype udata =>
      s <- get ;;
      r <- (match find_mod s fd with None => ret (-1) | Some m => event_add E h etype udata m end) ;;
      reply_int fd MSG_EVNT_ADD r
  | OpEvDel fd idx id =>
      s <- get ;;
      r <- event_del E idx id (find_mod s fd) ;;
      (* message.c:664: success whenever the index is not negative; 8 bytes sent from a 4-byte variable *)
      if 0 <=? idx then respond fd MSG_EVNT_DEL (le_bytes 4 idx ++ jbytes E (s_step s) 0 4)
      else reply_err fd MSG_EVNT_DEL r
  | OpEvGet _ => ret tt
  | OpEvOpt fd idx id opts =>
      s <- get ;;
      r <- event_opt idx id opts (find_mod s fd) ;;
      if 0 <=? idx then respond fd MSG_EVNT_OPT (le_bytes 4 idx ++ jbytes E (s_step s) 0 4)
      else reply_err fd MSG_EVNT_OPT r
  | OpCdtCreate fd def => h_cdt_create E fd def
  | OpCdtGetName fd nm => s <- get ;; h_cdt_get fd (cdt_get_type (s_types s) nm)
  | OpCdtGetType fd ty => h_cdt_get fd ty
  | OpMapAdd fd src dst => r <- map_add src dst ;; reply_int fd MSG_MAP_ADD r
  | OpMapDel fd idx id => r <- map_del idx id ;; reply_int fd MSG_MAP_DEL r
  | OpMapGet fd idx id =>
      s <- get ;;
      x <- lift (map_get s idx id) ;;
      match x with
      | inr e => reply_err fd MSG_MAP_GET e
      | inl (a, b) => respond fd MSG_MAP_GET (handle_bytes a ++ handle_bytes b ++ jbytes E (s_step s) 42 6)
      end
  | OpGrpAdd fd hs => with_mod fd (fun m => r <- group_add (m_uid m) m hs ;; reply_int fd MSG_GRP_ADD r)
  | OpGrpDel fd i => with_mod fd (fun m => r <- group_del (m_uid m) m i ;; reply_int fd MSG_GRP_DEL r)
  | OpGrpRead fd i =>
      with_mod fd (fun m => x <- group_read E m i ;;
        match x with inr e => reply_err fd MSG_GRP_READ e | inl d => respond fd MSG_GRP_READ d end)
  | OpGrpWrite fd i payload => with_mod fd (fun m => r <- group_write E m i payload ;; reply_status fd MSG_GRP_WRITE r)
  | OpGrpMwrite fd => reply_err fd MSG_GRP_MWRITE E_NOTIMPL
  | OpAtomic fd h opr opnd => h_atomic E fd h opr opnd
  | OpOvAdd fd idx off d m => r <- override_add E idx off d m ;; reply_status fd MSG_ADD_OVRD r
  | OpOvDel fd idx off m => r <- override_del E idx off m ;; reply_status fd MSG_DEL_OVRD r
  | OpOvGet fd idx off size =>
      x <- override_get idx off size ;;
      match x with
      | inr e => reply_err fd MSG_GET_OVRD e
      | inl (d, m) => respond fd MSG_GET_OVRD (d ++ m)
      end
  | OpOvSet fd idx flag => r <- override_set E idx flag ;; reply_status fd MSG_SET_OVRD r
  | OpTick now => modify (fun s => set_now s now)
  end.

(** one request *)
Definition step (E : env) (s : server) (o : op) : run server :=
  match handle_op E o s with
  | Done (s', _) => Done (set_step s' (s_step s' + 1))
  | Undef u => Undef u
  end.
(** a history *)
Fixpoint exec (E : env) (s : server) (os : list op) : run server :=
  match os with [] => Done s | o :: r => s' <-- step E s o ;; exec E s' r end.

(** ** Start-up: tagbase.c:353-429 [initialize_tagbase] *)
Definition mod_cdt : name :=
  str "_module:starttime,TIME,1:id,DINT,1:running,BOOL,1:faulted,BOOL,1:status,CHAR,64:stop,BOOL,1:run,BOOL,1:reload,BOOL,1:kill,BOOL,1".
Definition desc_cdt : name :=
  str "_tag_desc:index,DINT,1:type,UDINT,1:count,UDINT,1:attributes,UINT,1:name,CHAR,33".
Definition empty_server (now : Z) (r : rdb) : server :=
  mk_srv [] 1024 [] [] 0 0 0 [] 1 0 now r [] 0.
Definition make_type (def : name) : SM Z :=
  s <- get ;;
  x <- lift (cdt_create (s_types s) def) ;;
  let '(ts, ty, _) := x in
  modify (fun s => set_types s ts) ;;; ret ty.
Definition add_sys (E : env) (nm : name) (type count : Z) : SM unit :=
  i <- tag_add E (-1) nm type count 0 ;;
  t <- tag_at i ;;
  put_tag i (set_attr t A_READONLY).
(** tagbase.c:328-350 [virtual_tag_add] with wf = NULL *)
Definition add_virtual (E : env) (nm : name) (type count : Z) (d : tdata) : SM unit :=
  i <- tag_add E (-1) nm type count 0 ;;
  t <- tag_at i ;;
  put_tag i (set_attr (set_data t d) (set_flag (set_flag (t_attr t) A_VIRTUAL) A_READONLY)).
Definition init_tagbase (E : env) : SM unit :=
  make_type mod_cdt ;;;
  tt_ <- make_type desc_cdt ;;
  add_sys E (str "_tagcount") T_DINT 1 ;;;
  add_sys E (str "_lastindex") T_DINT 1 ;;;
  add_sys E (str "_tag_added") tt_ 1 ;;;
  add_sys E (str "_tag_deleted") tt_ 1 ;;;
  add_sys E (str "_dbsize") T_DINT 1 ;;;
  add_sys E (str "_starttime") T_TIME 1 ;;;
  add_sys E (str "_lastmodule") T_CHAR 33 ;;;
  add_sys E (str "_overrides_installed") T_DINT 1 ;;;
  add_sys E (str "_overrides_set") T_DINT 1 ;;;
  add_virtual E (str "_time") T_TIME 1 DTime ;;;
  add_virtual E (str "_my_tagname") T_CHAR 33 DMyName ;;;
  s <- get ;;
  tag_write E (-1) IX_STARTED 0 (le_bytes 8 (s_now s)) ;;;
  s <- get ;;
  tag_write E (-1) IX_DBSIZE 0 (le_bytes 4 (s_dbsize s)) ;;;
  ret tt.

(** retain.c:37-111 [_create_types], [_create_tags] *)
Fixpoint restore_types (defs : list name) : SM unit :=
  match defs with [] => ret tt | d :: r => make_type d ;;; restore_types r end.
Definition restore_tag (E : env) (row : rrow) : SM unit :=
  s <- get ;;
  i <- tag_add E (-1) (rr_name row) (cdt_get_type (s_types s) (rr_type row)) (u32 (rr_count row)) 0 ;;
  if i <? 0 then ret tt
  else
    t <- tag_at i ;;
    s <- get ;;
    sz <- lift (tag_size (s_types s) t) ;;
    match rr_data row with
    | None => ret tt
    | Some d =>
        let n := Z.min (zlen d) sz in
        if n <? 0 then undef UOob
        else if n =? 0 then ret tt
        else match t_data t with
             | DBytes b => if n <=? zlen b then put_tag i (set_data t (DBytes (splice 0 (firstn (Z.to_nat n) d) b)))
                           else undef UOob
             | DNull => undef UNull
             | _ => undef UOob
             end
    end.
Fixpoint restore_tags (E : env) (rows : list rrow) : SM unit :=
  match rows with [] => ret tt | x :: r => restore_tag E x ;;; restore_tags E r end.
Fixpoint insert_by_id (x : Z * name * name) (l : list (Z * name * name)) : list (Z * name * name) :=
  match l with [] => [x] | y :: r => if fst (fst x) <=? fst (fst y) then x :: l else y :: insert_by_id x r end.
Definition sort_by_id (l : list (Z * name * name)) : list (Z * name * name) := fold_right insert_by_id [] l.

(** start of the server process: initialize_tagbase, then ret_init (retain.c:136-167), which
    restores types and tags and then drops and re-creates the tables.  [r] is the retention
    file as the previous process left it. *)
Definition boot (E : env) (now : Z) (r : rdb) : run server :=
  match (init_tagbase E ;;;
         (if r_open r then
            restore_types (map snd (sort_by_id (r_types r))) ;;;
            restore_tags E (r_rows r) ;;;
            modify (fun s => set_ret s (mk_rdb true [] 1 []))
          else ret tt)) (empty_server now (mk_rdb false [] 1 [])) with
  | Done (s, _) => Done s
  | Undef u => Undef u
  end.
(** a first start: no retention file content *)
Definition empty_ret : rdb := mk_rdb true [] 1 [].
Definition init (E : env) (now : Z) : run server := boot E now empty_ret.

(** the environment in which freed memory keeps its contents and fresh memory is zero *)
Definition env0 : env :=
  mk_env false (fun _ => 0) (fun _ => true) (fun _ => 0) (fun _ _ => 0) (fun _ _ => true) (fun _ => 0)
         (fun _ _ _ => 0) (fun _ _ _ => 0) [].
