(** * Safe: requests that stay clear of the known defects
    The other files show, one by one, requests that make the server do something undefined.  This file collects
    the conditions under which none of them can happen; Prop_Safe proves that they are enough.  [sane E s o] reads:
    in state [s] request [o] is within the limits below.  Every condition excludes a defect shown elsewhere. *)
From Verif Require Import Base Const Types State Events Atomic Server.

(** the data block of an ordinary, existing tag *)
Definition block (s : server) (i : Z) : option (list Z) :=
  match znth (s_db s) i with Some t => data_block (t_data t) | None => None end.

(** ** Writes and the events that watch them
    The comparing events step through their area in units of the data type from the start of the write; a write
    that begins in the middle of an element runs over the end of the area. *)
Definition stepping (e : event) : Prop :=
  e_etype e = EV_EQUAL \/ e_etype e = EV_GREATER \/ e_etype e = EV_LESS \/ e_etype e = EV_DEADBAND.
Definition ev_aligned (e : event) (off : Z) : Prop :=
  stepping e -> e_byte e < off < e_byte e + e_size e -> (off - e_byte e) mod (typesize_bits (e_dtype e) / 8) = 0.
Definition aligned (s : server) (i off : Z) : Prop :=
  forall t e, znth (s_db s) i = Some t -> In e (t_events t) -> ev_aligned e off.
(** a write of [n] bytes at [off]: aligned, and so are the copies made by the tag's mappings *)
Definition write_ok (s : server) (i off n : Z) : Prop :=
  0 <= off /\ off + n < 2147483648 /\ aligned s i off /\
  forall t l m, znth (s_db s) i = Some t -> t_maps t = Some l -> In m l -> aligned s (h_index (m_dst m)) (h_byte (m_dst m)).
(** a queue accepts entries as long as it need not grow, and entries that fit into an answer *)
Definition queue_room (t : tag) (n : Z) : Prop :=
  forall q, t_data t = DQueue q -> q_count q < zlen (q_slots q) /\ n <= 4080.

(** ** Handles as the client library makes them *)
Definition handle_ok (s : server) (h : handle) : Prop :=
  (exists b, block s (h_index h) = Some b) /\ (In (h_type h) base_types \/ T_CUSTOM <= h_type h < 4294967296) /\
  0 <= h_byte h /\ 0 <= h_bit h < 8 /\ 0 < h_count h < 2147483648 /\ h_byte h + h_size h < 4294967296 /\
  (if h_type h =? T_BOOL then h_size h = (h_bit h + h_count h - 1) / 8 + 1
   else exists n, type_size (s_types s) (h_type h) = Done n /\ 0 < n /\ h_size h = n * h_count h).
(** for the bit events the area counted from bit 0 must reach as far as the area counted from the handle's bit *)
Definition bit_span (h : handle) : Prop := (h_bit h + h_count h - 1) / 8 = (h_count h - 1) / 8.
Definition bit_event (etype : Z) : Prop := etype = EV_CHANGE \/ etype = EV_SET \/ etype = EV_RESET.
Definition wide (t : Z) : Prop := t = T_DINT \/ t = T_LINT \/ t = T_ULINT \/ t = T_LWORD.

(** ** Room in the table
    Entries behind the first 1024 are not cleared; the condition says that the memory happens to be clean. *)
Definition room (E : env) (s : server) : Prop :=
  zlen (s_db s) < 1024 \/ (u16 (en_attr E (zlen (s_db s))) = 0 /\ en_maps0 E (zlen (s_db s)) = true).
(** a compound type the retention file can describe: neither it nor a type it uses is type number 0 *)
Inductive storable (ts : list cdt) : Z -> Prop :=
| st_type t c : 0 < cdt_index t -> znth ts (cdt_index t) = Some c ->
    (forall m, In m (c_members c) -> is_custom (cm_type m) = true -> storable ts (cm_type m)) -> storable ts t.
Definition name_char (c : Z) : Prop := isalpha c = true \/ isdigit c = true \/ c = 95.

(** a mapping: inside both tags; bit runs inside the copied bytes; not onto itself *)
Definition map_fits (src dst : handle) : Prop :=
  0 <= h_byte src /\ 0 <= h_size src /\ h_byte src + h_size src < 4294967296 /\
  0 <= h_byte dst /\ 0 <= h_size dst /\ h_byte dst + h_size dst < 4294967296 /\
  (if h_type src =? T_BOOL
   then 0 <= h_bit src < 8 /\ 0 <= h_bit dst < 8 /\
        h_bit src + h_count src <= 8 * h_size src /\ h_bit dst + h_count src <= 8 * h_size src
   else h_index src = h_index dst -> areas_overlap (h_byte src) (h_size src) (h_byte dst) (h_size src) = false).

Definition group_of (s : server) (fd i : Z) (P : group -> Prop) : Prop :=
  exists m g, find_mod s fd = Some m /\ znth (m_groups m) i = Some g /\ (g_live g = true -> P g).
Definition member_fits (s : server) (h : handle) : Prop :=
  0 <= h_byte h /\ 0 <= h_size h /\ h_byte h + h_size h < 2147483648 /\
  forall t, znth (s_db s) (h_index h) = Some t -> has (t_attr t) A_VIRTUAL = false.

(** the sum of an increment or decrement fits into its type *)
Definition no_overflow (E : env) (s : server) (h : handle) (opr : Z) (opnd : list Z) (b : list Z) : Prop :=
  opr = 1 \/ opr = 2 -> h_type h = T_DINT \/ h_type h = T_LINT ->
  forall o, opnd_bytes E (s_step s) opnd 0 (Z.to_nat (h_size h)) = Done o ->
  let w := h_size h in
  let a := wrap_s w (le_val (slice (h_byte h) w b)) in
  let c := wrap_s w (le_val o) in
  let r := if opr =? 2 then a - c else a + c in
  (if w =? 4 then fits32 r else fits64 r) = true.

Definition tag_add_ok (E : env) (s : server) (nm : name) (type count attr : Z) : Prop :=
  room E s /\
  (exists n, type_size (s_types s) type = Done n /\ n * count < 2147483648 /\
     (* a tag that grows: not a queue, no override on it, not of an empty type *)
     forall i t, znth (s_db s) i = Some t -> t_name t = Some nm -> t_type t = type -> t_count t < count ->
       (forall q, t_data t <> DQueue q) /\ t_odata t = None /\ (type = T_BOOL \/ n <> 0)) /\
  (has attr A_RETAIN = true -> is_custom type = true -> storable (s_types s) type).

(** ** Memory that has been released
    Deleting the first event of a tag, removing the events of a leaving module and dropping a mapping whose
    destination is gone each read the node they have just freed; a failed look-up answers with uninitialised memory.
    Requests that do none of this: *)
Definition no_events_of (s : server) (fd : Z) : Prop :=
  forall m i t e, find_mod s fd = Some m -> znth (s_db s) i = Some t -> In e (t_events t) -> e_mod e <> m_uid m.
Definition dests_live (s : server) (i : Z) : Prop :=
  forall t l m, znth (s_db s) i = Some t -> t_maps t = Some l -> In m l ->
  exists t', znth (s_db s) (h_index (m_dst m)) = Some t' /\ t_data t' <> DNull.
Definition calm (s : server) (o : op) : Prop :=
  match o with
  | OpRegister fd _ | OpDisconnect fd => no_events_of s fd
  | OpTagGetName _ nm => exists i t, znth (s_db s) i = Some t /\ t_name t = Some nm
  | OpTagGetIdx _ i => exists t, znth (s_db s) i = Some t /\ t_data t <> DNull
  | OpEvDel fd idx id => forall m t e r, find_mod s fd = Some m -> znth (s_db s) idx = Some t -> t_events t = e :: r -> e_mod e = m_uid m -> e_id e <> id
  | OpWrite _ i _ _ | OpMask _ i _ _ _ => dests_live s i
  | OpAtomic _ h _ _ => dests_live s (h_index h)
  | _ => True
  end.

(** [en_strict E] says whether such reads count as undefined or see the old contents *)
Definition sane (E : env) (s : server) (o : op) : Prop :=
  zlen (s_types s) <= 2147483648 /\ (en_strict E = true -> calm s o) /\
  match o with
  | OpRegister fd nm => 0 <= fd /\ Forall name_char nm /\ s_moduuid s < 100000 /\ room E s
  | OpUnregMsg _ | OpBadReg _ | OpDisconnect _ | OpTagDel _ _ | OpTagGetName _ _ | OpTagGetIdx _ _ | OpTagList _
  | OpEvGet _ | OpEvOpt _ _ _ _ | OpCdtGetName _ _ | OpCdtGetType _ _ | OpMapGet _ _ _ | OpGrpMwrite _ | OpOvSet _ _ _ | OpTick _ => True
  | OpTagAdd fd nm type count attr => nthb nm 0 = 95 \/ tag_add_ok E s nm (u32 type) (u32 count) (u32 attr)
  | OpRead fd idx off size =>
      0 <= off /\ 0 <= size <= 4088 /\ off + size < 2147483648 /\ forall t, znth (s_db s) idx = Some t -> t_data t = DTime -> size <= 8
  | OpWrite fd idx off d =>
      0 <= idx < s_dbsize s /\ forall t, znth (s_db s) idx = Some t ->
        if has (t_attr t) A_VIRTUAL then queue_room t (zlen d) else write_ok s idx off (zlen d)
  | OpMask fd idx off d m =>
      0 <= idx < s_dbsize s /\ forall t, znth (s_db s) idx = Some t ->
        has (t_attr t) A_VIRTUAL = false -> write_ok s idx off (zlen d) /\ zlen d <= zlen m
  | OpEvAdd fd h etype udata => forall t, znth (s_db s) (h_index h) = Some t ->
      (has (t_attr t) A_VIRTUAL = true /\ is_queue (t_type t) = false) \/
      (handle_ok s h /\ (h_type h = T_BOOL -> bit_event etype -> bit_span h) /\ (etype = EV_DEADBAND -> ~ wide (h_type h)))
  | OpEvDel fd idx id => forall t, znth (s_db s) idx = Some t -> t_events t = [] \/ In id (map e_id (t_events t))
  | OpCdtCreate fd def => exists nm rest, strtok 58 def = Some (nm, rest) /\ find_base nm base_names = None
  | OpMapAdd fd src dst => map_fits src dst
  | OpMapDel fd idx id => forall t, znth (s_db s) idx = Some t -> t_maps t <> Some []
  | OpGrpAdd fd hs => find_mod s fd <> None
  | OpGrpDel fd i => group_of s fd i (fun _ => True)
  | OpGrpRead fd i => group_of s fd i (fun g => forall h, In h (g_members g) -> member_fits s h)
  | OpGrpWrite fd i payload =>
      group_of s fd i (fun g => forall h, In h (g_members g) -> member_fits s h /\ aligned s (h_index h) (h_byte h))
  | OpAtomic fd h opr opnd =>
      0 <= h_index h < s_dbsize s /\ forall b, block s (h_index h) = Some b ->
        handle_ok s h /\ h_byte h + h_size h <= zlen b /\ h_byte h + h_size h <= 4067 /\
        write_ok s (h_index h) (h_byte h) (h_size h) /\ no_overflow E s h opr opnd b
  | OpOvAdd fd idx off d m => forall t, znth (s_db s) idx = Some t -> t_data t <> DNull ->
      exists b, t_data t = DBytes b /\ t_type t <> T_BOOL /\ 0 <= off /\ zlen m = zlen d /\ zlen d <= zlen b /\ off + zlen d < 2147483648
  | OpOvDel fd idx off m => forall t od, znth (s_db s) idx = Some t -> t_odata t = Some od -> 0 <= off /\ off + zlen m <= zlen od
  | OpOvGet fd idx off size => forall t, znth (s_db s) idx = Some t -> t_data t <> DNull ->
      0 <= off /\ 0 <= size /\ 2 * size <= 4088 /\ off + size < 2147483648 /\ has (t_attr t) A_VIRTUAL = false /\ (0 < size -> t_omask t <> None)
  end.
(** every request of a sequence is within the limits in the state it meets *)
Fixpoint all_sane (E : env) (s : server) (os : list op) : Prop :=
  match os with [] => True | o :: r => sane E s o /\ forall s', step E s o = Done s' -> all_sane E s' r end.
