(** * Wire: from the bytes of a message to the request (src/server/message.c:366-1057)
    [message.data] beyond the received bytes is uninitialised stack memory. *)
From Verif Require Import Base Const Types State Events Atomic Server Buffer.

Definition byte_at (d : list Z) (k : Z) : run Z := match znth d k with Some b => Done b | None => Undef UUninit end.
Definition u32_at (d : list Z) (k : Z) : run Z := if in_bounds k 4 (zlen d) then Done (le_val (slice k 4 d)) else Undef UUninit.
Definition i32_at (d : list Z) (k : Z) : run Z := x <-- u32_at d k ;; Done (s32 x).
Definition u16_at (d : list Z) (k : Z) : run Z := if in_bounds k 2 (zlen d) then Done (le_val (slice k 2 d)) else Undef UUninit.
(** htonl in the sender, ntohl here *)
Definition net32_at (d : list Z) (k : Z) : run Z := if in_bounds k 4 (zlen d) then Done (be_val (slice k 4 d)) else Undef UUninit.
Definition str_at (d : list Z) (k : Z) : run name := match cstr (skipn (Z.to_nat k) d) with Some n => Done n | None => Undef UUninit end.
Definition rest_at (d : list Z) (k : Z) : list Z := skipn (Z.to_nat k) d.
(** the handle layout of map and group messages, 21 bytes *)
Definition handle_at (d : list Z) (k : Z) : run handle :=
  i <-- i32_at d k ;; b <-- u32_at d (k + 4) ;; bit <-- byte_at d (k + 8) ;; c <-- u32_at d (k + 9) ;;
  sz <-- u32_at d (k + 13) ;; ty <-- u32_at d (k + 17) ;; Done (mk_h i b bit c sz ty).
Fixpoint handles_at (n : nat) (d : list Z) (k : Z) : run (list handle) :=
  match n with O => Done [] | S n => h <-- handle_at d k ;; r <-- handles_at n d (k + 21) ;; Done (h :: r) end.

(** message.c:366-1057, the decoding part of each handler. *)
Definition decode (fd cmd : Z) (d : list Z) : run op :=
  match cmd with
  | 1 (* MSG_MOD_REG, 372-421 *) =>
      if is_nil d then Done (OpUnregMsg fd)
      else _ <-- net32_at d 0 ;; flags <-- net32_at d 4 ;;
           if Z.testbit flags 0 then n <-- str_at d 8 ;; Done (OpRegister fd n) else Done (OpBadReg fd)
  | 2 (* MSG_TAG_ADD, 426-452 *) =>
      ty <-- u32_at d 0 ;; c <-- u32_at d 4 ;; a <-- u32_at d 8 ;; n <-- str_at d 12 ;; Done (OpTagAdd fd n ty c a)
  | 3 (* MSG_TAG_DEL, 455-482 *) => i <-- i32_at d 0 ;; Done (OpTagDel fd i)
  | 4 (* MSG_TAG_GET, 484-517: data[33] = 0 *) =>
      sub <-- byte_at d 0 ;;
      if sub =? 2 then i <-- i32_at d 1 ;; Done (OpTagGetIdx fd i)
      else n <-- str_at (firstn 33 d ++ (if 33 <=? zlen d then [0] else [])) 1 ;; Done (OpTagGetName fd n)
  | 5 (* MSG_TAG_LIST *) => Done (OpTagList fd)
  | 6 (* MSG_TAG_READ, 531-552 *) => i <-- i32_at d 0 ;; o <-- i32_at d 4 ;; n <-- i32_at d 8 ;; Done (OpRead fd i o n)
  | 7 (* MSG_TAG_WRITE, 556-583 *) => i <-- i32_at d 0 ;; o <-- i32_at d 4 ;; Done (OpWrite fd i o (rest_at d 8))
  | 8 (* MSG_TAG_MWRITE, 587-614 *) =>
      i <-- i32_at d 0 ;; o <-- i32_at d 4 ;; let n := (zlen d - 8) / 2 in Done (OpMask fd i o (slice 8 n d) (slice (8 + n) n d))
  | 9 (* MSG_EVNT_ADD, 617-646 *) =>
      i <-- i32_at d 0 ;; b <-- u32_at d 4 ;; c <-- u32_at d 8 ;; ty <-- u32_at d 12 ;; et <-- i32_at d 16 ;;
      sz <-- u32_at d 20 ;; bit <-- byte_at d 24 ;; Done (OpEvAdd fd (mk_h i b bit c sz ty) et (rest_at d 25))
  | 10 (* MSG_EVNT_DEL, 648-670 *) => i <-- i32_at d 0 ;; id <-- i32_at d 4 ;; Done (OpEvDel fd i id)
  | 11 (* MSG_EVNT_GET *) => Done (OpEvGet fd)
  | 12 (* MSG_EVNT_OPT, 678-701 *) => i <-- i32_at d 0 ;; id <-- i32_at d 4 ;; o <-- u32_at d 8 ;; Done (OpEvOpt fd i id o)
  | 13 (* MSG_CDT_CREATE, 705-720: data[4087] = 0 *) =>
      n <-- str_at (firstn 4087 d ++ (if 4087 <=? zlen d then [0] else [])) 0 ;; Done (OpCdtCreate fd n)
  | 14 (* MSG_CDT_GET, 723-770: strncpy of 32 characters *) =>
      sub <-- byte_at d 0 ;;
      if sub =? 2 then t <-- u32_at d 1 ;; Done (OpCdtGetType fd t)
      else n <-- str_at (firstn 33 d ++ (if 33 <=? zlen d then [0] else [])) 1 ;; Done (OpCdtGetName fd n)
  | 15 (* MSG_MAP_ADD, 772-800 *) => a <-- handle_at d 0 ;; b <-- handle_at d 21 ;; Done (OpMapAdd fd a b)
  | 16 (* MSG_MAP_DEL, 802-819 *) => i <-- i32_at d 0 ;; id <-- i32_at d 4 ;; Done (OpMapDel fd i id)
  | 17 (* MSG_MAP_GET, 821-855 *) => i <-- i32_at d 0 ;; id <-- i32_at d 4 ;; Done (OpMapGet fd i id)
  | 18 (* MSG_GRP_ADD, 857-876; groups.c:76-98: more than 150 members are refused before any is read *) =>
      n <-- byte_at d 0 ;;
      if 150 <? n then Done (OpGrpAdd fd (repeat (mk_h 0 0 0 0 0 0) (Z.to_nat n)))
      else hs <-- handles_at (Z.to_nat n) d 2 ;; Done (OpGrpAdd fd hs)
  | 19 (* MSG_GRP_DEL, 878-895 *) => i <-- u32_at d 0 ;; Done (OpGrpDel fd i)
  | 20 (* MSG_GRP_READ, 897-915 *) => i <-- u32_at d 0 ;; Done (OpGrpRead fd i)
  | 21 (* MSG_GRP_WRITE, 917-935 *) => i <-- u32_at d 0 ;; Done (OpGrpWrite fd i (rest_at d 4))
  | 22 (* MSG_GRP_MWRITE, 937-950 *) => Done (OpGrpMwrite fd)
  | 23 (* MSG_ATOMIC_OP, 952-979: the size is what is left of the message *) =>
      i <-- i32_at d 0 ;; b <-- u32_at d 4 ;; c <-- u32_at d 8 ;; ty <-- u32_at d 12 ;; bit <-- byte_at d 16 ;;
      o <-- u16_at d 17 ;; Done (OpAtomic fd (mk_h i b bit c (u32 (zlen d - 21)) ty) o (rest_at d 21))
  | 24 (* MSG_ADD_OVRD, 981-999; a message below 12 bytes has a size near 2^31 *) =>
      i <-- i32_at d 0 ;; o <-- i32_at d 4 ;;
      if zlen d <? 12 then Undef UUninit
      else let n := (zlen d - 12) / 2 in Done (OpOvAdd fd i o (slice 12 n d) (slice (12 + n) n d))
  | 25 (* MSG_DEL_OVRD, 1001-1016 *) => i <-- i32_at d 0 ;; o <-- i32_at d 4 ;; Done (OpOvDel fd i o (rest_at d 8))
  | 26 (* MSG_GET_OVRD, 1018-1038 *) => i <-- i32_at d 0 ;; o <-- i32_at d 4 ;; n <-- i32_at d 8 ;; Done (OpOvGet fd i o n)
  | 27 (* MSG_SET_OVRD, 1040-1057: only the low byte of the flag word is used *) => i <-- i32_at d 0 ;; f <-- byte_at d 4 ;; Done (OpOvSet fd i f)
  | _ => Undef UNull
  end.

(** one frame for the server; the tag data base and the buffers together *)
Definition serve_frame (E : env) (s : server) (f : frame) : run server :=
  match f with
  | Closed fd => step E s (OpDisconnect fd)
  | Frame fd cmd d => o <-- decode fd cmd d ;; step E s o
  end.
Fixpoint serve_frames (E : env) (s : server) (fs : list frame) : run server :=
  match fs with [] => Done s | f :: r => s' <-- serve_frame E s f ;; serve_frames E s' r end.
Definition serve (E : env) (B : benv) (x : list bnode * server) (e : rx) : run (list bnode * server) :=
  y <-- rx_step B (fst x) e ;; s <-- serve_frames E (snd x) (snd y) ;; Done (fst y, s).
