(** * ClientOvr: overrides through the library (src/lib/libmsg.c:831-995)
    Simplifications as in ClientMsg.v and ClientData.v; the size of a handle is below 2^31, so that the
    int [size] holds it.  [J k] is byte [k] of the uninitialised stack buffer. *)
From Verif Require Import Base Const Types State Events Atomic Server ClientTypes ClientData ClientMsg.

(** libmsg.c:839-845, 899-905: the size of data and mask *)
Definition ovr_size (h : handle) : Z :=
  if bits_path h then h_size h + (if negb (h_bit h =? 0) && (h_count h mod 8 =? 0) then 1 else 0) else h_size h.
(** libmsg.c:846-869, 906-918: the mask *)
Definition ovr_mask (h : handle) : run (list Z) :=
  if bits_path h then mark_bits (Z.to_nat (h_count h)) (zeros (ovr_size h)) (h_bit h mod 8)
  else Done (repeat 255 (Z.to_nat (ovr_size h))).
(** libmsg.c:846-871: the data, moved into place *)
Definition ovr_data (h : handle) (d : list Z) : run (list Z) :=
  if bits_path h then copy_bits (Z.to_nat (h_count h)) d 0 (zeros (ovr_size h)) (h_bit h mod 8)
  else if in_bounds 0 (h_size h) (zlen d) then Done (slice 0 (h_size h) d) else Undef UOob.

(** libmsg.c:831-888 [dax_tag_add_override]: the buffer of 4088 bytes is filled before the size is
    compared with it, and bytes 8 to 11 are not set *)
Definition enc_add_override (J : Z -> Z) (h : handle) (d : list Z) : run call :=
  nd <-- ovr_data h d ;;
  m <-- ovr_mask h ;;
  if 4088 <? 12 + 2 * ovr_size h then Undef UOob
  else Done (Send 24 (le4 (h_index h) ++ le4 (h_byte h) ++ junk J 8 4 ++ nd ++ m)).
(** libmsg.c:898-943 [dax_tag_del_override] *)
Definition enc_del_override (h : handle) : run call :=
  m <-- ovr_mask h ;;
  if 4088 <? 8 + ovr_size h then Undef UOob
  else Done (Send 25 (le4 (h_index h) ++ le4 (h_byte h) ++ m)).

(** libmsg.c:957-995 [dax_tag_get_override] against the server: data and mask, or an error code *)
Definition dax_tag_get_override (E : env) (fd : Z) (s : server) (h : handle) : run (server * (list Z * list Z + Z)) :=
  r <-- ask E s (OpOvGet fd (h_index h) (s32 (h_byte h)) (s32 (h_size h))) ;;
  match r with
  | (s, inr e) => Done (s, inr e)
  | (s, inl p) => Done (s, inl (slice 0 (h_size h) p, slice (h_size h) (h_size h) p))
  end.
(** libmsg.c:1013-1072 [dax_tag_set_override], [dax_tag_clr_override] against the server *)
Definition dax_switch_override (E : env) (fd : Z) (s : server) (h : handle) (on : bool) : run (server * Z) :=
  r <-- ask E s (OpOvSet fd (h_index h) (if on then 255 else 0)) ;;
  match r with (s, inr e) => Done (s, e) | (s, inl _) => Done (s, 0) end.
(** [dax_tag_add_override] against the server: what the message says (Prop_ClientOvr) is executed *)
Definition dax_tag_add_override (E : env) (fd : Z) (s : server) (h : handle) (d : list Z) : run (server * Z) :=
  nd <-- ovr_data h d ;;
  m <-- ovr_mask h ;;
  if 4088 <? 12 + 2 * ovr_size h then Undef UOob
  else
    r <-- ask E s (OpOvAdd fd (h_index h) (s32 (h_byte h)) nd m) ;;
    match r with (s, inr e) => Done (s, e) | (s, inl _) => Done (s, 0) end.
Definition dax_tag_del_override (E : env) (fd : Z) (s : server) (h : handle) : run (server * Z) :=
  m <-- ovr_mask h ;;
  if 4088 <? 8 + ovr_size h then Undef UOob
  else
    r <-- ask E s (OpOvDel fd (h_index h) (s32 (h_byte h)) m) ;;
    match r with (s, inr e) => Done (s, e) | (s, inl _) => Done (s, 0) end.
