(** * ClientMsg: the requests that the library builds (src/lib/libmsg.c)
    Simplifications: write(2) takes the whole message (libmsg.c:53 does not check for a short write), malloc does not fail, the connection is up.
    [J k] is byte [k] of the uninitialised stack buffer. *)
From Verif Require Import Base Const Types State Lib Conv.

Inductive call := Send (cmd : Z) (payload : list Z) | Refuse (err : Z).
Notation le4 := (le_bytes 4).
Definition junk (J : Z -> Z) (k n : Z) : list Z := map (fun i => u8 (J (k + Z.of_nat i))) (seq 0 (Z.to_nat n)).

(** libmsg.c:29-61 [_message_send]: what goes to the socket *)
Definition message (cmd : Z) (payload : list Z) : list Z := be_bytes 4 (zlen payload + 8) ++ be_bytes 4 cmd ++ payload.

(** libmsg.c:233-255 [_mod_register] for names below 4080 characters *)
Definition enc_register (nm : name) : run call := Done (Send 1 (be_bytes 4 1000 ++ be_bytes 4 1 ++ nm ++ [0])).
(** libmsg.c:430-451 [dax_disconnect] *)
Definition enc_disconnect : run call := Done (Send 1 []).
(** libmsg.c:466-492 [dax_tag_add]: the buffer has 41 bytes *)
Definition enc_tag_add (nm : name) (type count attr : Z) : run call :=
  if count =? 0 then Done (Refuse E_ARG)
  else if 32 <? zlen nm then Done (Refuse E_2BIG)
  else if 41 <? 12 + zlen nm + 1 then Undef UOob
  else Done (Send 2 (le4 type ++ le4 count ++ le4 attr ++ nm ++ [0])).
(** libmsg.c:535-545 [dax_tag_del] *)
Definition enc_tag_del (idx : Z) : run call := Done (Send 3 (le4 idx)).
(** libmsg.c:566-588 [dax_tag_byname], when the tag is not in the cache *)
Definition enc_tag_byname (nm : name) : run call :=
  if 32 <? zlen nm then Done (Refuse E_2BIG) else if zlen nm =? 0 then Done (Refuse E_NOTFOUND) else Done (Send 4 (1 :: nm ++ [0])).
(** libmsg.c:625-636 [dax_tag_byindex], when the tag is not in the cache *)
Definition enc_tag_byindex (idx : Z) : run call := Done (Send 4 (2 :: le4 idx)).
(** libmsg.c:677-693 [dax_read]: 14 bytes are sent, 12 are set *)
Definition enc_read (J : Z -> Z) (idx off size : Z) : run call :=
  if 4088 <? size then Done (Refuse E_2BIG) else Done (Send 6 (le4 idx ++ le4 off ++ le4 size ++ junk J 12 2)).
(** libmsg.c:725-750 [dax_write] *)
Definition enc_write (idx off : Z) (d : list Z) : run call :=
  if 4088 <? zlen d + 8 then Done (Refuse E_2BIG) else Done (Send 7 (le4 idx ++ le4 off ++ d)).
(** libmsg.c:783-806 [dax_mask] *)
Definition enc_mask (idx off : Z) (d m : list Z) : run call :=
  if 4088 <? 2 * zlen d + 8 then Done (Refuse E_2BIG) else Done (Send 8 (le4 idx ++ le4 off ++ d ++ m)).
(** libmsg.c:972-984 [dax_tag_get_override] *)
Definition enc_get_override (h : handle) : run call := Done (Send 26 (le4 (h_index h) ++ le4 (h_byte h) ++ le4 (h_size h))).
(** libmsg.c:1013-1023 [dax_tag_set_override], 1049-1060 [dax_tag_clr_override] *)
Definition enc_set_override (h : handle) (flag : bool) : run call := Done (Send 27 (le4 (h_index h) ++ [if flag then 255 else 0])).
(** libmsg.c:1091-1119 [dax_atomic_op]: the sum of the sizes is a uint32_t; no data: the bytes are not set *)
Definition enc_atomic (J : Z -> Z) (h : handle) (d : option (list Z)) (opr : Z) : run call :=
  let n := u32 (h_size h + 21) in
  if 4088 <? n then Done (Refuse E_2BIG)
  else if is_custom (h_type h) then Done (Refuse E_ILLEGAL)
  else let head := le4 (h_index h) ++ le4 (h_byte h) ++ le4 (h_count h) ++ le4 (h_type h) ++ [u8 (h_bit h)] ++ le4 (u16 opr) in
    match d with
    | Some d => if 4088 <? 21 + zlen d then Undef UOob else Done (Send 23 (firstn (Z.to_nat n) (head ++ d ++ junk J 21 4067)))
    | None => Done (Send 23 (firstn (Z.to_nat n) (head ++ junk J 21 4067)))
    end.
(** libmsg.c:1162-1198 [dax_event_add]: one value in the server's format; TYPESIZE / 8 bytes of it are sent *)
Definition enc_event_add (J : Z -> Z) (h : handle) (etype : Z) (d : option (list Z)) : run call :=
  let head := le4 (h_index h) ++ le4 (h_byte h) ++ le4 (h_count h) ++ le4 (h_type h) ++ le4 etype ++ le4 (h_size h) ++ [u8 (h_bit h)] in
  match d with
  | None => Done (Send 9 head)
  | Some d =>
      let n := typesize_bits (h_type h) / 8 in
      if 4088 <? 25 + n then Undef UOob
      else match conv (h_type h) d with
           | Some v => Done (Send 9 (head ++ firstn (Z.to_nat n) v))
           | None => Done (Send 9 (head ++ junk J 25 n))
           end
  end.
(** libmsg.c:1233-1251 [dax_event_del] *)
Definition enc_event_del (idx id : Z) : run call := Done (Send 10 (le4 idx ++ le4 id)).
(** libmsg.c:1286-1306 [dax_event_options] *)
Definition enc_event_options (idx id opts : Z) : run call := Done (Send 12 (le4 idx ++ le4 id ++ le4 opts)).
(** libmsg.c:1362-1387 the definition string of [dax_cdt_create] *)
Definition enc_cdt_create (def : name) : run call := if 4088 <? zlen def + 1 then Done (Refuse E_2BIG) else Done (Send 13 (def ++ [0])).
(** libmsg.c:1419-1443 [dax_cdt_get]: no check of the length of the name *)
Definition enc_cdt_byname (nm : name) : run call := if 4088 <? zlen nm + 2 then Undef UOob else Done (Send 14 (1 :: nm ++ [0])).
Definition enc_cdt_bytype (t : Z) : run call := Done (Send 14 (2 :: le4 t)).
(** libmsg.c:1480-1504: 21 bytes for a handle *)
Definition enc_handle (h : handle) : list Z := le4 (h_index h) ++ le4 (h_byte h) ++ [u8 (h_bit h)] ++ le4 (h_count h) ++ le4 (h_size h) ++ le4 (h_type h).
(** libmsg.c:1470-1509 [dax_map_add]: two handle structures of 24 bytes are sent, 42 bytes are set *)
Definition enc_map_add (J : Z -> Z) (src dst : handle) : run call := Done (Send 15 (enc_handle src ++ enc_handle dst ++ junk J 42 6)).
(** libmsg.c:1586-1601 [dax_map_del], 1536-1550 [dax_map_get] *)
Definition enc_map_del (idx id : Z) : run call := Done (Send 16 (le4 idx ++ le4 id)).
Definition enc_map_get (idx id : Z) : run call := Done (Send 17 (le4 idx ++ le4 id)).
(** libmsg.c:1646-1653: the running sum of the sizes *)
Fixpoint group_size_ok (hs : list handle) (sum : Z) : bool :=
  match hs with [] => true | h :: r => if 4084 <? sum + h_size h then false else group_size_ok r (sum + h_size h) end.
(** libmsg.c:1630-1675 [dax_group_add] *)
Definition enc_group_add (hs : list handle) (options : Z) : run call :=
  if 150 <? zlen hs then Done (Refuse E_ARG)
  else if negb (group_size_ok hs 0) then Done (Refuse E_2BIG)
  else Done (Send 18 (zlen hs :: u8 options :: concat (map enc_handle hs))).
(** libmsg.c:1728-1737 [dax_group_read], 1798-1806 [dax_group_del] *)
Definition enc_group_read (i : Z) : run call := Done (Send 20 (le4 i)).
Definition enc_group_del (i : Z) : run call := Done (Send 19 (le4 i)).
(** libmsg.c:1766-1780 [dax_group_write], after the conversion *)
Definition enc_group_write (i : Z) (d : list Z) : run call := if 4088 <? 4 + zlen d then Undef UOob else Done (Send 21 (le4 i ++ d)).
