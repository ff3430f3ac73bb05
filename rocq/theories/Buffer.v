(** * Buffer: message framing of the server (src/server/buffer.c, src/server/message.c:288-364)
    A socket is seen through what read(2) returns: some bytes, end of file, or an error.
    Not modelled: listening sockets and accept, failing malloc. *)
From Verif Require Import Base Const.

(** buffer.c:51-56 [dax_buffnode]: 4096 bytes *)
Record bnode := mk_bn { bn_fd : Z; bn_idx : Z; bn_buf : list Z }.
(** the configured number of buffers that are kept, and the contents of memory fresh from malloc *)
Record benv := mk_be { be_min : Z; be_junk : Z -> Z -> Z }.
Definition fresh_node (B : benv) (k : Z) : bnode := mk_bn 0 0 (map (fun p => u8 (be_junk B k (Z.of_nat p))) (seq 0 4096)).
(** buffer.c:76-101 [buff_initialize] *)
Definition buff_initialize (B : benv) : list bnode := map (fun k => fresh_node B (Z.of_nat k)) (seq 0 (Z.to_nat (be_min B))).

Fixpoint first_pos (p : bnode -> bool) (bs : list bnode) (i : Z) : option Z :=
  match bs with [] => None | n :: r => if p n then Some i else first_pos p r (i + 1) end.
(** buffer.c:105-134 [find_buff_slot]: the list afterwards and the position of the node *)
Definition find_buff_slot (B : benv) (bs : list bnode) (fd : Z) : list bnode * Z :=
  match first_pos (fun n => bn_fd n =? fd) bs 0 with
  | Some i => (bs, i)
  | None =>
      match first_pos (fun n => bn_fd n =? 0) bs 0 with
      | Some i => (match znth bs i with Some n => zset bs i (mk_bn fd (bn_idx n) (bn_buf n)) | None => bs end, i)
      | None => let n := fresh_node B (zlen bs) in (bs ++ [mk_bn fd (bn_idx n) (bn_buf n)], zlen bs)
      end
  end.
(** buffer.c:183-197 [buff_free] *)
Definition buff_free (bs : list bnode) (fd : Z) : list bnode :=
  match first_pos (fun n => bn_fd n =? fd) bs 0 with
  | Some i => match znth bs i with Some n => zset bs i (mk_bn 0 0 (bn_buf n)) | None => bs end
  | None => bs
  end.
(** buffer.c:202-226 [buff_freeall]: the last node goes when there are more than the minimum and more than one *)
Definition buff_freeall (B : benv) (bs : list bnode) : list bnode :=
  let bs' := map (fun n => mk_bn 0 0 (bn_buf n)) bs in
  if (be_min B <? zlen bs) && (1 <? zlen bs) then removelast bs' else bs'.

(** what the select loop sees *)
Inductive rx :=
| RxRead (fd : Z) (chunk : list Z)     (* read(2) returns these bytes; none: end of file *)
| RxErr (fd : Z)                       (* read(2) returns -1 *)
| RxIdle.                              (* nothing readable for one second *)
(** what the rest of the server gets to do *)
Inductive frame :=
| Frame (fd cmd : Z) (data : list Z)   (* the handler of [cmd] is called *)
| Closed (fd : Z).                     (* module_unregister *)

(** message.c:347-364 [msg_dispatcher]: message.data has 4088 bytes, message.size is a uint32_t *)
Definition msg_dispatcher (bs : list bnode) (fd : Z) (buf : list Z) : run (list bnode * list frame) :=
  let size := u32 (be_val (slice 0 4 buf) - 8) in
  let cmd := be_val (slice 4 4 buf) in
  if (cmd =? 0) || (27 <? cmd) then Done (bs, [])
  else if 4088 <? size then Undef UOob
  else Done (buff_free bs fd, [Frame fd cmd (slice 8 size buf)]).
(** buffer.c:137-176 [buff_read] after the read(2) call.  The index is an int, compared as unsigned. *)
Definition buff_check (bs : list bnode) (i : Z) (n : bnode) : run (list bnode * list frame) :=
  let bs := zset bs i n in
  if u32 (bn_idx n) <? u32 (be_val (slice 0 4 (bn_buf n)) - 1) then Done (bs, [])
  else msg_dispatcher bs (bn_fd n) (bn_buf n).
(** one round for one socket, with message.c:324-332 of [msg_receive] *)
Definition rx_step (B : benv) (bs : list bnode) (e : rx) : run (list bnode * list frame) :=
  match e with
  | RxIdle => Done (buff_freeall B bs, [])
  | RxRead fd chunk =>
      let '(bs, i) := find_buff_slot B bs fd in
      match znth bs i with
      | None => Undef UNull
      | Some n =>
          let got := firstn (Z.to_nat (DAX_MSGMAX - bn_idx n)) chunk in
          if is_nil got then Done (buff_free bs fd, [Closed fd])
          else if bn_idx n <? 0 then Undef UOob
          else buff_check bs i (mk_bn (bn_fd n) (bn_idx n + zlen got) (splice (bn_idx n) got (bn_buf n)))
      end
  | RxErr fd =>
      (* buffer.c:143: result is a size_t, so the test for an error never succeeds *)
      let '(bs, i) := find_buff_slot B bs fd in
      match znth bs i with
      | None => Undef UNull
      | Some n => buff_check bs i (mk_bn (bn_fd n) (bn_idx n - 1) (bn_buf n))
      end
  end.
Fixpoint rx_exec (B : benv) (bs : list bnode) (es : list rx) : run (list bnode * list frame) :=
  match es with
  | [] => Done (bs, [])
  | e :: r => x <-- rx_step B bs e ;; y <-- rx_exec B (fst x) r ;; Done (fst y, snd x ++ snd y)
  end.
