(** * Modbus: the slave and the master of the Modbus module (src/modules/modbus)
    The registers of a slave are tags; they are read and written through the client library (ClientData).
    Lua callbacks are functions from their four arguments to the value they return ([None]: the call failed); that they
    may themselves read and write tags is not modelled.  What uninitialised local variables hold is a parameter ([mbjunk]).
    Log messages and the in/out callbacks of a port (used for printing) are left out. *)
From Verif Require Import Base Const Types State Events Atomic Server ClientTypes ClientData Crc.

(** modbus.h:93-98, 138, 151 *)
Definition MB_ERR_OVERFLOW := -16.
Definition MB_BUFF_SIZE := 256.
Definition MB_FRAME_LEN := 1024.
Definition ME_WRONG_FUNCTION := 1.
Definition ME_BAD_ADDRESS := 2.
Definition ME_TIMEOUT := 8.

Definition mbcallback := Z -> Z -> Z -> Z -> option Z.
(** modbus.h:208-223 struct mb_node_def: tag index and number of registers (0: none) of each kind, and the callbacks *)
Record mbnode := mk_node { nd_hold : Z; nd_hold_size : Z; nd_input : Z; nd_input_size : Z; nd_coil : Z; nd_coil_size : Z;
  nd_disc : Z; nd_disc_size : Z; nd_read_cb : option mbcallback; nd_write_cb : option mbcallback }.
(** modbus.h:227-280 struct mb_port.  modopt.c:311-316: [nodes] is allocated for 248 structures but holds pointers, so all
    256 unit numbers are inside, and the pointers not set are NULL *)
Record mbport := mk_port { mp_nodes : Z -> option mbnode; mp_tcp : bool }.
(** the values of uninitialised variables: [result] of create_response, [reg] (150 words), [data] (128 words) *)
Record mbjunk := mk_junk { jk_result : Z; jk_reg : list Z; jk_data : list Z }.

(** store one byte, one word (modbus.h:132 COPYWORD, most significant byte first) *)
Definition put_byte (b : list Z) (i v : Z) : run (list Z) := if in_bounds i 1 (zlen b) then Done (zset b i (u8 v)) else Undef UOob.
Definition put_word (b : list Z) (i v : Z) : run (list Z) := b <-- put_byte b i (v / 256) ;; put_byte b (i + 1) v.
(** [p[k/8] |= 1 << k%8] or [&= ~(1 << k%8)] *)
Definition assign_bit (b : list Z) (k : Z) (v : bool) : run (list Z) :=
  match znth b (k / 8) with
  | None => Undef UOob
  | Some x => Done (zset b (k / 8) (if v then Z.lor x (2 ^ (k mod 8)) else Z.ldiff x (2 ^ (k mod 8))))
  end.

(** database.c:26-73 and 77-122: the handle made up for a range of registers; [words]: holding and input registers *)
Definition slave_handle (words : bool) (idx offset count : Z) : handle :=
  if words then mk_h idx (offset * 2) 0 count (count * 2) T_UINT
  else let bit := Z.rem offset 8 in mk_h idx (Z.quot offset 8) bit count (Z.quot (bit + count - 1) 8 - Z.quot bit 8 + 1) T_BOOL.
(** database.c:77-122 [slave_read_database]; an error is only logged *)
Definition slave_read (E : env) (cc : ctypes) (fd : Z) (words : bool) (idx offset count : Z) (reg : list Z) (s : server) : run (server * list Z) :=
  x <-- dax_tag_read E cc fd s (slave_handle words idx offset count) reg ;;
  let '(s, reg, _) := x in Done (s, reg).
(** database.c:26-73 [slave_write_database] *)
Definition slave_write (E : env) (cc : ctypes) (fd : Z) (words : bool) (idx offset count : Z) (data : list Z) (s : server) : run server :=
  x <-- dax_tag_write E cc fd s (slave_handle words idx offset count) data ;; Done (fst x).

(** modbus.c:744-750 [_create_exception] *)
Definition create_exception (s : server) (buff : list Z) (exception : Z) : run (server * list Z * Z) :=
  match znth buff 1 with
  | None => Undef UOob
  | Some f => b <-- put_byte buff 1 (Z.lor f 128) ;; b <-- put_byte b 2 exception ;; Done (s, b, 3)
  end.

(** modbus.c:780-798: bits of [reg] (words of the machine, little endian: bit n of the array is bit n%8 of byte n/8) into the response *)
Fixpoint copy_coils (k : nat) (n : Z) (reg buff : list Z) : run (list Z) :=
  match k with
  | O => Done buff
  | S k =>
      if zlen reg <? 2 * (n / 16) + 2 then Undef UOob
      else b <-- assign_bit buff (24 + n) (bit_of reg n) ;; copy_coils k (n + 1) reg b
  end.
(** modbus.c:754-800 [_read_bits_response]; the register kind gives [idx] and [regsize] *)
Definition read_bits_response (E : env) (cc : ctypes) (fd : Z) (jk : mbjunk) (idx regsize : Z) (buff : list Z) (size : Z) (s : server) : run (server * list Z * Z) :=
  index <-- word_at buff 2 ;;
  count <-- word_at buff 4 ;;
  x <-- slave_read E cc fd false idx index count (jk_reg jk) s ;;
  let '(s, reg) := x in
  if size - 3 <? Z.quot (count - 1) 8 + 1 then Done (s, buff, MB_ERR_OVERFLOW)
  else if regsize <? index + count then create_exception s buff ME_BAD_ADDRESS
  else
    b <-- put_byte buff 2 (Z.quot (count - 1) 8 + 1) ;;
    b <-- copy_coils (Z.to_nat count) 0 reg b ;;
    Done (s, b, Z.quot (count - 1) 8 + 4).

(** modbus.c:829-831 *)
Fixpoint copy_words (k : nat) (n : Z) (reg buff : list Z) : run (list Z) :=
  match k with
  | O => Done buff
  | S k =>
      if zlen reg <? 2 * n + 2 then Undef UOob
      else b <-- put_byte buff (3 + n * 2) (nthb reg (2 * n + 1)) ;; b <-- put_byte b (3 + n * 2 + 1) (nthb reg (2 * n)) ;; copy_words k (n + 1) reg b
  end.
(** modbus.c:804-833 [_read_words_response] *)
Definition read_words_response (E : env) (cc : ctypes) (fd : Z) (jk : mbjunk) (idx regsize : Z) (buff : list Z) (size : Z) (s : server) : run (server * list Z * Z) :=
  index <-- word_at buff 2 ;;
  count <-- word_at buff 4 ;;
  x <-- slave_read E cc fd true idx index count (jk_reg jk) s ;;
  let '(s, reg) := x in
  if size - 3 <? count * 2 then Done (s, buff, MB_ERR_OVERFLOW)
  else if regsize <? index + count then create_exception s buff ME_BAD_ADDRESS
  else
    b <-- put_byte buff 2 (count * 2) ;;
    b <-- copy_words (Z.to_nat count) 0 reg b ;;
    Done (s, b, count * 2 + 3).

(** modbus.c:840-865 [_check_function_code_exception]: true means 0, no exception *)
Definition function_ok (p : mbport) (nd : mbnode) (f : Z) : bool :=
  if (f =? 1) || (f =? 5) || (f =? 15) then negb (nd_coil_size nd =? 0)
  else if f =? 2 then negb (nd_disc_size nd =? 0)
  else if (f =? 3) || (f =? 6) || (f =? 16) then negb (nd_hold_size nd =? 0)
  else if f =? 4 then negb (nd_input_size nd =? 0)
  else if f =? 8 then negb (mp_tcp p)
  else false.

(** modbus.c:964-973: the coils of the request into [data] *)
Fixpoint take_coils (k : nat) (n : Z) (buff data : list Z) : run (list Z) :=
  match k with
  | O => Done data
  | S k =>
      if negb (in_bounds (7 + n / 8) 1 (zlen buff)) then Undef UOob
      else d <-- assign_bit data n (bit_of buff (56 + n)) ;; take_coils k (n + 1) buff d
  end.
(** modbus.c:983-985 *)
Fixpoint take_words (k : nat) (n : Z) (buff data : list Z) : run (list Z) :=
  match k with
  | O => Done data
  | S k =>
      if negb (in_bounds (7 + n * 2) 2 (zlen buff)) then Undef UOob
      else d <-- put_byte data (2 * n) (nthb buff (7 + n * 2 + 1)) ;; d <-- put_byte d (2 * n + 1) (nthb buff (7 + n * 2)) ;; take_words k (n + 1) buff d
  end.

(** the value of the int8_t [result] after an optional callback *)
Definition call (cb : option mbcallback) (node f index count result : Z) : Z :=
  match cb with
  | None => result
  | Some g => match g node f index count with None => result | Some v => s8 v end
  end.

(** modbus.c:873-1022 [create_response].  [buff] is what lies from the pointer to the end of its array.
    The result is the buffer and the return value: a length, 0 for no answer, or a negative error. *)
Definition create_response (E : env) (cc : ctypes) (fd : Z) (p : mbport) (jk : mbjunk) (buff : list Z) (size : Z) (s : server) : run (server * list Z * Z) :=
  match znth buff 0, znth buff 1 with
  | Some node0, Some f =>
      let sel := match mp_nodes p node0 with
                 | Some nd => Some (node0, nd)
                 | None => match mp_nodes p 0 with Some nd => Some (0, nd) | None => None end
                 end in
      match sel with
      | None => Done (s, buff, 0)
      | Some (node, nd) =>
          index <-- word_at buff 2 ;;
          count <-- word_at buff 4 ;;
          let reading := (f =? 1) || (f =? 2) || (f =? 3) || (f =? 4) in
          let result := if reading then call (nd_read_cb nd) node f index count (jk_result jk) else jk_result jk in
          if negb (result =? 0) then create_exception s buff result
          else if negb (function_ok p nd f) then create_exception s buff ME_WRONG_FUNCTION
          else if f =? 1 then read_bits_response E cc fd jk (nd_coil nd) (nd_coil_size nd) buff size s
          else if f =? 2 then read_bits_response E cc fd jk (nd_disc nd) (nd_disc_size nd) buff size s
          else if f =? 3 then read_words_response E cc fd jk (nd_hold nd) (nd_hold_size nd) buff size s
          else if f =? 4 then read_words_response E cc fd jk (nd_input nd) (nd_input_size nd) buff size s
          else if f =? 8 then Done (s, buff, Z.quot size 2)
          else
            let finish n s :=
              let result := call (nd_write_cb nd) node f index n result in
              if negb (result =? 0) then create_exception s buff result else Done (s, buff, 6) in
            if f =? 5 then
              if nd_coil_size nd <=? index then create_exception s buff ME_BAD_ADDRESS
              else
                d <-- put_byte (jk_data jk) 0 (if count =? 0 then 0 else 1) ;; d <-- put_byte d 1 0 ;;
                s <-- slave_write E cc fd false (nd_coil nd) index 1 d s ;; finish 1 s
            else if f =? 6 then
              if nd_hold_size nd <=? index then create_exception s buff ME_BAD_ADDRESS
              else
                d <-- put_byte (jk_data jk) 0 count ;; d <-- put_byte d 1 (count / 256) ;;
                s <-- slave_write E cc fd true (nd_hold nd) index 1 d s ;; finish 1 s
            else if f =? 15 then
              if nd_coil_size nd <? index + count then create_exception s buff ME_BAD_ADDRESS
              else
                d <-- take_coils (Z.to_nat count) 0 buff (jk_data jk) ;;
                s <-- slave_write E cc fd false (nd_coil nd) index count d s ;; finish count s
            else if f =? 16 then
              if nd_hold_size nd <? index + count then create_exception s buff ME_BAD_ADDRESS
              else
                d <-- take_words (Z.to_nat count) 0 buff (jk_data jk) ;;
                s <-- slave_write E cc fd true (nd_hold nd) index count d s ;; finish count s
            else Undef UUninit
      end
  | _, _ => Undef UOob
  end.

(** modbus.h:158-163 struct client_buffer: what a TCP connection has received so far *)
Record mbconn := mk_mbconn { cn_buff : list Z; cn_index : Z }.
(** mbserver.c:119-166 [_mb_read] after [rx] (1 to 100 bytes) was read.  The last component is what was written to the socket, and the return value *)
Definition mb_read (E : env) (cc : ctypes) (fd : Z) (p : mbport) (jk : mbjunk) (c : mbconn) (rx : list Z) (s : server) : run (server * mbconn * (list Z * Z)) :=
  let '(mk_mbconn buff bi) := c in
  if MB_BUFF_SIZE <? zlen rx + bi then Done (s, c, ([], MB_ERR_OVERFLOW))
  else if negb (in_bounds bi (zlen rx) (zlen buff)) then Undef UOob
  else
    let buff := splice bi rx buff in
    let bi := bi + zlen rx in
    if bi <=? 5 then Done (s, mk_mbconn buff bi, ([], 0))
    else
      msgsize <-- word_at buff 4 ;;
      if bi <? msgsize + 6 then Done (s, mk_mbconn buff bi, ([], 0))
      else
        x <-- create_response E cc fd p jk (skipn 6 buff) (MB_BUFF_SIZE - 6) s ;;
        let '(s, b, r) := x in
        let buff := firstn 6 buff ++ b in
        if 0 <? r then
          buff <-- put_word buff 4 r ;;
          if in_bounds 0 (r + 6) (zlen buff) then Done (s, mk_mbconn buff 0, (slice 0 (r + 6) buff, 0)) else Undef UOob
        else Done (s, mk_mbconn buff bi, ([], if r <? 0 then r else 0)).

(** a connection over time (mbserver.c:211-262): the parts of the stream [rxs] in the order they were read, with nothing else going on *)
Fixpoint mb_serve (E : env) (cc : ctypes) (fd : Z) (p : mbport) (jk : mbjunk) (c : mbconn) (rxs : list (list Z)) (s : server) : run (server * mbconn * list (list Z * Z)) :=
  match rxs with
  | [] => Done (s, c, [])
  | rx :: rest =>
      x <-- mb_read E cc fd p jk c rx s ;; let '(s, c, o) := x in
      y <-- mb_serve E cc fd p jk c rest s ;; let '(s, c, os) := y in Done (s, c, o :: os)
  end.

(** mbslave.c:77-101: a frame [rx] (1 to 256 bytes) was read from a serial line into [junk] (256 bytes) *)
Definition serial_frame (E : env) (cc : ctypes) (fd : Z) (p : mbport) (jk : mbjunk) (junk rx : list Z) (s : server) : run (server * (list Z * Z)) :=
  let buff := splice 0 rx junk in
  ok <-- crc16check buff (zlen rx) ;;
  if ok =? 0 then Done (s, ([], 0))
  else
    x <-- create_response E cc fd p jk buff MB_BUFF_SIZE s ;;
    let '(s, b, r) := x in
    if 0 <? r then
      c <-- crc16 b r ;;
      b <-- put_word b r c ;;
      if in_bounds 0 (r + 2) (zlen b) then Done (s, (slice 0 (r + 2) b, 0)) else Undef UOob
    else Done (s, ([], if r <? 0 then r else 0)).

(** modbus.h:176-205 struct mb_cmd, the fields used in requests *)
Record mbcmd := mk_mbcmd { mc_enable : Z; mc_node : Z; mc_fn : Z; mc_reg : Z; mc_len : Z; mc_data : list Z; mc_last : Z; mc_first : bool }.
Definition with_last (c : mbcmd) (l : Z) : mbcmd := mk_mbcmd (mc_enable c) (mc_node c) (mc_fn c) (mc_reg c) (mc_len c) (mc_data c) l (mc_first c).
Definition with_first (c : mbcmd) : mbcmd := mk_mbcmd (mc_enable c) (mc_node c) (mc_fn c) (mc_reg c) (mc_len c) (mc_data c) (mc_last c) true.
(** mbcmds.c:95-159 [mb_set_command]: what it leaves in the command and whether it returned 0; the bytes gained by the data area (uninitialised) are zeros here *)
Definition cmd_size (fn len : Z) : Z :=
  if (fn =? 1) || (fn =? 2) || (fn =? 15) then Z.quot (len - 1) 8 + 1
  else if (fn =? 3) || (fn =? 4) || (fn =? 16) then len * 2
  else if fn =? 5 then 1 else 2.
Definition mb_set_command (c : mbcmd) (node fn reg len : Z) : mbcmd * bool :=
  if (node <? 1) || (247 <? node) then (c, false)
  else if negb ((1 <=? fn) && (fn <=? 6) || (fn =? 15) || (fn =? 16)) then (mk_mbcmd (mc_enable c) node (mc_fn c) (mc_reg c) (mc_len c) (mc_data c) (mc_last c) (mc_first c), false)
  else if ((fn =? 1) || (fn =? 2) || (fn =? 15)) && ((len <? 1) || (2000 <? len))
       || ((fn =? 3) || (fn =? 4) || (fn =? 16)) && ((len <? 1) || (125 <? len))
  then (mk_mbcmd (mc_enable c) node fn reg (mc_len c) (mc_data c) (mc_last c) (mc_first c), false)
  else (mk_mbcmd (mc_enable c) node fn reg len (firstn (Z.to_nat (cmd_size fn len)) (mc_data c ++ zeros (cmd_size fn len))) (mc_last c) (mc_first c), true).

(** [*cmd->data]: the data area is an array of bytes *)
Definition data_byte (c : mbcmd) : run Z := match znth (mc_data c) 0 with Some v => Done v | None => Undef UOob end.
(** the value compared with [lastcrc] for function codes 15 and 16 (only computed if the command is not continuous) *)
Definition data_crc (c : mbcmd) : run Z :=
  if (mc_fn c =? 15) && (mc_len c <=? 8) then data_byte c
  else if (mc_fn c =? 15) && (mc_len c <=? 16) then
    if in_bounds 0 2 (zlen (mc_data c)) then Done (le_val (slice 0 2 (mc_data c))) else Undef UOob
  else crc16 (mc_data c) (zlen (mc_data c)).
(** whether the request is sent, and the value to remember.  [junk] is what an uninitialised [crc] holds *)
Definition must_send (c : mbcmd) (junk : Z) : run (bool * mbcmd) :=
  if mc_fn c =? 5 then
    t <-- data_byte c ;;
    let go := (mc_enable c =? 1) || negb (t =? mc_last c) || negb (mc_first c) in
    Done (go, if go then with_first (with_last c t) else c)
  else if mc_fn c =? 6 then
    t <-- data_byte c ;;
    let go := (mc_enable c =? 1) || negb (t =? mc_last c) in
    Done (go, if go then with_last c t else c)
  else if (mc_fn c =? 15) || (mc_fn c =? 16) then
    t <-- (if mc_enable c =? 1 then Done junk else data_crc c) ;;
    let go := (mc_enable c =? 1) || negb (t =? mc_last c) in
    Done (go, if go then with_last c t else c)
  else Done (true, c).

(** copy a list into the buffer; words with their bytes exchanged *)
Fixpoint put_bytes (b : list Z) (i : Z) (l : list Z) : run (list Z) :=
  match l with [] => Done b | v :: l => b <-- put_byte b i v ;; put_bytes b (i + 1) l end.
Fixpoint put_swapped (k : nat) (n : Z) (data b : list Z) (i : Z) : run (list Z) :=
  match k with
  | O => Done b
  | S k =>
      if negb (in_bounds (2 * n) 2 (zlen data)) then Undef UOob
      else b <-- put_byte b i (nthb data (2 * n + 1)) ;; b <-- put_byte b (i + 1) (nthb data (2 * n)) ;; put_swapped k (n + 1) data b (i + 2)
  end.
(** modbus.c:290-292: the loop runs to buff[7], which its first round overwrites *)
Fixpoint rtu_coils (fuel : nat) (n : Z) (data b : list Z) : run (list Z) :=
  match fuel with
  | O => Undef UFuel
  | S k =>
      if n <? nthb b 7 then
        match znth data n with
        | None => Undef UOob
        | Some v => b <-- put_byte b (7 + n) v ;; rtu_coils k (n + 1) data b
        end
      else Done b
  end.

(** modbus.c:228-331 [sendRTUrequest]: the frame sent, if any.  [junk] is the buffer before (1024 bytes), [jcrc] an uninitialised word.
    A function code other than the eight leaves [length] uninitialised. *)
Definition rtu_request (c : mbcmd) (junk : list Z) (jcrc : Z) : run (option (list Z) * mbcmd) :=
  x <-- must_send c jcrc ;;
  let '(go, c') := x in
  if negb go then Done (None, c')
  else
    b <-- put_byte junk 0 (mc_node c) ;; b <-- put_byte b 1 (mc_fn c) ;;
    b <-- put_word b 2 (mc_reg c) ;;
    y <-- (if (1 <=? mc_fn c) && (mc_fn c <=? 4) then b <-- put_word b 4 (mc_len c) ;; Done (b, 6)
           else if mc_fn c =? 5 then
             t <-- data_byte c ;; b <-- put_byte b 4 (if t =? 0 then 0 else 255) ;; b <-- put_byte b 5 0 ;; Done (b, 6)
           else if mc_fn c =? 6 then t <-- data_byte c ;; b <-- put_word b 4 t ;; Done (b, 6)
           else if mc_fn c =? 15 then
             b <-- put_word b 4 (mc_len c) ;; b <-- put_byte b 6 (Z.quot (mc_len c - 1) 8 + 1) ;;
             b <-- rtu_coils 257 0 (mc_data c) b ;; Done (b, u8 (7 + nthb b 7))
           else if mc_fn c =? 16 then
             b <-- put_word b 4 (mc_len c) ;; b <-- put_byte b 6 (mc_len c * 2) ;;
             b <-- put_swapped (Z.to_nat (mc_len c)) 0 (mc_data c) b 7 ;; Done (b, u8 (7 + mc_len c * 2))
           else Undef UUninit) ;;
    let '(b, length) := y in
    crc <-- crc16 b length ;;
    b <-- put_word b length crc ;;
    Done (Some (slice 0 (length + 2) b), c').

(** modbus.c:400-509 [sendTCPrequest]; [tid] is the transaction number *)
Definition tcp_request (c : mbcmd) (tid : Z) (junk : list Z) (jcrc : Z) : run (option (list Z) * mbcmd) :=
  x <-- must_send c jcrc ;;
  let '(go, c') := x in
  if negb go then Done (None, c')
  else
    b <-- put_word junk 0 tid ;; b <-- put_word b 2 0 ;;
    b <-- put_byte b 6 (mc_node c) ;; b <-- put_byte b 7 (mc_fn c) ;;
    b <-- put_word b 8 (mc_reg c) ;;
    y <-- (if (1 <=? mc_fn c) && (mc_fn c <=? 4) then b <-- put_word b 10 (mc_len c) ;; Done (b, 6)
           else if mc_fn c =? 5 then
             t <-- data_byte c ;; b <-- put_byte b 10 (if t =? 0 then 0 else 255) ;; b <-- put_byte b 5 0 ;; Done (b, 6)
           else if mc_fn c =? 6 then b <-- put_swapped 1 0 (mc_data c) b 10 ;; Done (b, 6)
           else if mc_fn c =? 15 then
             b <-- put_word b 10 (mc_len c) ;;
             let n := u8 (Z.quot (mc_len c - 1) 8 + 1) in
             b <-- put_byte b 12 n ;;
             b <-- (if in_bounds 0 n (zlen (mc_data c)) then put_bytes b 13 (slice 0 n (mc_data c)) else Undef UOob) ;; Done (b, 7 + n)
           else if mc_fn c =? 16 then
             b <-- put_word b 10 (mc_len c) ;; b <-- put_byte b 12 (mc_len c * 2) ;;
             b <-- put_swapped (Z.to_nat (mc_len c)) 0 (mc_data c) b 13 ;; Done (b, u16 (7 + mc_len c * 2))
           else Undef UUninit) ;;
    let '(b, length) := y in
    b <-- put_word b 4 length ;;
    if in_bounds 0 (length + 6) (zlen b) then Done (Some (slice 0 (length + 6) b), c') else Undef UOob.

(** modbus.c:563-596 [handleresponse]: the code returned and the data area afterwards; [buff] starts with the unit number *)
Fixpoint get_words (k : nat) (n : Z) (buff data : list Z) : run (list Z) :=
  match k with
  | O => Done data
  | S k =>
      if negb (in_bounds (n * 2 + 3) 2 (zlen buff)) then Undef UOob
      else d <-- put_byte data (2 * n) (nthb buff (n * 2 + 4)) ;; d <-- put_byte d (2 * n + 1) (nthb buff (n * 2 + 3)) ;; get_words k (n + 1) buff d
  end.
Definition handle_response (c : mbcmd) (buff : list Z) : run (Z * list Z) :=
  if negb (in_bounds 0 3 (zlen buff)) then Undef UOob
  else if 128 <=? nthb buff 1 then Done (nthb buff 2, mc_data c)
  else if negb (nthb buff 0 =? mc_node c) then Done (3, mc_data c)
  else if negb (nthb buff 1 =? mc_fn c) then Done (ME_WRONG_FUNCTION, mc_data c)
  else if (mc_fn c =? 1) || (mc_fn c =? 2) then
    let n := nthb buff 2 in
    if in_bounds 3 n (zlen buff) && in_bounds 0 n (zlen (mc_data c)) then Done (0, splice 0 (slice 3 n buff) (mc_data c)) else Undef UOob
  else if (mc_fn c =? 3) || (mc_fn c =? 4) then
    d <-- get_words (Z.to_nat (nthb buff 2 / 2)) 0 buff (mc_data c) ;; Done (0, d)
  else Done (0, mc_data c).

(** modbus.c:517-548 [getTCPresponse] after [rx] (at most 256 bytes, at least one) was read: the buffer and the length returned.  With fewer
    than 6 bytes the size given to memcpy is negative, that is very large *)
Definition get_tcp_response (buff rx : list Z) : run (list Z * Z) :=
  if zlen rx <? 6 then Undef UOob
  else if in_bounds 0 (zlen rx - 6) (zlen buff) then Done (splice 0 (skipn 6 rx) buff, zlen rx - 6) else Undef UOob.
(** modbus.c:717-731, the body of the loop of [mb_send_command] once something was received: the error code (0: none) and the data area *)
Definition tcp_answer (c : mbcmd) (buff rx : list Z) : run (Z * list Z) :=
  x <-- get_tcp_response buff rx ;;
  let '(buff, msglen) := x in
  if 0 <? msglen then handle_response c buff else Done (ME_TIMEOUT, mc_data c).
