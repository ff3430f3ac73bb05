(** * Daxc: the command line client (src/modules/daxc/daxc.c, daxc_tag.c)
    Modelled: how a line is cut into tokens, which command it is, how a file is read, and the commands WRITE, OP,
    ADD/DEL OVERRIDE, SET, CLEAR and DEL TAG.  What is printed is not modelled except for the error number of the last
    call of the library; ADD TAG/TYPE/MAP/EVENT, LIST, READ, WAIT, POLL and HELP only appear as commands.
    A string is the list of its characters without the terminator; malloc of small amounts and strdup succeed. *)
From Verif Require Import Base Const Types State Events Atomic Server Text ClientTypes Cache Path ClientData ClientOvr LuaApi.

(** daxc.c:43-80 [_str_daxtok] from the pointer [token] on: the token and what is left behind it *)
Fixpoint tok (inquote : bool) (lastchar : Z) (s : name) : name * name :=
  match s with
  | [] => ([], [])
  | c :: r =>
      if inquote then
        let '(t, rest) := tok (negb ((c =? 34) && negb (lastchar =? 92))) c r in (c :: t, rest)
      else if c =? 34 then let '(t, rest) := tok true c r in (c :: t, rest)
      else if c =? 32 then ([], r)
      else let '(t, rest) := tok false lastchar r in (c :: t, rest)
  end.
(** the calls with NULL until it returns NULL; [n] bounds their number *)
Fixpoint toks (n : nat) (s : name) : list name :=
  match n, s with
  | S n', _ :: _ => let '(t, rest) := tok false 0 s in t :: toks n' rest
  | _, _ => []
  end.
Definition tokens_of (line : name) : list name := toks (length line) line.

(** strncasecmp(a, b, n) == 0 *)
Definition starts (n : nat) (a b : name) : bool := case_eqb (firstn n a) (firstn n b).

(** what a line asks for; the lists are the tokens handed to the function of that name *)
Inductive dcmd :=
| CDax | CTagAdd (a : list name) | CCdtAdd (a : list name) | CMapAdd (a : list name) | CEventAdd (a : list name) | COvrAdd (a : list name)
| CTagDel (a : list name) | CMapDel (a : list name) | CEventDel (a : list name) | COvrDel (a : list name)
| CListTags (a : list name) | CListTypes (a : list name) | CMapGet (a : list name) | COvrGet (a : list name)
| CRead (a : list name) | CWrite (a : list name) | CWait (a : list name) | CPoll | CSet (a : list name) | CClr (a : list name) | COp (a : list name)
| CHelp (a : list name) | CExit | CNothing | CError.
(** daxc.c:309-371: the tests in their order.  CError: a message is printed; CNothing: not even that *)
Definition dispatch (t0 : name) (a : list name) : dcmd :=
  if case_eqb t0 (str "dax") then CDax
  else if starts 1 t0 (str "add") then
    match a with
    | [] => CTagAdd []
    | t1 :: a => if starts 3 t1 (str "tag") then CTagAdd a else if starts 4 t1 (str "type") then CCdtAdd a
                 else if starts 3 t1 (str "map") then CMapAdd a else if starts 5 t1 (str "event") then CEventAdd a
                 else if starts 2 t1 (str "override") then COvrAdd a else CNothing
    end
  else if starts 3 t0 (str "del") then
    match a with
    | [] => CError
    | t1 :: a => if starts 3 t1 (str "tag") then CTagDel a else if starts 3 t1 (str "map") then CMapDel a
                 else if starts 5 t1 (str "event") then CEventDel a else if starts 2 t1 (str "override") then COvrDel a else CNothing
    end
  else if starts 4 t0 (str "list") then
    match a with
    | [] => CListTags []
    | t1 :: a => if starts 3 t1 (str "tag") then CListTags a else if starts 4 t1 (str "type") then CListTypes a
                 else if starts 3 t1 (str "map") then CMapGet a else if starts 3 t1 (str "override") then COvrGet a else CError
    end
  else if starts 1 t0 (str "read") then CRead a
  else if starts 2 t0 (str "write") then CWrite a
  else if starts 4 t0 (str "wait") then CWait a
  else if starts 4 t0 (str "poll") then CPoll
  else if starts 3 t0 (str "set") then CSet a
  else if starts 3 t0 (str "clear") then CClr a
  else if starts 2 t0 (str "op") then COp a
  else if case_eqb t0 (str "help") then CHelp a
  else if case_eqb t0 (str "exit") then CExit
  else CError.
(** daxc.c:267-375 [runcmd].  malloc(8 * tcount+1, the size of a pointer being 8) asks for 8 * tcount + 1 bytes; [usable] gives the
    number of bytes of the block that malloc returns for a request *)
Definition runcmd (usable : Z -> Z) (line : name) : run (option dcmd) :=
  match line with
  | [] => Done None
  | c :: _ =>
      if c =? 35 then Done None
      else let l := tokens_of line in
           if usable (8 * zlen l + 1) <? 8 * (zlen l + 1) then Undef UOob       (* tokens[tcount] = NULL *)
           else match l with t0 :: a => Done (Some (dispatch t0 a)) | [] => Undef UNull end
  end.

(** fgets(3): at most [n] characters up to and with a newline; what is left of the file, and whether its end was seen *)
Fixpoint take_line (n : nat) (f : list Z) : list Z * list Z * bool :=
  match n, f with
  | O, _ => ([], f, false)
  | S _, [] => ([], [], true)
  | S n', c :: r => if c =? 10 then ([c], r, false) else let '(l, rest, e) := take_line n' r in (c :: l, rest, e)
  end.
Definition chop (s : name) : name := if last s 0 =? 10 then removelast s else s.
(** daxc.c:377-397 [runfile] for a file that can be opened: the strings given to runcmd, as long as none of them is EXIT.
    [held] is the string in the array [string], None: nothing was stored there; LINE_BUFF_SIZE is 256 *)
Fixpoint runfile_loop (fuel : nat) (held : option name) (f : list Z) : run (list name) :=
  match fuel with
  | O => Undef UFuel
  | S fuel' =>
      let '(l, rest, eof) := take_line 255 f in
      match (match l with [] => held | _ => cstr (l ++ [0]) end) with
      | None => Undef UUninit
      | Some [] => Undef UOob                                          (* string[-1] *)
      | Some s => if eof then Done [chop s] else r <-- runfile_loop fuel' (Some (chop s)) rest ;; Done (chop s :: r)
      end
  end.
Definition runfile (f : list Z) : run (list name) := runfile_loop (S (S (length f))) None f.

(** the first lines of a text argument, daxc_tag.c:429-440 and 627-638: one quote at either end is removed.  The second test
    looks at tokens[1][count-1], which for a lone quote is the quote already passed *)
Definition unquote (v : name) : name * Z :=
  let v1 := match v with 34 :: r => r | _ => v end in
  let count := zlen v1 in
  if count =? 0 then (v1, -1)
  else if last v1 0 =? 34 then (removelast v1, count - 1) else (v1, count).
(** the buffer for a text: calloc, then the characters that fit *)
Definition text_buffer (h : handle) (v : name) : list Z := firstn (Z.to_nat (h_size h)) (v ++ zeros (h_size h)).
Definition has_quote (v : name) : bool := existsb (fun c => c =? 34) v.
Definition skips (v : name) : bool := match v with c :: _ => c =? 126 | [] => false end.
(** daxc_tag.c:467-474 and 676-680: the values into the buffer and the mask, a value with ~ is skipped *)
Fixpoint put_values (T : tenv) (t : Z) (vs : list name) (n : Z) (buff mask : list Z) : run (list Z * list Z) :=
  match vs with
  | [] => Done (buff, mask)
  | v :: r =>
      if skips v then put_values T t r (n + 1) buff mask
      else x <-- string_to_val T (v ++ [0]) t buff (Some mask) n ;;
           match x with (buff, Some mask, _) => put_values T t r (n + 1) buff mask | (buff, None, _) => Undef UNull end
  end.

(** what a command leaves: the type cache, the server, and the error that is printed (0: none) *)
Definition after_cmd : Type := ctypes * server * Z.
Definition given (cc : ctypes) (x : server * Z) : run after_cmd := Done (cc, fst x, snd x).
(** daxc_tag.c:410-490 [tag_write] *)
Definition tag_write_cmd (E : env) (T : tenv) (db : name -> option ctag) (cc : ctypes) (fd : Z) (s : server) (a : list name) : run after_cmd :=
  match a with
  | nm :: v :: r =>
      if has_quote v then
        let '(v, count) := unquote v in
        if count <=? 0 then Done (cc, s, E_ARG)
        else
          x <-- tag_handle (s_types s) db cc nm 0 ;;
          match x with
          | (cc, inr _) => Done (cc, s, E_ARG)
          | (cc, inl h) =>
              if negb (typesize_bits (h_type h) =? 8) then Done (cc, s, E_ARG)
              else y <-- dax_tag_write E cc fd s h (text_buffer h v) ;; given cc y
          end
      else
        x <-- tag_handle (s_types s) db cc nm (zlen (v :: r)) ;;
        match x with
        | (cc, inr _) => Done (cc, s, E_ARG)
        | (cc, inl h) =>
            let vs := firstn (Z.to_nat (h_count h)) (v :: r) in
            y <-- put_values T (h_type h) vs 0 (zeros (h_size h)) (zeros (h_size h)) ;;
            let '(buff, mask) := y in
            if (h_type h =? T_BOOL) || existsb skips vs then z <-- dax_tag_mask E cc fd s h buff mask ;; given cc z
            else z <-- dax_tag_write E cc fd s h buff ;; given cc z
        end
  | _ => Done (cc, s, E_ARG)
  end.
(** daxc_tag.c:609-693 [override_add] *)
Definition override_add_cmd (E : env) (T : tenv) (db : name -> option ctag) (cc : ctypes) (fd : Z) (s : server) (a : list name) : run after_cmd :=
  match a with
  | nm :: v :: r =>
      if has_quote v then
        let '(v, count) := unquote v in
        if count <=? 0 then Done (cc, s, E_ARG)
        else
          x <-- tag_handle (s_types s) db cc nm 0 ;;
          match x with
          | (cc, inr _) => Done (cc, s, E_ARG)
          | (cc, inl h) =>
              if negb (typesize_bits (h_type h) =? 8) then Done (cc, s, E_ARG)
              else y <-- dax_tag_add_override E fd s h (text_buffer h v) ;; given cc y
          end
      else
        x <-- tag_handle (s_types s) db cc nm (zlen (v :: r)) ;;
        match x with
        | (cc, inr _) => Done (cc, s, E_ARG)
        | (cc, inl h) =>
            y <-- put_values T (h_type h) (firstn (Z.to_nat (h_count h)) (v :: r)) 0 (zeros (h_size h)) (zeros (h_size h)) ;;
            z <-- dax_tag_add_override E fd s h (fst y) ;; given cc z
        end
  | _ => Done (cc, s, E_ARG)
  end.
(** daxc_tag.c:702-790 [override_set], [override_clr], [override_del]: after an unknown tag the handle is used all the same *)
Definition override_cmd (E : env) (db : name -> option ctag) (cc : ctypes) (fd : Z) (s : server) (a : list name) (act : handle -> run (server * Z)) : run after_cmd :=
  match a with
  | [] => Done (cc, s, E_ARG)
  | nm :: _ =>
      x <-- tag_handle (s_types s) db cc nm 0 ;;
      match x with
      | (cc, inr _) => Undef UUninit
      | (cc, inl h) => y <-- act h ;; given cc y
      end
  end.
Definition override_set_cmd (E : env) (db : name -> option ctag) (cc : ctypes) (fd : Z) (s : server) (a : list name) : run after_cmd :=
  override_cmd E db cc fd s a (fun h => dax_switch_override E fd s h true).
Definition override_clr_cmd (E : env) (db : name -> option ctag) (cc : ctypes) (fd : Z) (s : server) (a : list name) : run after_cmd :=
  override_cmd E db cc fd s a (fun h => dax_switch_override E fd s h false).
Definition override_del_cmd (E : env) (db : name -> option ctag) (cc : ctypes) (fd : Z) (s : server) (a : list name) : run after_cmd :=
  override_cmd E db cc fd s a (fun h => dax_tag_del_override E fd s h).

(** daxc_tag.c:792-804 [_get_atomic_op_type] *)
Definition op_number (w : name) : Z :=
  if starts 3 w (str "inc") then 1 else if starts 3 w (str "dec") then 2 else if starts 3 w (str "not") then 3
  else if starts 2 w (str "or") then 4 else if starts 3 w (str "and") then 5 else if starts 3 w (str "nor") then 6
  else if starts 4 w (str "nand") then 7 else if starts 3 w (str "xor") then 8 else if starts 3 w (str "xnor") then 8 else 0.
(** daxc_tag.c:896-904: the loop over the values looks for ~ in the token before the value *)
Fixpoint put_operands (T : tenv) (t : Z) (before : name) (vs : list name) (n : Z) (buff mask : list Z) : run (list Z * list Z) :=
  match vs with
  | [] => Done (buff, mask)
  | v :: r =>
      if skips before then put_operands T t v r (n + 1) buff mask
      else x <-- string_to_val T (v ++ [0]) t buff (Some mask) n ;;
           match x with (buff, Some mask, _) => put_operands T t v r (n + 1) buff mask | (buff, None, _) => Undef UNull end
  end.
(** the types of the switch in daxc_tag.c:846-885 *)
Definition op_types : list Z := [T_BYTE; T_SINT; T_CHAR; T_UINT; T_WORD; T_INT; T_UDINT; T_DWORD; T_TIME; T_DINT; T_ULINT; T_LWORD; T_LINT; T_REAL; T_LREAL].
(** daxc_tag.c:806-915 [atomic_op]; every case of the switch ends with return 0.  The last component is the value returned *)
Definition atomic_op_cmd (E : env) (T : tenv) (db : name -> option ctag) (cc : ctypes) (fd : Z) (s : server) (a : list name) : run after_cmd :=
  match a with
  | nm :: o :: vs =>
      x <-- tag_handle (s_types s) db cc nm (zlen vs) ;;
      match x with
      | (cc, inr _) => Done (cc, s, E_ARG)
      | (cc, inl h) =>
          let opr := op_number o in
          if opr =? 0 then Done (cc, s, E_ARG)
          else match vs with
               | [] =>
                   if (opr =? 1) || (opr =? 2) then Done (cc, s, if existsb (Z.eqb (h_type h)) op_types then 0 else -1)
                   else if negb (opr =? 3) then Done (cc, s, -1)
                   else y <-- dax_atomic_op E fd s h (zeros (h_size h)) opr ;; given cc y
               | _ =>
                   y <-- put_operands T (h_type h) o (firstn (Z.to_nat (h_count h)) vs) 0 (zeros (h_size h)) (zeros (h_size h)) ;;
                   z <-- dax_atomic_op E fd s h (fst y) opr ;; given cc z
               end
      end
  | _ => Done (cc, s, E_ARG)
  end.

(** daxc_tag.c:126-157 [tag_del] for a tag that is not in the client's cache.  tokens[0] is not tested for NULL.  Of the errors of the
    look-up only ERR_NOTFOUND, ERR_ARG and ERR_DELETED end the function; after any other error the structure is used unset *)
Definition tag_del_cmd (E : env) (fd : Z) (s : server) (a : list name) : run (server * Z) :=
  match a with
  | [] => Undef UNull
  | nm :: _ =>
      r <-- (if isdigit (nthb nm 0) then ask E s (OpTagGetIdx fd (s32 (digits 10 0 nm)))
             else if 32 <? zlen nm then Done (s, inr E_2BIG)
             else if zlen nm =? 0 then Done (s, inr E_NOTFOUND) else ask E s (OpTagGetName fd nm)) ;;
      match r with
      | (s, inr e) => if (e =? E_NOTFOUND) || (e =? E_ARG) || (e =? E_DELETED) then Done (s, e) else Undef UUninit
      | (s, inl p) => r <-- ask E s (OpTagDel fd (s32 (le_val (slice 0 4 p)))) ;; match r with (s, inr e) => Done (s, e) | (s, inl _) => Done (s, 0) end
      end
  end.
