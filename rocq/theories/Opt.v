(** * Opt: the configuration of a module (src/lib/libopt.c, libinit.c:39-86) and of the
    server (src/server/options.c).

    Modelled as parameters: ETC_DIR (common.h:49-51, a compile time constant); what the memory
    from malloc holds ([zeroed]); what running a configuration file leaves in the Lua globals
    ([luafile]).  getopt_long(3) is written out (glibc, without POSIXLY_CORRECT, first use in
    the process), for option letters other than '+' '-' ':' ';' and with the order of the
    arguments after the call left out.  Strings are lists of non-zero bytes.  malloc and strdup
    succeed.  Left out: the log (dax_log, topics, mask), the hooks for Lua functions. *)
From Verif Require Import Base Const Types.

(** opendax.h:140-145 *)
Definition CFG_ARG_NONE : Z := 0.
Definition CFG_ARG_OPTIONAL : Z := 1.
Definition CFG_ARG_REQUIRED : Z := 2.
Definition CFG_CMDLINE : Z := 4.
Definition CFG_MODCONF : Z := 16.
Definition CFG_NO_VALUE : Z := 32.
Definition has (flags f : Z) : bool := negb (Z.land flags f =? 0).

(** The pointer [value] of an attribute: NULL, a string from strdup, the literal of
    libopt.c:259, or a string that has been freed. *)
Inductive aval : Type := VNull | VHeap (s : name) | VLit (s : name) | VFreed.

(** libdax.h:39-48 [optattr]; a callback is a number, 0 for NULL *)
Record attr := mkAttr { a_name : name; a_long : option name; a_short : Z; a_def : option name;
                        a_val : aval; a_flags : Z; a_cb : Z }.

(** the part of dax_state (libdax.h:103-133) used here, and the calls made to callbacks *)
Record conf := mkConf { c_attrs : list attr; c_mod : name; c_timeout : Z;
                        c_calls : list (Z * name * option name) }.
Definition with_attrs (c : conf) (l : list attr) : conf := mkConf l (c_mod c) (c_timeout c) (c_calls c).
Definition set_val (a : attr) (v : aval) : attr :=
  mkAttr (a_name a) (a_long a) (a_short a) (a_def a) v (a_flags a) (a_cb a).

(** ** Registration of attributes *)

(** libopt.c:114-132 [_validate_name] (true: accepted) *)
Definition ok_rest (dash : bool) (c : Z) : bool := isalpha c || (c =? 95) || (dash && (c =? 45)) || isdigit c.
Definition validate_name (n : option name) : bool :=
  match n with
  | None => true
  | Some [] => false
  | Some (c :: r) => (isalpha c || (c =? 95)) && forallb (ok_rest false) r
  end.
(** libopt.c:134-149 [_validate_longopt]: the loop starts at 1 *)
Definition validate_longopt (n : option name) : bool :=
  match n with
  | None => true
  | Some [] => true
  | Some (_ :: r) => forallb (ok_rest true) r
  end.

(** libopt.c:152-184 [_check_attr], the loop over the registered attributes *)
Fixpoint check_used (l : list attr) (n : option name) (lo : option name) (so : Z) : run Z :=
  match l with
  | [] => Done 0
  | a :: r =>
    match n with
    | None => Undef UNull
    | Some nm =>
      if name_eqb (a_name a) nm then Done E_DUPL
      else if match lo, a_long a with Some x, Some y => name_eqb y x | _, _ => false end then Done E_DUPL
      else if a_short a =? so then Done E_DUPL
      else check_used r n lo so
    end
  end.
Definition check_attr (c : conf) (n lo : option name) (so : Z) : run Z :=
  if negb (validate_name n) then Done E_ARG
  else if negb (validate_longopt lo) then Done E_ARG
  else check_used (c_attrs c) n lo so.

(** libopt.c:186-224 [dax_add_attribute] *)
Definition add_attribute (c : conf) (n lo : option name) (so flags : Z) (def : option name) : run (conf * Z) :=
  r <-- check_attr c n lo so ;;
  if negb (r =? 0) then Done (c, r)
  else match n with
       | None => Done (c, E_ARG)
       | Some nm => Done (with_attrs c (mkAttr nm lo so def VNull flags 0 :: c_attrs c), 0)
       end.

(** libopt.c:231-244 [dax_attr_callback].  The loop never moves to the next attribute;
    [fuel] counts its rounds, [None]: still running. *)
Fixpoint attr_callback (fuel : nat) (c : conf) (n : name) (cb : Z) : option (conf * Z) :=
  match c_attrs c with
  | [] => Some (c, E_NOTFOUND)
  | a :: r =>
    match fuel with
    | O => None
    | Datatypes.S k =>
      if name_eqb (a_name a) n
      then Some (with_attrs c (mkAttr (a_name a) (a_long a) (a_short a) (a_def a) (a_val a) (a_flags a) cb :: r), 0)
      else attr_callback k c n cb
    end
  end.

(** libopt.c:593-608 [dax_get_attr]: the pointer *)
Fixpoint find_attr (l : list attr) (n : name) : option attr :=
  match l with
  | [] => None
  | a :: r => if name_eqb (a_name a) n then Some a else find_attr r n
  end.
Definition get_ptr (c : conf) (n : name) : aval :=
  match find_attr (c_attrs c) n with Some a => a_val a | None => VNull end.
(** the string a caller reads through that pointer; [None]: NULL *)
Definition get_attr (c : conf) (n : name) : run (option name) :=
  match get_ptr c n with
  | VNull => Done None
  | VHeap s | VLit s => Done (Some s)
  | VFreed => Undef UUaf
  end.

(** libopt.c:614-634 [dax_set_attr].  free of the string literal or of a freed string: undefined *)
Definition strdup (s : option name) : run aval :=
  match s with Some x => Done (VHeap x) | None => Undef UNull end.
Definition free_val (v : aval) : run unit :=
  match v with VNull | VHeap _ => Done tt | VLit _ | VFreed => Undef UUaf end.
Fixpoint set_in (l : list attr) (n : name) (v : option name) : run (list attr * Z) :=
  match l with
  | [] => Done ([], E_NOTFOUND)
  | a :: r =>
    if name_eqb (a_name a) n then
      _ <-- free_val (a_val a) ;;
      p <-- strdup (match v with None => a_def a | Some x => Some x end) ;;
      Done (set_val a p :: r, 0)
    else x <-- set_in r n v ;; Done (a :: fst x, snd x)
  end.
Definition set_attr_by_name (c : conf) (n : name) (v : option name) : run (conf * Z) :=
  x <-- set_in (c_attrs c) n v ;; Done (with_attrs c (fst x), snd x).

(** ** The command line *)

(** libopt.c:252-267 [_set_attr] on one attribute: the attribute and the call of its callback *)
Definition YES : name := str "Yes".
Definition set_attr (a : attr) (v : option name) : run (attr * list (Z * name * option name)) :=
  p <-- (if has (a_flags a) CFG_NO_VALUE then Done (a_val a)
         else if has (a_flags a) (Z.lor CFG_ARG_OPTIONAL CFG_ARG_REQUIRED) then strdup v
         else Done (VLit YES)) ;;
  Done (set_val a p, if a_cb a =? 0 then [] else [(a_cb a, a_name a, v)]).

(** libopt.c:283-295: the characters counted for [shortopts] *)
Definition short_count (a : attr) : Z :=
  if a_short a =? 0 then 0
  else 1 + (if has (a_flags a) CFG_ARG_OPTIONAL then 2 else if has (a_flags a) CFG_ARG_REQUIRED then 1 else 0).
Definition o_count (l : list attr) : Z := fold_right (fun a n => short_count a + n) 0 l.
(** libopt.c:310-342: what is written to [shortopts] and to [options] *)
Definition short_chars (a : attr) : list Z :=
  if has (a_flags a) CFG_CMDLINE && negb (a_short a =? 0)
  then a_short a :: (if has (a_flags a) CFG_ARG_OPTIONAL then [58; 58] else if has (a_flags a) CFG_ARG_REQUIRED then [58] else [])
  else [].
Definition shortopts (l : list attr) : list Z := flat_map short_chars l.
(** getopt.h: struct option *)
Inductive has_arg := NoArg | ReqArg | OptArg.
Record lopt := mkLopt { l_name : name; l_arg : has_arg; l_val : Z }.
Definition arg_of (flags : Z) : has_arg :=
  if has flags CFG_ARG_OPTIONAL then OptArg else if has flags CFG_ARG_REQUIRED then ReqArg else NoArg.
Definition long_of (a : attr) : list lopt :=
  match a_long a with
  | Some n => if has (a_flags a) CFG_CMDLINE then [mkLopt n (arg_of (a_flags a)) (a_short a)] else []
  | None => []
  end.
Definition longopts (l : list attr) : list lopt := flat_map long_of l.

(** Neither table is terminated (libopt.c:297-342); [zeroed]: the memory from malloc happens to
    hold zeroes.  [tab_end]: the element after the last one written is read. *)
Definition tab_end (zeroed : bool) : run unit := if zeroed then Done tt else Undef UUninit.

(** strchr(shortopts, c): what follows the letter *)
Fixpoint strchr (c : Z) (s : list Z) : option (list Z) :=
  match s with [] => None | x :: r => if x =? c then Some r else strchr c r end.
(** the two characters after an option letter, read one after the other *)
Definition short_arg (zeroed : bool) (after : list Z) : run has_arg :=
  match after with
  | [] => _ <-- tab_end zeroed ;; Done NoArg
  | 58 :: 58 :: _ => Done OptArg
  | [58] => _ <-- tab_end zeroed ;; Done ReqArg
  | 58 :: _ => Done ReqArg
  | _ => Done NoArg
  end.

(** glibc getopt.c process_long_option: an exact name, or an abbreviation that names one option *)
Fixpoint is_prefix (p s : name) : bool :=
  match p, s with
  | [], _ => true
  | x :: p', y :: s' => (x =? y) && is_prefix p' s'
  | _ :: _, [] => false
  end.
Fixpoint find_exact (tab : list lopt) (n : name) : option lopt :=
  match tab with [] => None | o :: r => if name_eqb (l_name o) n then Some o else find_exact r n end.
Definition same_opt (a b : lopt) : bool :=
  match l_arg a, l_arg b with NoArg, NoArg | ReqArg, ReqArg | OptArg, OptArg => l_val a =? l_val b | _, _ => false end.
Definition find_abbrev (tab : list lopt) (n : name) : option lopt :=
  match filter (fun o => is_prefix n (l_name o)) tab with
  | [] => None
  | o :: r => if forallb (same_opt o) r then Some o else None
  end.
Definition find_long (zeroed : bool) (tab : list lopt) (n : name) : run (option lopt) :=
  match find_exact tab n with
  | Some o => Done (Some o)
  | None => _ <-- tab_end zeroed ;; Done (find_abbrev tab n)
  end.
(** the name before '=' and the text after it *)
Fixpoint split_eq (s : name) : name * option name :=
  match s with
  | [] => ([], None)
  | c :: r => if c =? 61 then ([], Some r) else let '(n, v) := split_eq r in (c :: n, v)
  end.

(** One result of getopt_long: the return value, optarg, and the name of the long option found *)
Record found := mkFound { f_ch : Z; f_arg : option name; f_long : name }.
Definition QMARK : Z := 63.

(** one argument "-xyz": the results, and whether the next argument was used up *)
Fixpoint short_args (zeroed : bool) (so : list Z) (cs : name) (next : option name) : run (list found * bool) :=
  match cs with
  | [] => Done ([], false)
  | c :: r =>
    match strchr c so with
    | None =>
      _ <-- tab_end zeroed ;;
      x <-- short_args zeroed so r next ;; Done (mkFound QMARK None [] :: fst x, snd x)
    | Some after =>
      if (c =? 58) || (c =? 59) then
        x <-- short_args zeroed so r next ;; Done (mkFound QMARK None [] :: fst x, snd x)
      else
      k <-- short_arg zeroed after ;;
      match k with
      | NoArg => x <-- short_args zeroed so r next ;; Done (mkFound c None [] :: fst x, snd x)
      | OptArg => Done ([mkFound c (if is_nil r then None else Some r) []], false)
      | ReqArg =>
        if negb (is_nil r) then Done ([mkFound c (Some r) []], false)
        else match next with
             | Some v => Done ([mkFound c (Some v) []], true)
             | None => Done ([mkFound QMARK None []], false)
             end
      end
    end
  end.
(** one argument "--name" or "--name=value" *)
Definition long_args (zeroed : bool) (tab : list lopt) (s : name) (next : option name) : run (found * bool) :=
  let '(n, v) := split_eq s in
  o <-- find_long zeroed tab n ;;
  match o with
  | None => Done (mkFound QMARK None [], false)
  | Some o =>
    match l_arg o, v with
    | NoArg, None => Done (mkFound (l_val o) None (l_name o), false)
    | NoArg, Some _ => Done (mkFound QMARK None [], false)
    | _, Some x => Done (mkFound (l_val o) (Some x) (l_name o), false)
    | OptArg, None => Done (mkFound (l_val o) None (l_name o), false)
    | ReqArg, None =>
      match next with
      | Some x => Done (mkFound (l_val o) (Some x) (l_name o), true)
      | None => Done (mkFound QMARK None [], false)
      end
    end
  end.
(** all results, in order; [skip]: the next argument was used as a value *)
Fixpoint getopt (zeroed : bool) (so : list Z) (tab : list lopt) (args : list name) (skip : bool) : run (list found) :=
  match args with
  | [] => Done []
  | a :: r =>
    if skip then getopt zeroed so tab r false
    else match a with
         | [45; 45] => Done []
         | 45 :: 45 :: s =>
           x <-- long_args zeroed tab s (hd_error r) ;;
           l <-- getopt zeroed so tab r (snd x) ;; Done (fst x :: l)
         | 45 :: _ :: _ =>
           x <-- short_args zeroed so (tl a) (hd_error r) ;;
           l <-- getopt zeroed so tab r (snd x) ;; Done (fst x ++ l)
         | _ => getopt zeroed so tab r false
         end
  end.

(** libopt.c:346-367: one result stored in the attribute it belongs to *)
Fixpoint store_by_char (l : list attr) (ch : Z) (v : option name) : run (list attr * list (Z * name * option name)) :=
  match l with
  | [] => Done ([], [])
  | a :: r =>
    if a_short a =? ch then x <-- set_attr a v ;; Done (fst x :: r, snd x)
    else x <-- store_by_char r ch v ;; Done (a :: fst x, snd x)
  end.
Fixpoint store_by_long (l : list attr) (n : name) (v : option name) : run (list attr * list (Z * name * option name)) :=
  match l with
  | [] => Done ([], [])
  | a :: r =>
    match a_long a with
    | None => Undef UNull
    | Some ln =>
      if case_eqb ln n then x <-- set_attr a v ;; Done (fst x :: r, snd x)
      else x <-- store_by_long r n v ;; Done (a :: fst x, snd x)
    end
  end.
Definition store (c : conf) (f : found) : run conf :=
  x <-- (if 0 <? f_ch f then store_by_char (c_attrs c) (f_ch f) (f_arg f)
         else if f_ch f =? 0 then store_by_long (c_attrs c) (f_long f) (f_arg f)
         else Done (c_attrs c, [])) ;;
  Done (mkConf (fst x) (c_mod c) (c_timeout c) (c_calls c ++ snd x)).
Fixpoint store_all (c : conf) (l : list found) : run conf :=
  match l with [] => Done c | f :: r => c <-- store c f ;; store_all c r end.

(** libopt.c:271-372 [_parse_commandline]; the arrays hold o_count+1 and attr_count+1 elements *)
Definition parse_commandline (zeroed : bool) (c : conf) (argv : list name) : run conf :=
  let l := c_attrs c in
  if (o_count l + 1 <=? zlen (shortopts l)) || (zlen l + 1 <=? zlen (longopts l)) then Undef UOob
  else f <-- getopt zeroed (shortopts l) (longopts l) (tl argv) false ;; store_all c f.

(** ** The configuration file *)

(** a Lua global: a boolean, something lua_tostring turns into a string, anything else *)
Inductive lval := LBool (b : bool) | LStr (s : name) | LNone.
(** running the file at a path with the globals calling_module and configdir set: [None] for a
    file that is missing or fails, otherwise the globals it leaves *)
Definition luafile : Type := name -> name -> name -> option (name -> lval).

(** libopt.c:383-391 *)
Definition lua_text (v : lval) : option name :=
  match v with LBool true => Some (str "true") | LBool false => Some (str "false") | LStr s => Some s | LNone => None end.
Definition is_null (v : aval) : bool := match v with VNull => true | _ => false end.
(** libopt.c:377-398 [_get_lua_globals] *)
Fixpoint get_lua_globals (g : name -> lval) (l : list attr) : run (list attr * list (Z * name * option name)) :=
  match l with
  | [] => Done ([], [])
  | a :: r =>
    x <-- (match lua_text (g (a_name a)) with
           | Some s => if is_null (a_val a) then set_attr a (Some s) else Done (a, [])
           | None => Done (a, [])
           end) ;;
    y <-- get_lua_globals g r ;;
    Done (fst x :: fst y, snd x ++ snd y)
  end.

(** free(cfile) when cfile is the value of an attribute: the attribute keeps the pointer *)
Fixpoint free_in (l : list attr) (n : name) : run (list attr) :=
  match l with
  | [] => Done []
  | a :: r =>
    if name_eqb (a_name a) n then _ <-- free_val (a_val a) ;; Done (set_val a VFreed :: r)
    else x <-- free_in r n ;; Done (a :: x)
  end.

(** libopt.c:443-491 [_mod_config_file] *)
Definition mod_config_file (lua : luafile) (c : conf) : run (conf * Z) :=
  cfile <-- get_attr c (str "config") ;;
  cdir <-- get_attr c (str "confdir") ;;
  match cdir with
  | None => Undef UNull
  | Some dir =>
    let path := match cfile with Some p => p | None => dir ++ str "/" ++ c_mod c ++ str ".conf" end in
    x <-- (match lua path (c_mod c) dir with
           | None => Done (c, E_NOTFOUND)
           | Some g => y <-- get_lua_globals g (c_attrs c) ;;
                       Done (mkConf (fst y) (c_mod c) (c_timeout c) (c_calls c ++ snd y), 0)
           end) ;;
    match cfile with
    | None => Done x
    | Some _ => l <-- free_in (c_attrs (fst x)) (str "config") ;; Done (with_attrs (fst x) l, snd x)
    end
  end.

(** libopt.c:495-514 [_set_defaults] *)
Definition set_default (a : attr) : attr :=
  match a_val a with
  | VNull => set_val a (match a_def a with Some d => VHeap d | None => VNull end)
  | _ => a
  end.

(** libdax.h:135-137; libopt.c:536-549 [_verify_config] *)
Definition MIN_TIMEOUT : Z := 500.
Definition MAX_TIMEOUT : Z := 30000.
Definition DEFAULT_TIMEOUT : name := str "1000".
Definition verify_config (c : conf) : run conf :=
  s <-- get_attr c (str "msgtimeout") ;;
  match s with
  | None => Undef UNull
  | Some s =>
    let t := s32 (strtol0 s) in
    Done (mkConf (c_attrs c) (c_mod c)
            (if (t <? MIN_TIMEOUT) || (MAX_TIMEOUT <? t) then s32 (strtol0 DEFAULT_TIMEOUT) else t) (c_calls c))
  end.

(** libopt.c:553-590 [dax_configure].  The result [None]: the variable result was never set. *)
Definition configure (etc : name) (lua : luafile) (zeroed : bool) (c : conf) (argv : list name) (flags : Z)
  : run (conf * option Z) :=
  c <-- (if has flags CFG_CMDLINE then parse_commandline zeroed c argv else Done c) ;;
  c <-- (if is_null (get_ptr c (str "confdir"))
         then x <-- set_attr_by_name c (str "confdir") (Some etc) ;; Done (fst x) else Done c) ;;
  n <-- get_attr c (str "name") ;;
  let c := match n with Some m => mkConf (c_attrs c) m (c_timeout c) (c_calls c) | None => c end in
  x <-- (if has flags CFG_MODCONF then y <-- mod_config_file lua c ;; Done (fst y, Some (snd y)) else Done (c, None)) ;;
  let c := with_attrs (fst x) (map set_default (c_attrs (fst x))) in
  c <-- verify_config c ;;
  Done (c, snd x).

(** libopt.c:47-83 [init_config], called by dax_init (libinit.c:39-86): the attributes every
    module has; the sum of the results *)
Fixpoint add_all (c : conf) (l : list (name * option name * Z * Z * option name)) : run (conf * Z) :=
  match l with
  | [] => Done (c, 0)
  | (n, lo, so, fl, def) :: r =>
    x <-- add_attribute c (Some n) lo so fl def ;;
    y <-- add_all (fst x) r ;; Done (fst y, snd x + snd y)
  end.
Definition std (n : string) (ch : Z) (fl : Z) (def : option name) : name * option name * Z * Z * option name :=
  (str n, Some (str n), ch, fl, def).
Definition std_attrs (etc modname : name) : list (name * option name * Z * Z * option name) :=
  let f1 := Z.lor (Z.lor CFG_CMDLINE CFG_MODCONF) CFG_ARG_REQUIRED in
  let f2 := Z.lor CFG_CMDLINE CFG_ARG_REQUIRED in
  [ std "socketname" 85 f1 (Some (str "/tmp/opendax"));
    std "serverip" 73 f1 (Some (str "127.0.0.1"));
    std "serverport" 80 f1 (Some (str "7777"));
    std "server" 83 f1 (Some (str "LOCAL"));
    std "name" 78 f1 (Some modname);
    std "cachesize" 90 f1 (Some (str "8"));
    std "msgtimeout" 79 f1 (Some DEFAULT_TIMEOUT);
    std "config" 67 f2 None;
    std "confdir" 75 f2 (Some etc);
    std "logtopics" 84 f2 None;
    std "verbose" 118 CFG_CMDLINE None ].
Definition dax_init (etc modname : name) : run (conf * Z) :=
  add_all (mkConf [] modname 0 []) (std_attrs etc modname).

(** ** The server (src/server/options.c) *)

(** options.c:33-38; [sv_topics]: what was handed to dax_log_set_default_topics *)
Record sconf := mkS { sv_config : option name; sv_sock : option name; sv_ip : Z; sv_port : Z;
                      sv_excl : option name; sv_minb : Z; sv_topics : option name }.
(** what lua_tonumber and lua_tostring return for the globals read from the file *)
Record sglobals := mkG { g_minb : Z; g_sock : option name; g_port : Z; g_ip : option name; g_excl : option name }.

(** options.c:73-86: the option table and the letters *)
Definition sv_long : list lopt :=
  [ mkLopt (str "configfile") ReqArg 67; mkLopt (str "logtopics") ReqArg 84; mkLopt (str "socketname") ReqArg 83;
    mkLopt (str "serverip") ReqArg 73; mkLopt (str "serverport") ReqArg 80; mkLopt (str "mod-tag-exclude") ReqArg 88;
    mkLopt (str "version") NoArg 86; mkLopt (str "verbose") NoArg 118 ].
Definition sv_short : list Z := str "C:K:S:I:P:X:Vv".

(** inet_aton(3): the address as the number in s_addr; [None]: not an address *)
Definition inet_aton : Type := name -> option Z.

(** options.c:87-126, one result of getopt_long; [None]: exit(0) *)
Definition sv_opt (aton : inet_aton) (s : sconf) (f : found) : run (option sconf) :=
  let arg (k : name -> option sconf) : run (option sconf) :=
    match f_arg f with Some v => Done (k v) | None => Undef UNull end in
  let ch := f_ch f in
  if ch =? 67 then arg (fun v => Some (mkS (Some v) (sv_sock s) (sv_ip s) (sv_port s) (sv_excl s) (sv_minb s) (sv_topics s)))
  else if ch =? 84 then arg (fun v => Some (mkS (sv_config s) (sv_sock s) (sv_ip s) (sv_port s) (sv_excl s) (sv_minb s) (Some v)))
  else if ch =? 83 then arg (fun v => Some (mkS (sv_config s) (Some v) (sv_ip s) (sv_port s) (sv_excl s) (sv_minb s) (sv_topics s)))
  else if ch =? 73 then arg (fun v => Some (match aton v with
      | Some ip => mkS (sv_config s) (sv_sock s) ip (sv_port s) (sv_excl s) (sv_minb s) (sv_topics s)
      | None => s end))
  else if ch =? 80 then arg (fun v => Some (mkS (sv_config s) (sv_sock s) (sv_ip s) (u32 (strtol0 v)) (sv_excl s) (sv_minb s) (sv_topics s)))
  else if ch =? 88 then arg (fun v => Some (mkS (sv_config s) (sv_sock s) (sv_ip s) (sv_port s) (Some v) (sv_minb s) (sv_topics s)))
  else if ch =? 86 then Done None
  else Done (Some s).
Fixpoint sv_opts (aton : inet_aton) (s : sconf) (l : list found) : run (option sconf) :=
  match l with
  | [] => Done (Some s)
  | f :: r => x <-- sv_opt aton s f ;; match x with Some s => sv_opts aton s r | None => Done None end
  end.

(** (int)lua_tonumber: undefined when the number does not fit *)
Definition to_int (z : Z) : run Z := if fits32 z then Done z else Undef UOverflow.
(** options.c:131-204 [readconfigfile], after the file has run *)
Definition sv_file (aton : inet_aton) (s : sconf) (g : sglobals) : run sconf :=
  m <-- (if sv_minb s =? 0 then to_int (g_minb g) else Done (sv_minb s)) ;;
  p <-- (if sv_port s =? 0 then n <-- to_int (g_port g) ;; Done (u32 n) else Done (sv_port s)) ;;
  let sock := match sv_sock s with None => g_sock g | x => x end in
  let ip := if sv_ip s =? 0 then match g_ip g with Some c => match aton c with Some ip => ip | None => sv_ip s end | None => sv_ip s end
            else sv_ip s in
  let excl := match sv_excl s with None => g_excl g | x => x end in
  Done (mkS (sv_config s) sock ip p excl m (sv_topics s)).
(** options.c:54-61 [setdefaults], options.h:28,34 *)
Definition sv_defaults (s : sconf) : sconf :=
  mkS (sv_config s) (match sv_sock s with None => Some (str "/tmp/opendax") | x => x end) (sv_ip s)
      (if sv_port s =? 0 then 7777 else sv_port s) (sv_excl s) (if sv_minb s =? 0 then 5 else sv_minb s) (sv_topics s).
(** options.c:210-222 [opt_configure]; [lua path]: [None] when the file is missing or fails *)
Definition opt_configure (etc : name) (aton : inet_aton) (lua : name -> option sglobals) (argv : list name) : run (option sconf) :=
  f <-- getopt true sv_short sv_long (tl argv) false ;;
  x <-- sv_opts aton (mkS None None 0 0 None 0 None) f ;;
  match x with
  | None => Done None
  | Some s =>
    let path := match sv_config s with Some p => p | None => etc ++ str "/tagserver.conf" end in
    s <-- (match lua path with Some g => sv_file aton s g | None => Done s end) ;;
    Done (Some (sv_defaults s))
  end.
(** message.c:211, 164-199: the port is passed as in_port_t *)
Definition listen_port (s : sconf) : Z := u16 (sv_port s).
