(** * MstrConf: the configuration of the master (src/master/mstr_config.c) and the listing of
    the processes that main makes of it (master.c:60-75, process.c:517-546).

    Modelled as parameters: ETC_DIR; the user and group databases; what a file name stands for
    at each of the two times it is looked up ([look]); what running a file does ([script]: the
    calls of add_process, the end, the globals).  Numbers of the file are integers.  malloc and
    strdup succeed.  printf of "%s" with NULL prints "(null)" as glibc does.  Left out: the log
    and its options, the global CONFIG_GLOBALNAME. *)
From Verif Require Import Base Const Types Opt Master.

(** A Lua value; a string carries the number it converts to (0 if none), a number its text *)
Inductive lval : Type :=
| LNil | LBool (b : bool) | LNum (text : name) (n : Z) | LStr (s : name) (n : Z) | LTable.

(** lua_tostring, lua_toboolean, lua_tointeger and lua_tonumber *)
Definition l_string (v : lval) : option name :=
  match v with LNum t _ => Some t | LStr s _ => Some s | _ => None end.
Definition l_bool (v : lval) : bool := match v with LNil => false | LBool b => b | _ => true end.
Definition l_num (v : lval) : Z := match v with LNum _ n => n | LStr _ n => n | _ => 0 end.

(** The argument of add_process: a table by its fields, or something else *)
Definition entry : Type := option (string -> lval).

(** What running a configuration file does: the calls of add_process in order, whether it ends
    without an error, and the two globals *)
Record script := mkScript { sc_calls : list entry; sc_ok : bool; sc_daemon : lval; sc_pid : lval }.

(** A file: struct stat and the contents; [None]: not a Lua program *)
Record cfile := mkFile { cf_uid : Z; cf_gid : Z; cf_mode : Z; cf_run : option script }.

(** process.h:48-77, the configured part; [mp_env] points into the Lua state *)
Record mproc := mkProc { mp_name : name; mp_path : name; mp_args : list cell; mp_restart : bool;
                         mp_user : name; mp_group : name; mp_uid : Z; mp_gid : Z;
                         mp_env : option name; mp_delay : Z; mp_cpu : Z; mp_mem : Z }.

Definition mdb : Type := name -> option Z.

(** mstr_config.c:102-136 [_set_uid_gid], once for users and once for groups *)
Definition resolve (db : mdb) (id : Z) (who : name) : Z :=
  if id <? 0 then match db who with Some u => u | None => id end else id.

(** mstr_config.c:180-196: the user or group; strdup of what lua_tostring returned *)
Definition owner (v : lval) : run name :=
  match v with
  | LNil => Done (str "opendax")
  | _ => match l_string v with Some s => Done s | None => Undef UNull end
  end.
(** mstr_config.c:198-212: the conversion from lua_Integer to int keeps the low 32 bits *)
Definition number_or (v : lval) : Z := match v with LNil => -1 | _ => s32 (l_num v) end.

(** mstr_config.c:141-233 [_add_process], process.c:115-160; [None]: a Lua error was raised *)
Definition add_process (pw gr : mdb) (e : entry) (l : list mproc) : run (option (list mproc)) :=
  match e with
  | None => Done None
  | Some t =>
    match l_string (t "name"%string) with
    | None => Done (Some l)
    | Some nm =>
      match l_string (t "path"%string) with
      | None => Done (Some l)
      | Some path =>
        user <-- owner (t "user"%string) ;;
        group <-- owner (t "group"%string) ;;
        delay <-- to_int (l_num (t "delay"%string)) ;;
        mem <-- to_int (l_num (t "mem"%string)) ;;
        Done (Some (l ++ [ mkProc nm path (arglist_tok path (l_string (t "args"%string)))
                                  (l_bool (t "restart"%string)) user group
                                  (resolve pw (number_or (t "uid"%string)) user)
                                  (resolve gr (number_or (t "gid"%string)) group)
                                  (l_string (t "env"%string)) delay (l_num (t "cpu"%string)) mem ]))
      end
    end
  end.
Fixpoint add_all (pw gr : mdb) (es : list entry) (l : list mproc) : run (option (list mproc)) :=
  match es with
  | [] => Done (Some l)
  | e :: r => x <-- add_process pw gr e l ;; match x with Some l => add_all pw gr r l | None => Done None end
  end.

(** mstr_config.c:235-273 [_check_config_permissions]: stat, then owner, group and mode *)
Definition check_config (ruid euid : Z) (f : option cfile) : Z :=
  if (euid =? 0) && negb (ruid =? 0) then
    match f with
    | None => -1
    | Some f =>
      if negb (cf_uid f =? 0) || negb (cf_gid f =? 0) then -1
      else if negb (Z.land (cf_mode f) 2 =? 0) then -1 else 0
    end
  else 0.

(** mstr_config.c:53-64: the option table and the letters *)
Definition ms_long : list lopt :=
  [ mkLopt (str "config") ReqArg 67; mkLopt (str "logtopics") ReqArg 84; mkLopt (str "deamonize") NoArg 68;
    mkLopt (str "pidfile") ReqArg 112; mkLopt (str "version") NoArg 86; mkLopt (str "verbose") NoArg 118 ].
Definition ms_short : list Z := str "C:p:VvD".

(** mstr_config.c:27-35: _configfile, _pidfile (None: NULL) and _daemonize *)
Record mset := mkSet { ms_config : option name; ms_pid : option name; ms_daemon : Z }.

(** mstr_config.c:65-95, one result of getopt_long *)
Definition ms_opt (s : mset) (f : found) : run mset :=
  let arg (k : name -> mset) : run mset := match f_arg f with Some v => Done (k v) | None => Undef UNull end in
  let ch := f_ch f in
  if ch =? 67 then arg (fun v => mkSet (Some v) (ms_pid s) (ms_daemon s))
  else if ch =? 84 then arg (fun _ => s)
  else if ch =? 112 then arg (fun v => mkSet (ms_config s) (Some v) (ms_daemon s))
  else if ch =? 68 then Done (mkSet (ms_config s) (ms_pid s) 1)
  else Done s.
Fixpoint ms_opts (s : mset) (l : list found) : run mset :=
  match l with [] => Done s | f :: r => s <-- ms_opt s f ;; ms_opts s r end.

(** The configured master *)
Record mconf := mkM { m_daemon : Z; m_pid : name; m_procs : list mproc }.

(** mstr_config.h:29-37 *)
Definition DEFAULT_PID : name := str "/var/run/opendax.pid".

(** mstr_config.c:39-44 [setdefaults] *)
Definition ms_defaults (s : mset) (l : list mproc) : mconf :=
  mkM (if ms_daemon s <? 0 then 0 else ms_daemon s) (match ms_pid s with Some p => p | None => DEFAULT_PID end) l.

(** mstr_config.c:275-357 [readconfigfile]; [look k path]: the file that the name stands for,
    at stat (k = 0) and at luaL_loadfile (k = 1) *)
Definition ms_file (etc : name) (ruid euid : Z) (pw gr : mdb) (look : nat -> name -> option cfile)
           (s : mset) : run (option (mset * list mproc)) :=
  let path := match ms_config s with Some p => p | None => etc ++ str "/opendax.conf" end in
  if negb (check_config ruid euid (look 0%nat path) =? 0) then Done None
  else match look 1%nat path with
       | None => Done None
       | Some f =>
         match cf_run f with
         | None => Done None
         | Some sc =>
           x <-- add_all pw gr (sc_calls sc) [] ;;
           match x with
           | None => Done None
           | Some l =>
             if negb (sc_ok sc) then Done None
             else Done (Some (mkSet (Some path)
                                    (match ms_pid s with None => l_string (sc_pid sc) | p => p end)
                                    (if ms_daemon s <? 0 then (if l_bool (sc_daemon sc) then 1 else 0) else ms_daemon s), l))
           end
         end
       end.

(** mstr_config.c:360-376 [opt_configure]; [None]: not zero, and main exits (master.c:64-68) *)
Definition ms_configure (etc : name) (ruid euid : Z) (pw gr : mdb) (look : nat -> name -> option cfile)
           (argv : list name) : run (option mconf) :=
  f <-- getopt true ms_short ms_long (tl argv) false ;;
  s <-- ms_opts (mkSet None None (-1)) f ;;
  x <-- ms_file etc ruid euid pw gr look s ;;
  match x with
  | None => Done None
  | Some (s, l) => Done (Some (ms_defaults s l))
  end.

(** process.c:517-546 [_print_process_list], called at master.c:75, the line "env": the Lua
    state is closed by then (mstr_config.c:354).  The argument vectors it reads too:
    Master.print_args. *)
Definition print_env (p : mproc) : run (option name) :=
  match mp_env p with None => Done None | Some _ => Undef UUaf end.
Fixpoint print_envs (l : list mproc) : run (list (option name)) :=
  match l with
  | [] => Done []
  | p :: r => e <-- print_env p ;; x <-- print_envs r ;; Done (e :: x)
  end.
