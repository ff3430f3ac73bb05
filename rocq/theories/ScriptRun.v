(** * ScriptRun: what surrounds a run of a script (src/modules/daxlua/scripts.c, luaif.c, luaopt.c, threads.c)

    Simplifications.  The script itself is any change of the Lua globals and of the server; what it does through the API is in
    LuaApi.v, when it is run in Script.v.  Memory allocation succeeds.  A table of Lua globals is a list of assignments, the newest
    first (LuaConv.v).  The lists of scripts are of any length here (C76: the table of the code is not). *)
From Verif Require Import Base Const Types State Events Atomic Server ClientTypes ClientData LuaConv LuaApi.

(** ** Globals of a script *)
(** daxlua.h:34-38: the bits of the mode *)
Definition B_READ := 0. Definition B_WRITE := 1. Definition B_STATIC := 2. Definition B_INIT := 7.
(** daxlua.h:53-60 [global_t]; [g_h] None: the handle was never set; [g_ref] None: LUA_NOREF, else the value in the registry *)
Record gvar := mkG { g_name : name; g_tag : name; g_mode : Z; g_h : option (handle * lty); g_ref : option lval }.
(** scripts.c:87-107 [add_global]; the mode is an unsigned char *)
Definition add_global (varname tagname : name) (mode : Z) (gs : list gvar) : list gvar :=
  mkG varname tagname (mode mod 256) None None :: gs.
(** scripts.c:124-140: what of a value survives the way to the state of the script *)
Definition static_value (v : lval) : lval :=
  match v with LBool _ | LInt _ | LNum _ => v | LStr s => LStr (before_nul s) | _ => LNil end.
(** scripts.c:111-147 [add_static]; the tag name stays unset *)
Definition add_static (varname : name) (v : lval) (gs : list gvar) : list gvar :=
  mkG varname [] (2 ^ B_STATIC + 2 ^ B_INIT) None (Some (static_value v)) :: gs.

(** what a run needs from outside: the server's environment, Lua's, the type cache, the socket, what dax_tag_handle with count 0
    finds (Path.v), and the contents of fresh memory *)
Record renv := mkR { R_E : env; R_L : lenv; R_cc : ctypes; R_fd : Z; R_look : server -> name -> option (handle * lty); R_junk : Z -> list Z }.
Definition gtab := list (key * lval).
Definition setg (nm : name) (v : lval) (t : gtab) : gtab := (LuaConv.KS nm, v) :: t.
Definition getg (nm : name) (t : gtab) : lval := rawget (LuaConv.KS nm) t.

(** luaif.c:34-56 [fetch_tag] is what tag_read does *)
Definition fetch_tag (X : renv) (s : server) (h : handle) (ty : lty) : run (server * lres) :=
  lua_tag_read (R_E X) (R_cc X) (R_fd X) s h ty (R_junk X (h_size h)).
(** scripts.c:165-186: the first half of the loop: a handle for the global, or the value of a static one *)
Definition prepare (X : renv) (s : server) (g : gvar) (t : gtab) : run (gvar * gtab) :=
  if negb (Z.testbit (g_mode g) B_INIT) then
    match R_look X s (g_tag g) with
    | None => Done (g, t)
    | Some (h, ty) =>
        let g := mkG (g_name g) (g_tag g) (Z.setbit (g_mode g) B_INIT) (Some (h, ty)) (g_ref g) in
        if negb (Z.testbit (g_mode g) B_READ) && negb (Z.testbit (g_mode g) B_STATIC)
        then v <-- dax_to_lua (zeros (h_size h)) ty (h_count h) ;; Done (g, setg (g_name g) v t)
        else Done (g, t)
    end
  else match Z.testbit (g_mode g) B_STATIC, g_ref g with
       | true, Some v => Done (g, setg (g_name g) v t)
       | _, _ => Done (g, t)
       end.
(** scripts.c:187-193: the second half *)
Definition fetch (X : renv) (s : server) (g : gvar) (t : gtab) : run (server * gtab) :=
  if Z.testbit (g_mode g) B_READ && Z.testbit (g_mode g) B_INIT then
    match g_h g with
    | None => Undef UUninit
    | Some (h, ty) =>
        x <-- fetch_tag X s h ty ;;
        let '(s, r) := x in
        Done (s, setg (g_name g) (match r with LOk v => v | LFail _ => LNil end) t)
    end
  else Done (s, t).
(** scripts.c:154-201 [_receive_globals] *)
Fixpoint receive_globals (X : renv) (gs : list gvar) (s : server) (t : gtab) : run (server * gtab * list gvar) :=
  match gs with
  | [] => Done (s, t, [])
  | g :: r =>
      p <-- prepare X s g t ;;
      let '(g, t) := p in
      q <-- fetch X s g t ;;
      let '(s, t) := q in
      z <-- receive_globals X r s t ;;
      let '(s, t, r) := z in
      Done (s, t, g :: r)
  end.
Definition receive (X : renv) (gs : list gvar) (first : bool) (s : server) (t : gtab) : run (server * gtab * list gvar) :=
  z <-- receive_globals X gs s t ;;
  let '(s, t, gs) := z in
  Done (s, setg (str "_firstrun") (LBool first) t, gs).

(** luaif.c:60-112 [send_tag]: the error and the height of the Lua stack, which held the value *)
Definition send_tag (X : renv) (s : server) (h : handle) (ty : lty) (v : lval) : run (server * Z * Z) :=
  x <-- lua_value (R_L X) h ty (R_junk X (h_size h)) v ;;
  let '(e, w) := x in
  if negb (e =? 0) then Done (s, e, zlen (w_stk w))
  else
    r <-- (if forallb (fun b => b =? 255) (slice 0 (h_size h) (w_mask w)) then dax_tag_write (R_E X) (R_cc X) (R_fd X) s h (w_data w)
           else dax_tag_mask (R_E X) (R_cc X) (R_fd X) s h (w_data w) (w_mask w)) ;;
    let '(s, e) := r in
    Done (s, e, zlen (w_stk w)).
(** scripts.c:207-228 [_send_globals]: the result and what is left on the Lua stack *)
Fixpoint send_globals (X : renv) (gs : list gvar) (s : server) (t : gtab) : run (server * Z * Z) :=
  match gs with
  | [] => Done (s, 0, 0)
  | g :: r =>
      if Z.testbit (g_mode g) B_WRITE && Z.testbit (g_mode g) B_INIT then
        match g_h g with
        | None => Undef UUninit
        | Some (h, ty) =>
            x <-- send_tag X s h ty (getg (g_name g) t) ;;
            let '(s, e, k) := x in
            if negb (e =? 0) then Done (s, -1, k)
            else
              y <-- send_globals X r s t ;;
              let '(s, e, k2) := y in Done (s, e, k - 1 + k2)
        end
      else send_globals X r s t
  end.

(** ** Flags of a script, daxlua.h:78-83, 90-94.  [f_foe]: CONFIG_FAIL_ON_ERROR is set; [f_command]: 0 none, 1 enable, 2 disable *)
Record flags := mkF { f_enabled : bool; f_failed : bool; f_first : bool; f_command : Z; f_foe : bool; f_exec : Z }.
(** scripts.c:46-77 and luaopt.c:86-92 *)
Definition new_flags (enabled foe : bool) : flags := mkF enabled false true 0 foe 0.
(** scripts.c:234-249: a pending command is carried out; does the script run? *)
Definition take_command (f : flags) : flags :=
  if f_command f =? 0 then f
  else mkF (if f_command f =? 1 then true else if f_command f =? 2 then false else f_enabled f) (f_failed f) (f_first f) 0 (f_foe f) (f_exec f).
Definition will_run (runsignal : bool) (f : flags) : bool := negb (f_failed f || negb (f_enabled f) || negb runsignal).
(** scripts.c:269-282 after the call of the script, [err]: it raised an error *)
Definition end_run (err : bool) (f : flags) : flags :=
  mkF (f_enabled f) (f_failed f || (err && f_foe f)) false (f_command f) (f_foe f) (u64 (f_exec f + 1)).
(** scripts.c:292-299 [_disable_self], 425 and 456 (and threads.c:321-335, the enable and disable triggers) *)
Definition set_enabled (b : bool) (f : flags) : flags := mkF b (f_failed f) (f_first f) (f_command f) (f_foe f) (f_exec f).
Definition set_command (b : bool) (f : flags) : flags := mkF (f_enabled f) (f_failed f) (f_first f) (if b then 1 else 2) (f_foe f) (f_exec f).

(** ** One run from beginning to end, scripts.c:230-287.  [body]: what the script does to the server and to its globals, whether it
    calls disable_self and whether it raises an error.  [sr_stack]: the height of its Lua stack. *)
Record srun := mkSR { sr_f : flags; sr_gs : list gvar; sr_lua : gtab; sr_stack : Z }.
Definition body_t := server -> gtab -> server * gtab * bool * bool.
Definition run_script (X : renv) (runsignal : bool) (body : body_t) (x : srun) (s : server) : run (server * srun) :=
  let f := take_command (sr_f x) in
  if negb (will_run runsignal f) then Done (s, mkSR f (sr_gs x) (sr_lua x) (sr_stack x))
  else
    r <-- receive X (sr_gs x) (f_first f) s (sr_lua x) ;;
    let '(s, t, gs) := r in
    let '(s, t, self, err) := body s t in
    let f := if self then set_enabled false f else f in
    y <-- send_globals X gs s t ;;
    let '(s, _, k) := y in
    Done (s, mkSR (end_run err f) gs t (sr_stack x + (if err then 1 else 0) + k)).
Fixpoint run_many (X : renv) (bodies : list body_t) (x : srun) (s : server) : run (server * srun) :=
  match bodies with
  | [] => Done (s, x)
  | b :: r => z <-- run_script X true b x s ;; let '(s, x) := z in run_many X r x s
  end.

(** ** The tag of a script, scripts.c:526-543 and 546-597.  The tag is the element of the array <module>_scripts; the module has a
    CHANGE event on it with EVENT_OPT_SEND_DATA, so that each change of its bytes sends them to the module (C24).  The messages wait
    in the queue [y_queue] until the main thread takes them.  The worker threads run the scripts at the same time: a run first looks at
    the flags (lines 234-249) and then waits for the lock of the script (line 256); [y_wait] runs wait, [y_busy]: one has the lock. *)
Record stag := mkY { y_f : flags; y_name : name; y_wait : Z; y_busy : bool; y_tag : list Z; y_queue : list (list Z) }.
(** scripts.c:623-636: the bytes written; memccpy stops after 32 bytes *)
Definition image (nm : name) (f : flags) : list Z :=
  let n := firstn 32 nm in
  n ++ zeros (32 - zlen n) ++ [(if f_enabled f then 1 else 0) + (if f_failed f then 2 else 0)] ++ le_bytes 8 (f_exec f).
Definition bytes_eqb (a b : list Z) : bool := name_eqb a b.
(** any write to the tag *)
Definition put_tag (v : list Z) (y : stag) : stag :=
  mkY (y_f y) (y_name y) (y_wait y) (y_busy y) v (if bytes_eqb v (y_tag y) then y_queue y else y_queue y ++ [v]).
Definition write_script_tag (y : stag) : stag := put_tag (image (y_name y) (y_f y)) y.
Definition with_f (f : flags) (y : stag) : stag := mkY f (y_name y) (y_wait y) (y_busy y) (y_tag y) (y_queue y).
Definition with_lock (w : Z) (b : bool) (y : stag) : stag := mkY (y_f y) (y_name y) w b (y_tag y) (y_queue y).

Inductive tev :=
| TCheck (runsignal : bool)      (* a thread calls run_script, up to the lock *)
| TBegin                         (* one of the waiting runs gets the lock *)
| TSelf                          (* the running script calls disable_self *)
| TEnd (err : bool)              (* the script returns *)
| TCmd (b : bool)                (* enable_script or disable_script of another script, or a trigger *)
| TUser (v : list Z)             (* another client writes the tag *)
| TCallback.                     (* the main thread takes one event message *)
Definition tstep (y : stag) (e : tev) : stag :=
  match e with
  | TCheck rs => let f := take_command (y_f y) in with_f f (with_lock (y_wait y + if will_run rs f then 1 else 0) (y_busy y) y)
  | TBegin => if negb (y_busy y) && (0 <? y_wait y) then with_lock (y_wait y - 1) true y else y
  | TSelf => if y_busy y then with_f (set_enabled false (y_f y)) y else y
  | TEnd err => if y_busy y then write_script_tag (with_lock (y_wait y) false (with_f (end_run err (y_f y)) y)) else y
  | TCmd b => with_f (set_command b (y_f y)) y
  | TUser v => put_tag v y
  | TCallback =>
      match y_queue y with
      | [] => y
      | d :: q =>
          let y := mkY (y_f y) (y_name y) (y_wait y) (y_busy y) (y_tag y) q in
          write_script_tag (with_f (set_enabled (Z.testbit (nthb d 32) 0) (y_f y)) y)
      end
  end.
Definition tsteps (es : list tev) (y : stag) : stag := fold_left tstep es y.
(** scripts.c:576-587: the tag is written at the start; the event is added before, the element was zero *)
Definition tag_start (nm : name) (f : flags) : stag := write_script_tag (mkY f nm 0 false (zeros 41) []).

(** ** Names and numbers of scripts.  None: the name is NULL *)
(** strcmp(name, scripts[n].name) in the loops of scripts.c:374-379, 417-422, 448-453 *)
Fixpoint find_script (nm : name) (names : list (option name)) (n : Z) : run (option Z) :=
  match names with
  | [] => Done None
  | None :: _ => Undef UNull
  | Some x :: r => if name_eqb nm x then Done (Some n) else find_script nm r (n + 1)
  end.
(** what lua_tostring gives; [fmt] writes a number *)
Definition tostr (fmt : lval -> list Z) (v : lval) : option (list Z) :=
  match v with LStr s => Some (before_nul s) | LInt _ | LNum _ => Some (before_nul (fmt v)) | _ => None end.
(** scripts.c:365-384 [_get_script_id] *)
Definition get_script_id (fmt : lval -> list Z) (names : list (option name)) (v : lval) : run lres :=
  match tostr fmt v with
  | None => Done (LFail 1)
  | Some nm => r <-- find_script nm names 0 ;; Done (LOk (match r with Some n => LInt n | None => LNil end))
  end.
(** lua_tointegerx: the number and whether there is one *)
Definition tointx (L : lenv) (v : lval) : option Z :=
  let num n := match n with
               | FZ z => if fits64 z then Some z else None
               | FB b => match fp_trunc 52 11 b with Some z => if dbl_whole b && fits64 z then Some z else None | None => None end
               end in
  match v with
  | LInt z => Some z
  | LNum n => num n
  | LStr s => match l_strnum L s with LInt z => Some z | LNum n => num n | _ => None end
  | _ => None
  end.
(** scripts.c:388-399 [_get_script_name]; the result is kept in an int; lua_pushstring(NULL) pushes nil *)
Definition get_script_name (L : lenv) (names : list (option name)) (v : lval) : run lres :=
  match tointx L v with
  | Some z =>
      let idx := s32 z in
      if idx <? zlen names then
        match znth names idx with
        | Some (Some nm) => Done (LOk (LStr nm))
        | Some None => Done (LOk LNil)
        | None => Undef UOob
        end
      else Done (LOk LNil)
  | None => Done (LOk LNil)
  end.
(** scripts.c:406-433 and 437-465 [_disable_script], [_enable_script]: which script gets the command *)
Definition command_target (L : lenv) (names : list (option name)) (v : lval) : run (option Z) :=
  r <-- (match v with
         | LInt _ | LNum _ => Done (s32 (toint L v))
         | LStr s => x <-- find_script (before_nul s) names 0 ;; Done (match x with Some n => n | None => -1 end)
         | _ => Done (-1)
         end) ;;
  Done (if (0 <=? r) && (r <? zlen names) then Some r else None).

(** ** Configuration, luaopt.c *)
Record trigger := mkT { tg_tag : name; tg_type : Z; tg_count : Z; tg_value : lnum }.
(** [k_file] None: never set *)
Record sconf := mkK { k_enabled : bool; k_thread : option name; k_name : option name; k_trig : option trigger; k_en : option trigger; k_dis : option trigger;
                      k_file : option (option name); k_foe : bool; k_auto : bool; k_reload : bool }.
(** libevent.c:34-55 [dax_event_string_to_type] *)
Definition event_type (s : list Z) : Z :=
  if case_eqb s (str "WRITE") then EV_WRITE else if case_eqb s (str "CHANGE") then EV_CHANGE
  else if case_eqb s (str "SET") then EV_SET else if case_eqb s (str "RESET") then EV_RESET
  else if case_eqb s (str "EQUAL") then EV_EQUAL else if case_eqb s (str "GREATER") then EV_GREATER
  else if case_eqb s (str "LESS") then EV_LESS else if case_eqb s (str "DEADBAND") then EV_DEADBAND else 0.
Definition field (k : name) (t : gtab) : lval := rawget (LuaConv.KS k) t.
(** luaopt.c:35-67 [_set_trigger]; None: the error string is returned *)
Definition set_trigger (L : lenv) (fmt : lval -> list Z) (t : gtab) : run (option trigger) :=
  match tostr fmt (field (str "tag") t) with
  | None => Undef UNull                                          (* line 44: strdup(NULL) *)
  | Some tag =>
      match tostr fmt (field (str "type") t) with
      | None => Undef UNull                                      (* libevent.c:36: strcasecmp(NULL, ...) *)
      | Some ty =>
          if event_type ty =? 0 then Done None
          else Done (Some (mkT tag (event_type ty) (s32 (toint L (field (str "count") t))) (tonum L (field (str "value") t))))
      end
  end.
(** luaopt.c:121-138, 140-157, 159-176: one of the three triggers; [inr tt]: an error is raised *)
Definition conf_trigger (L : lenv) (fmt : lval -> list Z) (v : lval) : run (option trigger + unit) :=
  match v with
  | LTab t => r <-- set_trigger L fmt t ;; Done (match r with Some tr => inl (Some tr) | None => inr tt end)
  | LNil => Done (inl None)
  | _ => Done (inr tt)
  end.
Definition flag_field (v : lval) (old : bool) : bool := match v with LNil => old | _ => tobool v end.
Fixpoint has_name (nm : name) (ks : list sconf) : bool :=
  match ks with [] => false | k :: r => match k_name k with Some x => name_eqb x nm || has_name nm r | None => has_name nm r end end.
(** luaopt.c:70-218 [_add_script]: the scripts and whether an error was raised *)
Definition add_script (L : lenv) (fmt : lval -> list Z) (v : lval) (ks : list sconf) : run (list sconf * bool) :=
  match v with
  | LTab t =>
      let k := mkK (match field (str "enable") t with LNil => true | e => tobool e end) (tostr fmt (field (str "thread") t)) None None None None None true true false in
      match tostr fmt (field (str "name") t) with
      | None => Done (ks ++ [k], true)
      | Some nm =>
          if has_name nm ks then Done (ks, true)
          else
            let k := mkK (k_enabled k) (k_thread k) (Some nm) None None None None true true false in
            a <-- conf_trigger L fmt (field (str "trigger") t) ;;
            match a with
            | inr _ => Done (ks ++ [k], true)
            | inl tr =>
                let k := mkK (k_enabled k) (k_thread k) (k_name k) tr None None None true true false in
                b <-- conf_trigger L fmt (field (str "enable_trigger") t) ;;
                match b with
                | inr _ => Done (ks ++ [k], true)
                | inl en =>
                    let k := mkK (k_enabled k) (k_thread k) (k_name k) tr en None None true true false in
                    c <-- conf_trigger L fmt (field (str "disable_trigger") t) ;;
                    match c with
                    | inr _ => Done (ks ++ [k], true)
                    | inl di =>
                        let file := tostr fmt (field (str "filename") t) in
                        Done (ks ++ [mkK (match file with Some _ => k_enabled k | None => false end) (k_thread k) (k_name k) tr en di (Some file)
                                         (flag_field (field (str "fail_on_error") t) true) (flag_field (field (str "auto_run") t) true)
                                         (flag_field (field (str "auto_reload") t) false)], false)
                    end
                end
            end
      end
  | _ => Done (ks, true)
  end.

(** ** Which scripts a thread runs, threads.c:167-203: [n] is the number of the next script *)
Fixpoint thread_scripts (tn : name) (ks : list sconf) (n : Z) : list Z :=
  match ks with
  | [] => []
  | k :: r => match k_thread k with
              | Some x => if name_eqb tn x then n :: thread_scripts tn r (n + 1) else thread_scripts tn r (n + 1)
              | None => thread_scripts tn r (n + 1)
              end
  end.
(** threads.c:262-288: the scripts that are pushed at the start *)
Fixpoint auto_scripts (ks : list sconf) (n : Z) : list Z :=
  match ks with
  | [] => []
  | k :: r => match k_trig k with
              | Some _ => if k_auto k then n :: auto_scripts r (n + 1) else auto_scripts r (n + 1)
              | None => auto_scripts r (n + 1)
              end
  end.

(** ** The events of the triggers, threads.c:392-466.  A trigger has a number; [p_size] is handle.size.  [ans k p]: what the server
    says in round [k] about trigger [p]: the results of dax_tag_handle, of dax_event_add, and the size of the handle *)
Record ptrig := mkP { p_id : Z; p_size : Z }.
Definition tans := Z -> Z -> Z * Z * Z.
Fixpoint trigger_round (ans : tans) (k : Z) (ps : list ptrig) : Z * list ptrig * list Z :=
  match ps with
  | [] => (0, [], [])
  | p :: r =>
      let '(fails, r, l) := trigger_round ans k r in
      if p_size p =? 0 then
        let '(rh, re, size) := ans k (p_id p) in
        if negb (rh =? 0) then (fails + 1, mkP (p_id p) 0 :: r, l)
        else if negb (re =? 0) then (fails + 1, mkP (p_id p) size :: r, l)
        else (fails, mkP (p_id p) size :: r, p_id p :: l)
      else (fails, p :: r, l)
  end.
(** do { ... } while(fails): [n] rounds at most; true: the loop has ended ("All script trigger events created successfully") *)
Fixpoint trigger_rounds (n : nat) (ans : tans) (k : Z) (ps : list ptrig) : bool * list ptrig * list Z :=
  match n with
  | 0%nat => (false, ps, [])
  | Datatypes.S n =>
      let '(fails, ps, l) := trigger_round ans k ps in
      if fails =? 0 then (true, ps, l)
      else let '(b, ps, l') := trigger_rounds n ans (k + 1) ps in (b, ps, l ++ l')
  end.

(** ** The period of an interval thread, threads.c:128-147, in microseconds.  Times are seconds and nanoseconds; [quot]: the double is
    cut off when it becomes a long long (the values are small enough for exact doubles).  None: an overrun, no sleep *)
Definition sleep_time (interval : Z) (s0 n0 s1 n1 : Z) : option Z :=
  let t := Z.quot (interval * 1000 * 1000 - (s1 - s0) * 1000000 * 1000 + (n1 - n0)) 1000 in
  if t <? 0 then None else Some t.
