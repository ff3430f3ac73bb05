(** * Log: the message logger (lib/logger/daxlog.c) *)
From Verif Require Import Base Const Types.

(** opendax.h:77-100 *)
Definition LOG_MINOR := 1. Definition LOG_MAJOR := 2. Definition LOG_WARN := 4. Definition LOG_ERROR := 8. Definition LOG_FATAL := 16.
Definition LOG_MODULE := 32. Definition LOG_COMM := 64. Definition LOG_MSG := 128. Definition LOG_MSGERR := 256. Definition LOG_CONFIG := 512.
Definition LOG_PROTOCOL := 1024. Definition LOG_INFO := 2048. Definition LOG_DEBUG := 4096. Definition LOG_LOGIC := 8192. Definition LOG_LOGICERR := 16384.
Definition LOG_USER1 := 16777216. Definition LOG_ALL := 4294967295.

(** daxlog.c:26-27 *)
Definition LOG_STRING_SIZE := 256.
Definition SERVICE_LIST_SIZE := 32.

(** daxlog.c:40-76 [_topic_to_string] *)
Definition topic_to_string (topic : Z) : name :=
  if topic =? LOG_MINOR then str "MINOR" else if topic =? LOG_MAJOR then str "MAJOR" else if topic =? LOG_WARN then str "WARN"
  else if topic =? LOG_ERROR then str "ERROR" else if topic =? LOG_FATAL then str "FATAL" else if topic =? LOG_MODULE then str "MODULE"
  else if topic =? LOG_COMM then str "COMM" else if topic =? LOG_MSG then str "MSG" else if topic =? LOG_MSGERR then str "MSGERR"
  else if topic =? LOG_CONFIG then str "CONFIG" else if topic =? LOG_PROTOCOL then str "PROTOCOL" else if topic =? LOG_INFO then str "INFO"
  else if topic =? LOG_DEBUG then str "DEBUG" else if topic =? LOG_LOGIC then str "LOGIC" else if topic =? LOG_LOGICERR then str "LOGICERR"
  else str "?".

(** daxlog.c:230-264 [dax_parse_log_topics]; [_topic_callback] is never set.  The body of the while loop *)
Definition add_topic (s : name) (mask : Z) : Z :=
  let put (n : name) (b : Z) (m : Z) := if name_eqb s n then Z.lor m b else m in
  put (str "DEBUG") LOG_DEBUG (put (str "INFO") LOG_INFO (put (str "PROTOCOL") LOG_PROTOCOL (put (str "CONFIG") LOG_CONFIG
  (put (str "MSGERR") LOG_MSGERR (put (str "MSG") LOG_MSG (put (str "COMM") LOG_COMM (put (str "MODULE") LOG_MODULE
  (put (str "FATAL") LOG_FATAL (put (str "ERROR") LOG_ERROR (put (str "WARN") LOG_WARN (put (str "MAJOR") LOG_MAJOR
  (put (str "MINOR") LOG_MINOR (put (str "ALL") LOG_ALL mask))))))))))))).
(** [n] bounds the number of tokens: there are at most as many as characters *)
Fixpoint topic_loop (n : nat) (s : name) (mask : Z) : Z :=
  match n with
  | O => mask
  | Datatypes.S n => match strtok 44 s with None => mask | Some (t, r) => topic_loop n r (add_topic t mask) end
  end.
Definition dax_parse_log_topics (s : option name) : Z :=
  match s with None => 0 | Some s => topic_loop (Datatypes.S (length s)) s 0 end.

(** daxlog.h:32-46: one logging service; the FILE pointer of a stdio service is only set for two names (daxlog.c:100-104) *)
Inductive lfile := FStdout | FStderr | FUninit.
Inductive skind := SvStdio (f : lfile) | SvSyslog (priority : Z).
Record service := mk_sv { sv_mask : Z; sv_kind : skind }.
(** daxlog.c:29-38: the static variables *)
Record logger := mk_lg { lg_default : Z; lg_name : option name; lg_services : list service }.
Definition lg_start : logger := mk_lg (Z.lor LOG_FATAL LOG_ERROR) None [].

(** what is put out: a line on stdout (false) or stderr (true), or a message to syslog *)
Inductive lout := LLine (err : bool) (line : name) | LSys (priority : Z) (text : name).
Definition the_line (nm : name) (topic : Z) (text : name) : name := str "[" ++ nm ++ str "] " ++ topic_to_string topic ++ str ": " ++ text ++ [10].

(** daxlog.c:84-90 [_log_stdio], 112-118 [_log_syslog] (LOG_USER is 8) *)
Definition log_func (lg : logger) (v : service) (topic : Z) (text : name) : run lout :=
  match sv_kind v with
  | SvStdio FUninit => Undef UUninit
  | SvStdio f => match lg_name lg with
                 | None => Undef UNull                             (* %s with NULL *)
                 | Some nm => Done (LLine (match f with FStderr => true | _ => false end) (the_line nm topic text))
                 end
  | SvSyslog p => Done (LSys (Z.lor 8 p) text)
  end.
Fixpoint log_loop (lg : logger) (l : list service) (topic : Z) (text : name) : run (list lout) :=
  match l with
  | [] => Done []
  | v :: l =>
      if Z.land (sv_mask v) topic =? 0 then log_loop lg l topic text
      else x <-- log_func lg v topic text ;; y <-- log_loop lg l topic text ;; Done (x :: y)
  end.
(** daxlog.c:291-312 [dax_log]; [msg] is the formatted message *)
Definition dax_log (lg : logger) (topic : Z) (msg : name) : run (list lout) :=
  let output := firstn (Z.to_nat (LOG_STRING_SIZE - 1)) msg in
  if (zlen (lg_services lg) =? 0) && negb (Z.land (lg_default lg) topic =? 0)
  then match lg_name lg with None => Undef UNull | Some nm => Done [LLine false (the_line nm topic output)] end
  else log_loop lg (lg_services lg) topic output.

(** the table given to add_log_service in a configuration file: each field as lua_tostring gives it (None: nil or not a string) *)
Record stable := mk_st { st_topics : option name; st_type : option name; st_file : option name; st_priority : option name }.
(** 0 or an error code is returned as the number of Lua results, which a call as a statement ignores; luaL_error ends the configuration *)
Inductive added := AddOk | AddErr (e : Z) | AddLua.

(** daxlog.c:92-109 [_add_stdio_service] *)
Definition add_stdio (t : stable) : run skind :=
  match st_file t with
  | None => Undef UNull                                            (* strcasecmp(NULL, ..) *)
  | Some f => Done (SvStdio (if case_eqb f (str "stdout") then FStdout else if case_eqb f (str "stderr") then FStderr else FUninit))
  end.
(** daxlog.c:120-152 [_add_syslog_service]; inr: luaL_error.  The values are those of syslog.h *)
Definition priorities : list (name * Z) :=
  [(str "EMERG", 0); (str "ALERT", 1); (str "CRIT", 2); (str "ERR", 3); (str "WARNING", 4); (str "NOTICE", 5); (str "INFO", 6); (str "DEBUG", 7)].
Definition add_syslog (t : stable) : run (skind + unit) :=
  match st_priority t with
  | None => Undef UNull
  | Some p => match find (fun x => case_eqb p (fst x)) priorities with Some x => Done (inl (SvSyslog (snd x))) | None => Done (inr tt) end
  end.
(** daxlog.c:157-202 [_add_service]; None: the argument is no table.  The messages it logs itself come out as well. *)
Definition add_service (lg : logger) (arg : option stable) : run (logger * list lout * added) :=
  let fail e msg := o <-- dax_log lg LOG_ERROR msg ;; Done (lg, o, AddErr e) in
  let keep mask k := Done (mk_lg (lg_default lg) (lg_name lg) (lg_services lg ++ [mk_sv mask k]), [], AddOk) in
  if SERVICE_LIST_SIZE <=? zlen (lg_services lg) then fail E_OVERFLOW (str "No more log services available")
  else match arg with
  | None => Done (lg, [], AddLua)
  | Some t =>
      match st_topics t with
      | None => fail E_ARG (str "No Topic list given")
      | Some topics =>
          let mask := dax_parse_log_topics (Some topics) in
          match st_type t with
          | None => Undef UNull                                    (* strcasecmp(NULL, ..) *)
          | Some ty =>
              if case_eqb ty (str "stdio") then k <-- add_stdio t ;; keep mask k
              else if case_eqb ty (str "syslog") then
                k <-- add_syslog t ;;
                match k with inl k => keep mask k | inr _ => Done (lg, [], AddLua) end
              else fail E_ARG (str "Unknown log service " ++ ty)
          end
      end
  end.

(** daxlog.c:205-215 [dax_init_logger]; 275-285 the two ways to set the default mask *)
Definition dax_init_logger (lg : logger) (nm : option name) (topics : Z) : logger :=
  mk_lg (if topics =? 0 then lg_default lg else topics) (match nm with None => lg_name lg | _ => nm end) (lg_services lg).
Definition dax_log_set_default_mask (lg : logger) (mask : Z) : logger := mk_lg mask (lg_name lg) (lg_services lg).
Definition dax_log_set_default_topics (lg : logger) (topics : option name) : logger := mk_lg (dax_parse_log_topics topics) (lg_name lg) (lg_services lg).

(** a configuration file which is a sequence of calls of add_log_service, up to the first luaL_error *)
Fixpoint configure (lg : logger) (l : list (option stable)) : run (logger * list lout * added) :=
  match l with
  | [] => Done (lg, [], AddOk)
  | t :: l =>
      x <-- add_service lg t ;;
      match x with
      | (lg, o, AddLua) => Done (lg, o, AddLua)
      | (lg, o, _) => y <-- configure lg l ;; let '(lg, o', r) := y in Done (lg, o ++ o', r)
      end
  end.
