(** * Master: the supervisor process (src/master/process.c, master.c, mstr_config.c).

    Simplifications.  The process list is a list of records; [name], [env],
    [fd], [efd] and [restartcount] are omitted (nothing reads them except log
    messages; restartcount is only incremented).  CPU percentages ([cpu],
    [pcpu]: double/float) are integers in thousandths of a percent, supplied
    by the environment together with the resident set size; [last_ptime] and
    [last_etime], used only to compute pcpu, are omitted with them.  malloc,
    strdup succeed.  One clock reading per call of the two halves of
    process_scan (the code reads the clock once per process). *)
From Verif Require Import Base.

(** struct timeval *)
Record tv := { t_sec : Z; t_usec : Z }.

(** process.h:36-39; None is a [state] that process_add (process.c:115-160)
    left uninitialised *)
Definition PS_STARTED := 1.
Definition PS_CONDEMNED := 4.
Definition PS_DEAD := 8.

(** process.h:47-78 *)
Record proc := {
  p_restart : bool;      (* flags & PFLAG_RESTART *)
  p_cpu : Z;             (* limit, 0 = none *)
  p_mem : Z;             (* limit, 0 = none *)
  p_pid : Z;
  p_exit : Z;
  p_rdelay : Z;          (* restartdelay, mS *)
  p_state : option Z;
  p_rss : Z;
  p_pcpu : Z;
  p_start : tv;
  p_dead : tv }.

Definition upd_pid p v := {| p_restart := p_restart p; p_cpu := p_cpu p; p_mem := p_mem p; p_pid := v;
  p_exit := p_exit p; p_rdelay := p_rdelay p; p_state := p_state p; p_rss := p_rss p; p_pcpu := p_pcpu p;
  p_start := p_start p; p_dead := p_dead p |}.
Definition upd_exit p v := {| p_restart := p_restart p; p_cpu := p_cpu p; p_mem := p_mem p; p_pid := p_pid p;
  p_exit := v; p_rdelay := p_rdelay p; p_state := p_state p; p_rss := p_rss p; p_pcpu := p_pcpu p;
  p_start := p_start p; p_dead := p_dead p |}.
Definition upd_rdelay p v := {| p_restart := p_restart p; p_cpu := p_cpu p; p_mem := p_mem p; p_pid := p_pid p;
  p_exit := p_exit p; p_rdelay := v; p_state := p_state p; p_rss := p_rss p; p_pcpu := p_pcpu p;
  p_start := p_start p; p_dead := p_dead p |}.
Definition upd_state p v := {| p_restart := p_restart p; p_cpu := p_cpu p; p_mem := p_mem p; p_pid := p_pid p;
  p_exit := p_exit p; p_rdelay := p_rdelay p; p_state := Some v; p_rss := p_rss p; p_pcpu := p_pcpu p;
  p_start := p_start p; p_dead := p_dead p |}.
Definition upd_stat p c r := {| p_restart := p_restart p; p_cpu := p_cpu p; p_mem := p_mem p; p_pid := p_pid p;
  p_exit := p_exit p; p_rdelay := p_rdelay p; p_state := p_state p; p_rss := r; p_pcpu := c;
  p_start := p_start p; p_dead := p_dead p |}.
Definition upd_start p v := {| p_restart := p_restart p; p_cpu := p_cpu p; p_mem := p_mem p; p_pid := p_pid p;
  p_exit := p_exit p; p_rdelay := p_rdelay p; p_state := p_state p; p_rss := p_rss p; p_pcpu := p_pcpu p;
  p_start := v; p_dead := p_dead p |}.
Definition upd_dead p v := {| p_restart := p_restart p; p_cpu := p_cpu p; p_mem := p_mem p; p_pid := p_pid p;
  p_exit := p_exit p; p_rdelay := p_rdelay p; p_state := p_state p; p_rss := p_rss p; p_pcpu := p_pcpu p;
  p_start := p_start p; p_dead := v |}.

(** The master's memory: process.c:35-36 ([_dpq], [_process_list]) and 429
    ([count]).  A free [_dpq] slot has pid 0. *)
Record master := { m_procs : list proc; m_dpq : list (Z * Z); m_count : Z }.

Definition DPQ_SIZE : nat := 10.       (* process.c:33 *)

(** What the master does to the outside world *)
Inductive act : Type :=
| AFork (i : nat) (r : Z)       (* fork() for process number i returned r *)
| AKill (pid sig : Z).          (* kill(pid, sig) *)
Definition SIGQUIT := 3.
Definition SIGKILL := 9.

(** process.c:115-160, mstr_config.c:141-233: a newly configured process *)
Definition process_add (restart : bool) (cpu mem : Z) : proc :=
  {| p_restart := restart; p_cpu := cpu; p_mem := mem; p_pid := 0; p_exit := 0; p_rdelay := 0;
     p_state := None; p_rss := 0; p_pcpu := 0;
     p_start := {| t_sec := 0; t_usec := 0 |}; p_dead := {| t_sec := 0; t_usec := 0 |} |}.

(** process.c:52-60; C division truncates towards zero *)
Definition difftimeval (a b : tv) : Z :=
  (t_sec b - t_sec a) * 1000 + Z.quot (t_usec b - t_usec a) 1000.

(** process.c:267-299; [r] is what fork() returns *)
Definition process_start (now : tv) (r : Z) (p : proc) : proc :=
  if 0 <? r then upd_state (upd_start (upd_exit (upd_pid p r) 0) now) PS_STARTED else p.

(** process.c:398-414 *)
Definition process_restart (now : tv) (r : Z) (p : proc) : proc :=
  let p := process_start now r p in
  let p := upd_rdelay p (if p_rdelay p =? 0 then 100 else p_rdelay p * 2) in
  if 60000 <? p_rdelay p then upd_rdelay p 60000 else p.

(** process.c:317-341 (with 302-313): the first process with that pid *)
Fixpoint cleanup (now : tv) (pid status : Z) (l : list proc) : list proc :=
  match l with
  | [] => []
  | p :: r =>
      if p_pid p =? pid
      then upd_dead (upd_state (upd_exit (upd_pid p 0) status) PS_DEAD) now :: r
      else p :: cleanup now pid status r
  end.

(** process.c:431-437 *)
Fixpoint clean_queue (now : tv) (q : list (Z * Z)) (l : list proc) : list (Z * Z) * list proc :=
  match q with
  | [] => ([], l)
  | (pid, st) :: r =>
      if pid =? 0
      then let '(r', l') := clean_queue now r l in ((pid, st) :: r', l')
      else let '(r', l') := clean_queue now r (cleanup now pid st l) in ((0, st) :: r', l')
  end.

(** The environment of one pass over the process list: the clock, the results
    of the successive fork() calls (an exhausted list: -1), and the contents
    of /proc/<pid>/stat and /proc/stat *)
Record menv := { e_now : tv; e_forks : list Z; e_stat : Z -> option (Z * Z) }.

(** process.c:347-385; pid 0 has no entry in /proc *)
Definition get_cpu_stat (stat : Z -> option (Z * Z)) (p : proc) : proc :=
  if p_pid p =? 0 then p
  else match stat (p_pid p) with Some (c, r) => upd_stat p c r | None => p end.

(** process.c:442-486: one process *)
Definition scan_one (now : tv) (stat : Z -> option (Z * Z)) (count : Z) (i : nat)
    (forks : list Z) (restart : Z) (p : proc) : run (proc * list Z * Z * list act) :=
  match p_state p with
  | None => Undef UUninit
  | Some st =>
      if p_restart p && (st =? PS_DEAD) then
        let p := if 60000 <? difftimeval (p_start p) (p_dead p) then upd_rdelay p 0 else p in
        let interval := s32 (difftimeval (p_dead p) now) in
        if p_rdelay p <? interval then
          let r := hd (-1) forks in
          Done (process_restart now r p, tl forks, restart, [AFork i r])
        else
          Done (p, forks, (if p_rdelay p - interval <? restart then s32 (p_rdelay p - interval) else restart), [])
      else if u32 (count + u32 (p_pid p)) mod 64 =? 0 then
        let a1 := if st =? PS_CONDEMNED then [AKill (p_pid p) SIGKILL] else [] in
        let p := get_cpu_stat stat p in
        let p := if (0 <? p_cpu p) && (p_cpu p <? p_pcpu p) then upd_state p PS_CONDEMNED else p in
        let p := if (0 <? p_mem p) && (p_mem p <? p_rss p) then upd_state p PS_CONDEMNED else p in
        let a2 := match p_state p with
                  | Some s => if s =? PS_CONDEMNED then [AKill (p_pid p) SIGQUIT] else []
                  | None => [] end in
        Done (p, forks, restart, a1 ++ a2)
      else Done (p, forks, restart, [])
  end.

(** process.c:439-488 *)
Fixpoint scan_list (now : tv) (stat : Z -> option (Z * Z)) (count : Z) (i : nat)
    (forks : list Z) (restart : Z) (l : list proc) : run (list proc * Z * list act) :=
  match l with
  | [] => Done ([], restart, [])
  | p :: l =>
      match scan_one now stat count i forks restart p with
      | Undef u => Undef u
      | Done (p', forks', restart', a) =>
          match scan_list now stat count (S i) forks' restart' l with
          | Undef u => Undef u
          | Done (l', restart'', b) => Done (p' :: l', restart'', a ++ b)
          end
      end
  end.

(** process.c:422-491, as two halves: the SIGCHLD handler may run between
    (and inside) them, and touches only [_dpq] *)
Definition scan_clean (now : tv) (m : master) : master :=
  let '(q, l) := clean_queue now (m_dpq m) (m_procs m) in
  {| m_procs := l; m_dpq := q; m_count := m_count m |}.
Definition scan_procs (E : menv) (m : master) : run (master * Z * list act) :=
  match scan_list (e_now E) (e_stat E) (m_count m) 0 (e_forks E) 60000 (m_procs m) with
  | Undef u => Undef u
  | Done (l, restart, a) =>
      Done ({| m_procs := l; m_dpq := m_dpq m; m_count := u32 (m_count m + 1) |}, restart, a)
  end.

(** process.c:505-514.  The loop reads [_dpq[n].pid] before it compares n with
    DPQ_SIZE, so with every slot taken it reads (and then writes) past the end. *)
Fixpoint dpq_add (pid status : Z) (q : list (Z * Z)) : run (list (Z * Z)) :=
  match q with
  | [] => Undef UOob
  | (p, s) :: r =>
      if p =? 0 then Done ((pid, status) :: r)
      else r' <-- dpq_add pid status r ;; Done ((p, s) :: r')
  end.

(** process.c:210-238: the initial start of every process; the SIGCHLD handler
    may already run meanwhile, which changes nothing here *)
Fixpoint start_all (now : tv) (i : nat) (forks : list Z) (l : list proc) : list proc * list act :=
  match l with
  | [] => ([], [])
  | p :: l =>
      let r := hd (-1) forks in
      let '(l', a) := start_all now (S i) (tl forks) l in
      (process_start now r p :: l', AFork i r :: a)
  end.
Definition mboot (now : tv) (forks : list Z) (cfg : list (bool * Z * Z)) : master * list act :=
  let '(l, a) := start_all now 0 forks (map (fun c => process_add (fst (fst c)) (snd (fst c)) (snd c)) cfg) in
  ({| m_procs := l; m_dpq := repeat (0, 0) DPQ_SIZE; m_count := 0 |}, a).

(** What can happen to the master: a child exits and child_signal
    (master.c:120-132) records it, or the main loop (master.c:77-96) gets to
    one of the halves of process_scan. *)
Inductive mevent : Type :=
| Death (pid status : Z)
| Clean (now : tv)
| Supervise (E : menv).

Definition mstep (e : mevent) (m : master) : run (master * list act) :=
  match e with
  | Death pid st =>
      match dpq_add pid st (m_dpq m) with
      | Done q => Done ({| m_procs := m_procs m; m_dpq := q; m_count := m_count m |}, [])
      | Undef u => Undef u
      end
  | Clean now => Done (scan_clean now m, [])
  | Supervise E =>
      match scan_procs E m with
      | Done (m', _, a) => Done (m', a)
      | Undef u => Undef u
      end
  end.

Fixpoint mexec (es : list mevent) (m : master) : run (master * list act) :=
  match es with
  | [] => Done (m, [])
  | e :: es =>
      match mstep e m with
      | Done (m', a) =>
          match mexec es m' with
          | Done (m'', b) => Done (m'', a ++ b)
          | Undef u => Undef u
          end
      | Undef u => Undef u
      end
  end.

(** ** Argument vectors *)
Inductive cell : Type := CStr (s : list Z) | CNull | CUninit.

(** strtok_r(s, " ", ..) repeated until it returns NULL: the maximal runs of
    characters other than the space (32) *)
Fixpoint tokens (cur : list Z) (s : list Z) : list (list Z) :=
  match s with
  | [] => match cur with [] => [] | _ => [rev cur] end
  | c :: r =>
      if c =? 32
      then match cur with [] => tokens [] r | _ => rev cur :: tokens [] r end
      else tokens (c :: cur) r
  end.

(** process.c:65-113 with path <> NULL: the array of count + 1 pointers; the
    terminating NULL is only written when there is an argument string *)
Definition arglist_tok (path : list Z) (str : option (list Z)) : list cell :=
  match str with
  | None => [CStr path; CUninit]
  | Some s => CStr path :: map CStr (tokens [] s) ++ [CNull]
  end.

(** process.c:287: execvp reads the vector up to the NULL *)
Fixpoint exec_args (arr : list cell) : run (list (list Z)) :=
  match arr with
  | [] => Undef UOob
  | CNull :: _ => Done []
  | CUninit :: _ => Undef UUninit
  | CStr s :: r => l <-- exec_args r ;; Done (s :: l)
  end.

(** process.c:517-546, called once at start-up (master.c:75): the index n is
    not reset between processes *)
Fixpoint print_args (arr : list cell) (n : nat) : run nat :=
  match arr with
  | [] => Undef UOob
  | c :: r =>
      match c with
      | CNull => Done n
      | CUninit => Undef UUninit
      | CStr _ => print_args r (S n)
      end
  end.
Fixpoint print_list (l : list (list cell)) (n : nat) : run nat :=
  match l with
  | [] => Done n
  | arr :: r => n' <-- print_args (skipn n arr) n ;; print_list r n'
  end.

(** ** Credentials of the child *)
Record creds := { ruid : Z; euid : Z; suid : Z; rgid : Z; egid : Z; sgid : Z }.

(** setuid(2), setgid(2) of Linux: privileged (euid 0) sets all three ids,
    unprivileged only moves the effective id to the real or saved one.
    Returns 0 or -1. *)
Definition k_setuid (u : Z) (c : creds) : creds * Z :=
  if euid c =? 0 then
    ({| ruid := u; euid := u; suid := u; rgid := rgid c; egid := egid c; sgid := sgid c |}, 0)
  else if (u =? ruid c) || (u =? suid c) then
    ({| ruid := ruid c; euid := u; suid := suid c; rgid := rgid c; egid := egid c; sgid := sgid c |}, 0)
  else (c, -1).
Definition k_setgid (g : Z) (c : creds) : creds * Z :=
  if euid c =? 0 then
    ({| ruid := ruid c; euid := euid c; suid := suid c; rgid := g; egid := g; sgid := g |}, 0)
  else if (g =? rgid c) || (g =? sgid c) then
    ({| ruid := ruid c; euid := euid c; suid := suid c; rgid := rgid c; egid := g; sgid := sgid c |}, 0)
  else (c, -1).

(** The identity part of a configuration entry: mstr_config.c:180-212 *)
Record ident := { i_user : option string; i_group : option string; i_uid : option Z; i_gid : option Z }.

Definition dflt (o : option string) : string := match o with Some s => s | None => "opendax"%string end.

(** mstr_config.c:102-136 after 182-212: [user] and [group] are never NULL *)
Definition set_uid_gid (pw gr : string -> option Z) (c : ident) : Z * Z :=
  let uid := match i_uid c with Some u => u | None => -1 end in
  let uid := if uid <? 0 then match pw (dflt (i_user c)) with Some u => u | None => uid end else uid in
  let gid := match i_gid c with Some g => g | None => -1 end in
  let gid := if gid <? 0 then match gr (dflt (i_group c)) with Some g => g | None => gid end else gid in
  (uid, gid).

(** process.c:240-264; [uid] and [gid] of the process were read first; the
    results of setuid and setgid are only logged *)
Definition set_user_group (ids : Z * Z) (c : creds) : creds :=
  let '(u, g) := ids in
  let c1 := if (0 <=? u) && negb (u =? euid c) then fst (k_setuid u c) else c in
  if (0 <=? g) && negb (g =? egid c) then fst (k_setgid g c1) else c1.

(** The credentials with which execvp runs in the child: process.c:284-287 *)
Definition child_creds (pw gr : string -> option Z) (i : ident) (c : creds) : creds :=
  set_user_group (set_uid_gid pw gr i) c.
