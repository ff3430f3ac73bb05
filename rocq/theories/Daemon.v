(** * Daemon: the master goes to the background (src/master/daemon.c, master.c:70-72).

    A process is what fork(2), setsid(2), chdir(2), umask(2), open(2), dup(2) and close(2) change.
    fork: the parent exits and the model goes on with the child; the process ids that the two
    calls return are parameters, as are whether the file for the process id and /dev/null can be
    opened.  write(2) writes all.  Left out: the log, and what a signal does in between. *)
From Verif Require Import Base Const Types Lib Text.

(** A process: ids of process, group and session, the controlling terminal, working directory,
    umask, the files its descriptors stand for *)
Record dproc := mkD { dp_pid : Z; dp_pgid : Z; dp_sid : Z; dp_tty : option name; dp_cwd : name; dp_umask : Z;
                      dp_fds : Z -> option name }.
(** ... and the rest of the world: the files, what was written to terminals and files in order *)
Record dworld := mkW { dw_files : name -> option (list Z); dw_out : list (name * list Z) }.

Definition child (p : dproc) (pid : Z) : dproc :=
  mkD pid (dp_pgid p) (dp_sid p) (dp_tty p) (dp_cwd p) (dp_umask p) (dp_fds p).
(** setsid(2) fails for the leader of a process group *)
Definition k_setsid (p : dproc) : dproc * Z :=
  if dp_pid p =? dp_pgid p then (p, -1)
  else (mkD (dp_pid p) (dp_pid p) (dp_pid p) None (dp_cwd p) (dp_umask p) (dp_fds p), dp_pid p).

Definition fd_set (f : Z -> option name) (n : Z) (v : option name) : Z -> option name :=
  fun k => if k =? n then v else f k.
(** the lowest descriptor not in use, below [max] *)
Fixpoint lowest (f : Z -> option name) (n : Z) (max : nat) : option Z :=
  match max with
  | O => None
  | Datatypes.S m => match f n with None => Some n | Some _ => lowest f (n + 1) m end
  end.
(** open(2) of an existing device and dup(2): the table, and the descriptor or -1 *)
Definition k_open (max : Z) (ok : bool) (f : Z -> option name) (file : name) : (Z -> option name) * Z :=
  if ok then match lowest f 0 (Z.to_nat max) with Some n => (fd_set f n (Some file), n) | None => (f, -1) end
  else (f, -1).
Definition k_dup (max : Z) (f : Z -> option name) (n : Z) : Z -> option name :=
  match f n with None => f | Some file => fst (k_open max true f file) end.

Definition file_upd (d : name -> option (list Z)) (p : name) (v : option (list Z)) : name -> option (list Z) :=
  fun q => if name_eqb q p then v else d q.
Definition k_write (p : dproc) (w : dworld) (fd : Z) (text : list Z) : dworld :=
  match dp_fds p fd with
  | None => w
  | Some f => mkW (match dw_files w f with Some b => file_upd (dw_files w) f (Some (b ++ text)) | None => dw_files w end)
                  (dw_out w ++ [(f, text)])
  end.

(** sprintf(s, "%d", getpid()) into 10 bytes: daemon.c:37,45 and 59,96 *)
Definition pid_text (pid : Z) : run name :=
  if zlen (print_dec pid) <? 10 then Done (print_dec pid) else Undef UOob.

(** daemon.c:33-51 [writepidfile]; common.h:45-47.  open returns -1 on failure, which is not 0:
    the write then fails.  The file is unlinked at once and stays open *)
Definition pid_path (progname : name) : name := firstn 39 (str "/var/run" ++ str "/" ++ progname).
Definition writepidfile (max : Z) (ok : bool) (progname : name) (p : dproc) (w : dworld) : run (dproc * dworld) :=
  let file := pid_path progname in
  let '(fds, fd) := k_open max ok (dp_fds p) file in
  let p := mkD (dp_pid p) (dp_pgid p) (dp_sid p) (dp_tty p) (dp_cwd p) 0 fds in
  let w := if 0 <=? fd then mkW (file_upd (dw_files w) file (Some [])) (dw_out w) else w in
  w <-- (if fd =? 0 then Done w else t <-- pid_text (dp_pid p) ;; Done (k_write p w fd t)) ;;
  Done (p, mkW (file_upd (dw_files w) file None) (dw_out w)).

(** daemon.c:104: close every descriptor from getdtablesize() down to 0 *)
Definition close_all (max : Z) (f : Z -> option name) : Z -> option name :=
  fun k => if (0 <=? k) && (k <=? max) then None else f k.

(** daemon.c:53-109 [daemonize]; [f1], [f2]: what the two calls of fork return to the parent.
    The result: the process that goes on, and the return value *)
Definition daemonize (max f1 f2 : Z) (pid_ok null_ok : bool) (progname : name) (p : dproc) (w : dworld)
  : run (dproc * dworld * Z) :=
  if f1 <? 0 then Done (p, w, -1)
  else
    let p := child p f1 in
    let '(p, r) := k_setsid p in
    if r <? 0 then Done (p, w, -1)
    else if f2 <? 0 then Done (p, w, -1)
    else
      let p := child p f2 in
      let p := mkD (dp_pid p) (dp_pgid p) (dp_sid p) (dp_tty p) (str "/") 0 (dp_fds p) in
      s <-- pid_text (dp_pid p) ;;
      let w := k_write p w 2 s in
      x <-- writepidfile max pid_ok progname p w ;;
      let '(p, w) := x in
      let fds := close_all max (dp_fds p) in
      let '(fds, n) := k_open max null_ok fds (str "/dev/null") in
      let fds := k_dup max (k_dup max fds n) n in
      Done (mkD (dp_pid p) (dp_pgid p) (dp_sid p) (dp_tty p) (dp_cwd p) (dp_umask p) fds, w, 0).

(** master.c:70-72: the return value is not looked at *)
Definition go_background (max f1 f2 : Z) (pid_ok null_ok : bool) (want : bool) (p : dproc) (w : dworld) : run (dproc * dworld) :=
  if want then x <-- daemonize max f1 f2 pid_ok null_ok (str "opendax") p w ;; Done (fst x)
  else Done (p, w).
