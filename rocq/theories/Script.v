(** * Script: the script scheduler of the daxlua module
    (src/modules/daxlua/threads.c, scripts.c).

    Simplifications.  A script is a number.  The steps of the worker threads are
    the critical sections of q_lock; a wait on the condition variable ends only
    by a signal (spurious wake-ups are allowed by POSIX; what one would do at
    the start is C73_start_refuted).  A run of a script begins when it is taken
    from the queue.  q_exit is never set in the code.  The event data of a
    trigger is a number. *)
From Verif Require Import Base.

(** ** The queue of scripts, threads.c:42-44; None: never written *)
Record ring := { r_cells : list (option Z); r_first : Z; r_last : Z; r_full : bool; r_empty : bool }.
(** threads.c:533 (malloc), 43-44 (static: zero) *)
Definition ring_init (n : nat) : ring :=
  {| r_cells := repeat None n; r_first := 0; r_last := 0; r_full := false; r_empty := false |}.

(** threads.c:68-78 *)
Definition q_push (s : Z) (r : ring) : run (Z * ring) :=
  if r_full r then Done (-1, r)
  else if negb ((0 <=? r_last r) && (r_last r <? zlen (r_cells r))) then Undef UOob
  else
    let cells := upd (r_cells r) (Z.to_nat (r_last r)) (Some s) in
    let last := r_last r + 1 in
    let full := if last =? r_first r then true else r_full r in
    let last := if zlen (r_cells r) <=? last then 0 else last in
    Done (0, {| r_cells := cells; r_first := r_first r; r_last := last; r_full := full; r_empty := false |}).

(** threads.c:83-94; the result None is NULL *)
Definition q_pop (r : ring) : run (option Z * ring) :=
  if r_empty r then Done (None, r)
  else match nth_error (r_cells r) (Z.to_nat (r_first r)) with
  | None => Undef UOob
  | Some None => Undef UUninit
  | Some (Some x) =>
      let first := r_first r + 1 in
      let first := if zlen (r_cells r) <=? first then 0 else first in
      let empty := if first =? r_last r then true else r_empty r in
      Done (Some x, {| r_cells := r_cells r; r_first := first; r_last := r_last r; r_full := false; r_empty := empty |})
  end.

(** ** Workers and dispatchers *)
Inductive worker :=
| WStart               (* created, has not waited yet: before threads.c:228 *)
| WWait                (* in pthread_cond_wait, threads.c:228 *)
| WWoken               (* signalled, not yet past threads.c:228 *)
| WRun (s : Z).        (* threads.c:233 *)
Definition waiting (w : worker) : bool := match w with WWait => true | _ => false end.

(** [sb_buff], [sb_new]: trigger->buff and new_data, daxlua.h:67-68;
    [sb_seen]: the script's global _trigger_data *)
Record sbuf := { sb_buff : Z; sb_new : bool; sb_seen : Z }.

Record sys := {
  s_ring : ring;
  s_work : list worker;
  s_over : Z;                        (* q_overruns *)
  s_data : Z -> sbuf;
  s_ran : list (Z * Z);              (* runs begun: script, _trigger_data *)
  s_auto : list Z;                   (* what _run_queue_scripts has still to push *)
  s_held : bool }.                   (* main sleeps holding q_lock: threads.c:280-281 *)

Definition set_work (i : nat) (w : worker) (s : sys) : sys :=
  {| s_ring := s_ring s; s_work := upd (s_work s) i w; s_over := s_over s; s_data := s_data s;
     s_ran := s_ran s; s_auto := s_auto s; s_held := s_held s |}.
Definition set_ring (r : ring) (s : sys) : sys :=
  {| s_ring := r; s_work := s_work s; s_over := s_over s; s_data := s_data s;
     s_ran := s_ran s; s_auto := s_auto s; s_held := s_held s |}.

(** pthread_cond_signal: one waiting thread wakes, [k] if it waits, else the
    first that does *)
Fixpoint wake_first (l : list worker) : list worker :=
  match l with
  | [] => []
  | w :: r => if waiting w then WWoken :: r else w :: wake_first r
  end.
Definition signal (k : nat) (l : list worker) : list worker :=
  match nth_error l k with Some WWait => upd l k WWoken | _ => wake_first l end.

(** scripts.c:256-260: the data of the trigger becomes a global of the script *)
Definition begin_run (x : Z) (s : sys) : sys :=
  let b := s_data s x in
  let seen := if sb_new b then sb_buff b else sb_seen b in
  {| s_ring := s_ring s; s_work := s_work s; s_over := s_over s;
     s_data := fun y => if y =? x then {| sb_buff := sb_buff b; sb_new := false; sb_seen := seen |} else s_data s y;
     s_ran := s_ran s ++ [(x, seen)]; s_auto := s_auto s; s_held := s_held s |}.

(** threads.c:226-236: a worker holding the lock at the inner loop: takes the
    next script or goes to wait *)
Definition work_loop (i : nat) (s : sys) : run sys :=
  if r_empty (s_ring s) then Done (set_work i WWait s)
  else match q_pop (s_ring s) with
  | Undef u => Undef u
  | Done (Some x, r) => Done (begin_run x (set_work i (WRun x) (set_ring r s)))
  | Done (None, r) => Undef UNull
  end.

(** threads.c:273-282 and 309-318: push and signal *)
Definition push_signal (x : Z) (k : nat) (s : sys) : run sys :=
  match q_push x (s_ring s) with
  | Undef u => Undef u
  | Done (_, r) =>
      Done {| s_ring := r; s_work := signal k (s_work s); s_over := s_over s; s_data := s_data s;
              s_ran := s_ran s; s_auto := s_auto s; s_held := s_held s |}
  end.

Inductive sev :=
| EEnter (i : nat)                (* worker i arrives at its first wait *)
| EWork (i : nat)                 (* worker i was woken, or finished its script *)
| EEvent (x d : Z) (k : nat)      (* an event of script x with data d; k: see signal *)
| EAuto (k : nat).                (* one round of _run_queue_scripts *)

(** threads.c:291-319 *)
Definition dispatch (x d : Z) (k : nat) (s : sys) : run sys :=
  let b := s_data s x in
  let s := {| s_ring := s_ring s; s_work := s_work s; s_over := s_over s;
     s_data := fun y => if y =? x then {| sb_buff := d; sb_new := true; sb_seen := sb_seen b |} else s_data s y;
     s_ran := s_ran s; s_auto := s_auto s; s_held := s_held s |} in
  if r_full (s_ring s)
  then Done {| s_ring := s_ring s; s_work := s_work s; s_over := s_over s + 1; s_data := s_data s;
               s_ran := s_ran s; s_auto := s_auto s; s_held := s_held s |}
  else push_signal x k s.

(** A step that cannot happen leaves the state as it is *)
Definition sstep (e : sev) (s : sys) : run sys :=
  if s_held s then Done s
  else match e with
  | EEnter i => match nth_error (s_work s) i with Some WStart => Done (set_work i WWait s) | _ => Done s end
  | EWork i =>
      match nth_error (s_work s) i with
      | Some WWoken | Some (WRun _) => work_loop i s
      | _ => Done s
      end
  | EEvent x d k => dispatch x d k s
  | EAuto k =>
      match s_auto s with
      | [] => Done s
      | x :: rest =>
          if r_full (s_ring s)
          then Done {| s_ring := s_ring s; s_work := s_work s; s_over := s_over s; s_data := s_data s;
                       s_ran := s_ran s; s_auto := s_auto s; s_held := true |}
          else match push_signal x k s with
               | Undef u => Undef u
               | Done s => Done {| s_ring := s_ring s; s_work := s_work s; s_over := s_over s; s_data := s_data s;
                                   s_ran := s_ran s; s_auto := rest; s_held := s_held s |}
               end
      end
  end.
Fixpoint sruns (es : list sev) (s : sys) : run sys :=
  match es with
  | [] => Done s
  | e :: r => match sstep e s with Done s' => sruns r s' | Undef u => Undef u end
  end.

Definition sys_init (n : nat) (work : list worker) (auto : list Z) : sys :=
  {| s_ring := ring_init n; s_work := work; s_over := 0;
     s_data := fun _ => {| sb_buff := 0; sb_new := false; sb_seen := 0 |};
     s_ran := []; s_auto := auto; s_held := false |}.

(** ** Interval threads, threads.c:128-155.  The clock counts nanoseconds;
    [interval] (uint32_t) is in milliseconds.  The expression of line 143 is of
    type double; its terms are below 2^42 in absolute value (runs up to 48 days) and a multiple
    of 1/1000 up to an error below 1/1000, so truncation gives the exact quotient. *)
Definition sleep_time (interval start fin : Z) : Z :=
  let dsec := fin / 1000000000 - start / 1000000000 in
  let dnsec := fin mod 1000000000 - start mod 1000000000 in
  Z.quot ((u32 (interval * 1000) - dsec * 1000000) * 1000 + dnsec) 1000.
(** One round: the scripts run from [start] to [fin]; the time of the next
    start (an ideal usleep) and whether an overrun was counted *)
Definition interval_round (interval start fin : Z) : Z * bool :=
  let st := sleep_time interval start fin in
  if st <? 0 then (fin, true) else (fin + u32 st * 1000, false).

(** ** The table of scripts, scripts.c:29-78.  [t_cap]: elements of the block *)
Definition NUM_SCRIPTS := 8.          (* daxlua.h:31 *)
Record stable := { t_cells : list Z; t_cap : Z; t_size : Z; t_count : Z }.
Definition table_init := {| t_cells := []; t_cap := 0; t_size := 0; t_count := 0 |}.
(** [v]: what the configuration stores in the new element *)
Definition get_new_script (v : Z) (t : stable) : run stable :=
  let t := if t_count t =? 0
           then {| t_cells := []; t_cap := NUM_SCRIPTS; t_size := NUM_SCRIPTS; t_count := 0 |}
           else if t_count t =? t_size t
           then {| t_cells := t_cells t; t_cap := t_size t + NUM_SCRIPTS; t_size := t_size t; t_count := t_count t |}
           else t in
  if t_count t <? t_cap t
  then Done {| t_cells := t_cells t ++ [v]; t_cap := t_cap t; t_size := t_size t; t_count := t_count t + 1 |}
  else Undef UOob.
Fixpoint add_scripts (vs : list Z) (t : stable) : run stable :=
  match vs with
  | [] => Done t
  | v :: r => match get_new_script v t with Done t' => add_scripts r t' | Undef u => Undef u end
  end.
