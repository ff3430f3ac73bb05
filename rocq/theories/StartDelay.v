(** * StartDelay: the pauses between the starts of the processes (src/master/process.c:208-238).

    Times are in nanoseconds.  process_start (Master.v) takes no time here and leaves [errno] as
    it pleases.  What nanosleep(2) returns is a parameter: it sleeps the whole time, or a signal
    ends it early with the rest in [rem] and errno EINTR.  assert is compiled in. *)
From Verif Require Import Base Const.

Definition EINTR : Z := 4.
Definition EINVAL : Z := 22.

(** struct timespec *)
Record tspec := mkTs { ts_sec : Z; ts_nsec : Z }.
Definition ns (t : tspec) : Z := ts_sec t * 1000000000 + ts_nsec t.
(** the range that nanosleep(2) accepts *)
Definition ts_valid (t : tspec) : bool := (0 <=? ts_sec t) && (0 <=? ts_nsec t) && (ts_nsec t <=? 999999999).

Inductive sleep := Whole | Signal (rem : tspec).

(** process.c:227-233: the loop around nanosleep; the time slept.  An empty list: still asleep *)
Fixpoint nap (errno : Z) (rem : tspec) (outs : list sleep) : run (Z * Z) :=
  match outs with
  | [] => Undef UFuel
  | o :: r =>
    let '(result, rest, slept, errno) :=
      if negb (ts_valid rem) then (-1, rem, 0, EINVAL)
      else match o with
           | Whole => (0, rem, ns rem, errno)
           | Signal l => (-1, l, ns rem - ns l, EINTR)
           end in
    if errno =? EINVAL then Undef UAbort
    else if result =? 0 then Done (slept, errno)
    else x <-- nap errno rest r ;; Done (slept + fst x, snd x)
  end.

(** process.c:224-226 and the loop, for one process *)
Definition pause (errno delay : Z) (outs : list sleep) : run Z :=
  if 0 <? delay then
    x <-- nap errno (mkTs (Z.quot delay 1000) (Z.rem delay 1000 * 1000000)) outs ;; Done (fst x)
  else Done 0.

(** process.c:209-238 [process_start_all]: the times at which the processes are started, and the
    end.  For each: errno after process_start, the configured delay, what nanosleep returns *)
Fixpoint start_times (now : Z) (l : list (Z * Z * list sleep)) : run (list Z * Z) :=
  match l with
  | [] => Done ([], now)
  | (errno, delay, outs) :: r =>
    t <-- pause errno delay outs ;;
    x <-- start_times (now + t) r ;;
    Done (now :: fst x, snd x)
  end.
