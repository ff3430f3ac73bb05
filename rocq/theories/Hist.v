(** * Hist: the historical logger's recording rule (src/modules/histlog/histlog.c).

    Simplifications.  Times (double, seconds) are integers in one fixed small
    unit.  Thresholds (double) are integers: the integer differences compared
    with them make a threshold equivalent to its ceiling, and for |threshold|
    <= 2^53 the conversion of a 64-bit difference to double does not change
    the comparison.  The comparison of two floating point values is a
    parameter [fdiff] (type, old, new, threshold).  write_data of the plugin
    is the list of records; tag handles of one element ([h.size] <= 8). *)
From Verif Require Import Base Const.

Definition ON_CHANGE := 1.  Definition ON_WRITE := 2.   (* histlog.h:51-52 *)

(** histlog.h:34-49 (the parts the callback uses) *)
Record htag := {
  ht_trigger : Z; ht_type : Z; ht_size : Z; ht_thr : Z; ht_timeout : Z;
  ht_cmp : list Z;        (* block of h.size bytes *)
  ht_lastv : list Z;      (* block of h.size bytes *)
  ht_lastts : Z;
  ht_good : bool }.

Definition record := (option (list Z) * Z)%type.     (* None: NULL *)

(** Read n bytes of a block as a little endian number *)
Definition rd_u (n : Z) (b : list Z) : run Z :=
  if n <=? zlen b then Done (le_val (slice 0 n b)) else Undef UOob.

(** ABS(a - b) >= threshold with the arithmetic of the type of (a - b):
    histlog.h:29 *)
Definition diff_int (a b thr : Z) : run bool :=
  if fits32 (a - b) && fits32 (Z.abs (a - b)) then Done (thr <=? Z.abs (a - b)) else Undef UOverflow.
Definition diff_long (a b thr : Z) : run bool :=
  if fits64 (a - b) && fits64 (Z.abs (a - b)) then Done (thr <=? Z.abs (a - b)) else Undef UOverflow.

(** histlog.c:36-76; [d1] is cmpvalue, [d2] the received data *)
Definition test_difference (fdiff : Z -> list Z -> list Z -> Z -> bool) (d1 d2 : list Z) (type thr : Z) : run bool :=
  if type =? T_BYTE then
    a <-- rd_u 1 d1 ;; b <-- rd_u 1 d2 ;; diff_int a b thr
  else if (type =? T_SINT) || (type =? T_CHAR) then
    a <-- rd_u 1 d1 ;; b <-- rd_u 1 d2 ;; diff_int (s8 a) (s8 b) thr
  else if (type =? T_UINT) || (type =? T_WORD) then
    a <-- rd_u 4 d1 ;; b <-- rd_u 4 d2 ;; diff_int (s32 a) (s32 b) thr
  else if type =? T_INT then
    a <-- rd_u 2 d1 ;; b <-- rd_u 2 d2 ;; diff_int (s16 a) (s16 b) thr
  else if (type =? T_UDINT) || (type =? T_DWORD) || (type =? T_TIME) then
    a <-- rd_u 4 d1 ;; b <-- rd_u 4 d2 ;; Done (thr <=? u32 (a - b))
  else if type =? T_DINT then
    a <-- rd_u 4 d1 ;; b <-- rd_u 4 d2 ;; diff_int (s32 a) (s32 b) thr
  else if (type =? T_ULINT) || (type =? T_LWORD) then
    a <-- rd_u 8 d1 ;; b <-- rd_u 8 d2 ;; Done (thr <=? u64 (a - b))
  else if type =? T_LINT then
    a <-- rd_u 8 d1 ;; b <-- rd_u 8 d2 ;; diff_long (s64 a) (s64 b) thr
  else if type =? T_REAL then
    _ <-- rd_u 4 d1 ;; Done (fdiff T_REAL (slice 0 4 d1) (slice 0 4 d2) thr)
  else if type =? T_LREAL then
    _ <-- rd_u 8 d1 ;; Done (fdiff T_LREAL (slice 0 8 d1) (slice 0 8 d2) thr)
  else Done false.

Definition set_ts t v := {| ht_trigger := ht_trigger t; ht_type := ht_type t; ht_size := ht_size t; ht_thr := ht_thr t;
  ht_timeout := ht_timeout t; ht_cmp := ht_cmp t; ht_lastv := ht_lastv t; ht_lastts := v; ht_good := ht_good t |}.
Definition set_cmp t v := {| ht_trigger := ht_trigger t; ht_type := ht_type t; ht_size := ht_size t; ht_thr := ht_thr t;
  ht_timeout := ht_timeout t; ht_cmp := v; ht_lastv := ht_lastv t; ht_lastts := ht_lastts t; ht_good := ht_good t |}.
Definition set_lastv t v := {| ht_trigger := ht_trigger t; ht_type := ht_type t; ht_size := ht_size t; ht_thr := ht_thr t;
  ht_timeout := ht_timeout t; ht_cmp := ht_cmp t; ht_lastv := v; ht_lastts := ht_lastts t; ht_good := ht_good t |}.
Definition set_good t v := {| ht_trigger := ht_trigger t; ht_type := ht_type t; ht_size := ht_size t; ht_thr := ht_thr t;
  ht_timeout := ht_timeout t; ht_cmp := ht_cmp t; ht_lastv := ht_lastv t; ht_lastts := ht_lastts t; ht_good := v |}.

(** histlog.c:79-149.  [buff]: the 8 bytes the event brought; [now], [now2]:
    the two clock readings (lines 84 and 119) *)
Definition event_callback fdiff (buff : list Z) (now now2 : Z) (t : htag) : run (htag * list record) :=
  let v := slice 0 (ht_size t) buff in
  if (0 <? ht_timeout t) && (ht_timeout t <? now - ht_lastts t) then
    let recs := [(None, now - ht_timeout t); (Some v, now)] in
    let t := if ht_trigger t =? ON_CHANGE then set_good (set_cmp (set_lastv t v) v) true else t in
    Done (set_ts t now, recs)
  else if ht_trigger t =? ON_WRITE then
    Done (set_ts t now, [(Some v, now2)])
  else if ht_trigger t =? ON_CHANGE then
    d <-- test_difference fdiff (ht_cmp t) buff (ht_type t) (ht_thr t) ;;
    if (d : bool) then
      let r1 := if ht_good t then [] else [(Some (ht_lastv t), ht_lastts t)] in
      let t := set_good t true in
      Done (set_ts (set_cmp t v) now, r1 ++ [(Some v, now)])
    else
      Done (set_ts (set_good (set_lastv t v) false) now, [])
  else Done (set_ts t now, []).

(** histopts.c:41-58 and histlog.c:171-198: the tag was found; [buff] holds its
    value, read at [now]; the records written at that moment *)
Definition start_tag (trigger type size thr timeout : Z) (buff : list Z) (now : Z) : htag * list record :=
  ({| ht_trigger := trigger; ht_type := type; ht_size := size; ht_thr := thr; ht_timeout := timeout;
      ht_cmp := slice 0 size buff; ht_lastv := zeros size; ht_lastts := 0; ht_good := true |},
   [(None, now); (Some (slice 0 size buff), now)]).

(** An event: the bytes, and the two clock readings *)
Record hev := { he_buff : list Z; he_now : Z; he_now2 : Z }.

Fixpoint hist fdiff (es : list hev) (t : htag) (log : list record) : run (htag * list record) :=
  match es with
  | [] => Done (t, log)
  | e :: es =>
      match event_callback fdiff (he_buff e) (he_now e) (he_now2 e) t with
      | Done (t', r) => hist fdiff es t' (log ++ r)
      | Undef u => Undef u
      end
  end.
