(** * Base: outcomes, C integers, byte lists, the state monad.
    Platform facts used everywhere: LP64, little endian, 8-bit bytes. *)
From Coq Require Export String Ascii.
From Coq Require Export List ZArith Lia Bool.
From Coq Require Export ZifyBool ZifyNat ZifyN.
Export ListNotations.
Open Scope Z_scope.
Open Scope list_scope.

Ltac Zify.zify_post_hook ::= Z.div_mod_to_equations.

(** ** Outcomes.  [Undef] is undefined behaviour (or abort) of the C program:
    a separate outcome, never identified with success or with an error code. *)
Inductive ub : Type :=
| UOob        (* access outside an object *)
| UUaf        (* use of freed memory *)
| UNull       (* null pointer dereference *)
| UUninit     (* value read from uninitialised memory that decides control or addresses *)
| UOverflow   (* signed integer overflow *)
| UShift      (* shift count out of range *)
| UDiv        (* division by zero *)
| UAbort      (* assertion failure: the process aborts *)
| UOverlap    (* memcpy between overlapping areas *)
| UStr        (* string function on something that is not a C string *)
| UFuel.      (* model recursion bound exhausted; excluded by theorems *)

Inductive run (A : Type) : Type :=
| Done (a : A)
| Undef (u : ub).
Arguments Done {A} _.
Arguments Undef {A} _.

Definition rbind {A B} (m : run A) (k : A -> run B) : run B :=
  match m with Done a => k a | Undef u => Undef u end.

(** ** State monad with undefined behaviour *)
Definition M (S A : Type) : Type := S -> run (S * A).
Definition ret {S A} (a : A) : M S A := fun s => Done (s, a).
Definition bind {S A B} (m : M S A) (k : A -> M S B) : M S B :=
  fun s => match m s with Done (s', a) => k a s' | Undef u => Undef u end.
Definition get {S} : M S S := fun s => Done (s, s).
Definition put {S} (s : S) : M S unit := fun _ => Done (s, tt).
Definition modify {S} (f : S -> S) : M S unit := fun s => Done (f s, tt).
Definition undef {S A} (u : ub) : M S A := fun _ => Undef u.
Definition lift {S A} (r : run A) : M S A :=
  fun s => match r with Done a => Done (s, a) | Undef u => Undef u end.

Declare Scope mon_scope.
Delimit Scope mon_scope with mon.
Notation "x <- m ;; k" := (bind m (fun x => k)) (at level 61, m at next level, right associativity) : mon_scope.
Notation "m ;;; k" := (bind m (fun _ => k)) (at level 61, right associativity) : mon_scope.
Notation "x <-- m ;; k" := (rbind m (fun x => k)) (at level 61, m at next level, right associativity) : mon_scope.
Open Scope mon_scope.

(** ** C integer conversions *)
Definition u8 (x : Z) : Z := x mod 256.
Definition u16 (x : Z) : Z := x mod 65536.
Definition u32 (x : Z) : Z := x mod 4294967296.
Definition u64 (x : Z) : Z := x mod 18446744073709551616.
Definition s8 (x : Z) : Z := let y := x mod 256 in if y <? 128 then y else y - 256.
Definition s16 (x : Z) : Z := let y := x mod 65536 in if y <? 32768 then y else y - 65536.
Definition s32 (x : Z) : Z := let y := x mod 4294967296 in if y <? 2147483648 then y else y - 4294967296.
Definition s64 (x : Z) : Z :=
  let y := x mod 18446744073709551616 in if y <? 9223372036854775808 then y else y - 18446744073709551616.
(** representable as [int] / [int64_t] *)
Definition fits32 (x : Z) : bool := (-2147483648 <=? x) && (x <? 2147483648).
Definition fits64 (x : Z) : bool := (-9223372036854775808 <=? x) && (x <? 9223372036854775808).

(** ** Byte lists *)
Definition zlen {A} (l : list A) : Z := Z.of_nat (length l).
Definition is_byte (b : Z) : bool := (0 <=? b) && (b <? 256).
Definition bytes_ok (l : list Z) : Prop := Forall (fun b => 0 <= b < 256) l.

(** [nthb l i]: byte [i] of [l], 0 when outside: only used behind a bounds check *)
Definition nthb (l : list Z) (i : Z) : Z := nth (Z.to_nat i) l 0.
Definition upd {A} (l : list A) (i : nat) (x : A) : list A :=
  firstn i l ++ match skipn i l with [] => [] | _ :: r => x :: r end.
Definition updb (l : list Z) (i : Z) (x : Z) : list Z := upd l (Z.to_nat i) x.
(** [slice off n l]: the [n] bytes at [off] *)
Definition slice (off n : Z) (l : list Z) : list Z :=
  firstn (Z.to_nat n) (skipn (Z.to_nat off) l).
(** [splice off new l]: [l] with [new] copied over at [off] *)
Definition splice (off : Z) (new l : list Z) : list Z :=
  firstn (Z.to_nat off) l ++ new ++ skipn (Z.to_nat off + length new) l.
(** [in_bounds off n len]: the area [off, off+n) lies in an object of [len] bytes *)
Definition in_bounds (off n len : Z) : bool := (0 <=? off) && (0 <=? n) && (off + n <=? len).

Definition bnot (b : Z) : Z := 255 - b.      (* ~b on a byte *)
Definition bit_of (l : list Z) (k : Z) : bool := Z.testbit (nthb l (k / 8)) (k mod 8).

(** ** Little-endian integers *)
Fixpoint le_bytes (n : nat) (z : Z) : list Z :=
  match n with O => [] | S k => (z mod 256) :: le_bytes k (z / 256) end.
Fixpoint le_val (l : list Z) : Z :=
  match l with [] => 0 | b :: r => b + 256 * le_val r end.
(** big-endian (network order) *)
Definition be_bytes (n : nat) (z : Z) : list Z := rev (le_bytes n z).
Definition be_val (l : list Z) : Z := le_val (rev l).

(** ** C strings as lists of non-zero bytes *)
Definition name := list Z.
Definition str (s : string) : name :=
  List.map (fun c => Z.of_nat (nat_of_ascii c)) (list_ascii_of_string s).
Fixpoint name_eqb (a b : name) : bool :=
  match a, b with
  | [], [] => true
  | x :: a', y :: b' => (x =? y) && name_eqb a' b'
  | _, _ => false
  end.
(** strcmp(3) on unsigned bytes *)
Fixpoint strcmp (a b : name) : comparison :=
  match a, b with
  | [], [] => Eq
  | [], _ :: _ => Lt
  | _ :: _, [] => Gt
  | x :: a', y :: b' => match Z.compare x y with Eq => strcmp a' b' | c => c end
  end.
Definition lower (c : Z) : Z := if (65 <=? c) && (c <=? 90) then c + 32 else c.
(** strcasecmp(3) == 0, C locale *)
Definition case_eqb (a b : name) : bool := name_eqb (map lower a) (map lower b).
Definition isalpha (c : Z) : bool := ((65 <=? c) && (c <=? 90)) || ((97 <=? c) && (c <=? 122)).
Definition isdigit (c : Z) : bool := (48 <=? c) && (c <=? 57).
Definition isspace (c : Z) : bool := (c =? 32) || ((9 <=? c) && (c <=? 13)).

(** the bytes before the first NUL; [None] if there is no NUL: not a C string *)
Fixpoint cstr (l : list Z) : option name :=
  match l with
  | [] => None
  | b :: r => if b =? 0 then Some [] else match cstr r with Some n => Some (b :: n) | None => None end
  end.

(** element [i] of a list indexed by a C int; [None] outside *)
Definition znth {A} (l : list A) (i : Z) : option A :=
  if (0 <=? i) && (i <? zlen l) then nth_error l (Z.to_nat i) else None.
Definition zset {A} (l : list A) (i : Z) (x : A) : list A :=
  if (0 <=? i) && (i <? zlen l) then upd l (Z.to_nat i) x else l.
Definition zeros (n : Z) : list Z := repeat 0 (Z.to_nat n).
Definition is_nil {A} (l : list A) : bool := match l with [] => true | _ => false end.
