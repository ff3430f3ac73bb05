(** * Conv: number conversion of the library (src/lib/libconv.c, src/lib/libdax.h:143-183)
    All of the conversion functions return their argument.  [mtos_dword], [mtos_time] and their inverses are macros for the 16 bit functions. *)
From Verif Require Import Base Const Lib.

(** a 16 bit value assigned to a wider object *)
Definition only16 (l : list Z) : list Z := firstn 2 l ++ zeros (zlen l - 2).
(** libconv.c:139-194 [mtos_generic] and 201-256 [stom_generic] on the bytes of one value: [None] is ERR_ARG, nothing is written *)
Definition conv (t : Z) (l : list Z) : option (list Z) :=
  match t with
  | 16 | 3 | 19 | 35 (* BOOL BYTE SINT CHAR *) => Some l
  | 4 | 20 | 36 (* WORD INT UINT *) => Some l
  | 5 (* DWORD *) => Some (only16 l)
  | 21 | 37 (* DINT UDINT *) => Some l
  | 54 (* TIME *) => Some (only16 l)
  | 53 (* REAL *) => Some l
  | 6 | 22 | 38 | 70 (* LWORD LINT ULINT LREAL *) => Some l
  | _ => None
  end.
