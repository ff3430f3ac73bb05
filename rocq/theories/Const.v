(** * Constants of src/opendax.h, src/libcommon.h, src/server/tagbase.h *)
From Verif Require Import Base.

(** opendax.h:38-63 (data types), 60-63 (flags) *)
Definition T_BOOL := 16.   Definition T_BYTE := 3.    Definition T_SINT := 19.  Definition T_CHAR := 35.
Definition T_WORD := 4.    Definition T_INT := 20.    Definition T_UINT := 36.
Definition T_DWORD := 5.   Definition T_DINT := 21.   Definition T_UDINT := 37. Definition T_REAL := 53.
Definition T_LWORD := 6.   Definition T_LINT := 22.   Definition T_ULINT := 38. Definition T_TIME := 54.
Definition T_LREAL := 70.
Definition T_CUSTOM := 2147483648.   (* 0x80000000 *)
Definition T_QUEUE := 1073741824.    (* 0x40000000 *)

(** opendax.h:104-141 *)
Definition E_GENERIC := -1.  Definition E_2BIG := -3.      Definition E_ARG := -4.
Definition E_NOTFOUND := -5. Definition E_TAG_BAD := -8.   Definition E_TAG_DUPL := -9.
Definition E_ALLOC := -10.   Definition E_MSG_BAD := -11.  Definition E_DUPL := -12.
Definition E_TIMEOUT := -14. Definition E_ILLEGAL := -15.  Definition E_ARBITRARY := -18.
Definition E_EMPTY := -20.   Definition E_BADTYPE := -21.  Definition E_AUTH := -23.
Definition E_OVERFLOW := -24. Definition E_UNDERFLOW := -25.
Definition E_DELETED := -26. Definition E_READONLY := -27. Definition E_WRITEONLY := -28.
Definition E_NOTIMPL := -29.

(** opendax.h:152-160 *)
Definition A_READONLY := 1.  Definition A_VIRTUAL := 2. Definition A_RETAIN := 4.
Definition A_OVR_SET := 8.   Definition A_SPECIAL := 16. Definition A_OWNED := 32.
Definition A_MAPPING := 4096. Definition A_EVENT := 8192. Definition A_OVERRIDE := 16384.

(** opendax.h:164-174 *)
Definition EV_WRITE := 2. Definition EV_CHANGE := 3. Definition EV_SET := 4. Definition EV_RESET := 5.
Definition EV_EQUAL := 6. Definition EV_GREATER := 7. Definition EV_LESS := 8.
Definition EV_DEADBAND := 9. Definition EV_DELETED := 10.

Definition TAGNAME_SIZE := 32.
Definition MSG_DATA_SIZE := 4088.
Definition MSG_GROUP_SIZE := 4084.
Definition DAX_MSGMAX := 4096.

(** attribute tests: [x & FLAG] *)
Definition has (attr flag : Z) : bool := negb (Z.land attr flag =? 0).
Definition set_flag (attr flag : Z) : Z := Z.lor attr flag.
Definition clr_flag (attr flag : Z) : Z := Z.land attr (65535 - flag).   (* attr is a uint16_t *)

(** opendax.h:207-208 IS_CUSTOM, IS_QUEUE; libcommon.h CDT_TO_INDEX, CDT_TO_TYPE *)
Definition is_custom (t : Z) : bool := Z.testbit t 31.
Definition is_queue (t : Z) : bool := Z.testbit t 30.
Definition cdt_index (t : Z) : Z := Z.clearbit t 31.
Definition cdt_type (i : Z) : Z := Z.lor i T_CUSTOM.
(** opendax.h:101 TYPESIZE: bits *)
Definition typesize_bits (t : Z) : Z := 2 ^ (Z.land t 15).
