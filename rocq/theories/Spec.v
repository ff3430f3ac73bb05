(** * Spec: the vocabulary of the theorem statements.
    Everything here talks about what a client can know about the server: which tags exist,
    what is stored in them and which messages were sent. *)
From Verif Require Import Base Const Types State Events Atomic Server Lib.

(** entry [i] of the tag table is [t], a tag that exists under the name [n] *)
Definition named (s : server) (i : Z) (n : name) (t : tag) : Prop :=
  znth (s_db s) i = Some t /\ t_name t = Some n.
(** index [i] was handed out for a tag that has been deleted since *)
Definition gone (s : server) (i : Z) : Prop := exists t, znth (s_db s) i = Some t /\ t_name t = None.
(** some tag called [n] exists *)
Definition exists_tag (s : server) (n : name) : Prop := exists i t, named s i n t.
(** the bytes stored in an ordinary tag *)
Definition stored (s : server) (i : Z) (b : list Z) : Prop :=
  exists t, znth (s_db s) i = Some t /\ has (t_attr t) A_VIRTUAL = false /\ t_data t = DBytes b.

(** the same server after sending the messages [o] and counting the request *)
Definition after (s : server) (o : list out) : server :=
  set_step (set_out s (s_out s ++ o)) (s_step s + 1).
Definition is_event (o : out) : Prop := match o with OEvent _ _ _ _ _ => True | _ => False end.
(** the last message the server sent while going from [s] to [s'] is [a]; before it only
    event notifications were sent *)
Definition answered (s s' : server) (a : out) : Prop :=
  exists ev, s_out s' = s_out s ++ ev ++ [a] /\ Forall is_event ev.
(** the request was refused: the requester gets an error and nothing else happens *)
Definition refused (E : env) (s : server) (o : op) (fd cmd : Z) : Prop :=
  exists code, code < 0 /\ step E s o = Done (after s [OErr fd cmd code]).

(** bit [k] of a block *)
Definition bit (l : list Z) (k : Z) : bool := Z.testbit (nthb l (k / 8)) (k mod 8).
(** the connection a request comes from *)
Definition sender (o : op) : option Z :=
  match o with
  | OpRegister fd _ | OpUnregMsg fd | OpBadReg fd | OpDisconnect fd | OpTagAdd fd _ _ _ _ | OpTagDel fd _
  | OpTagGetName fd _ | OpTagGetIdx fd _ | OpTagList fd | OpRead fd _ _ _ | OpWrite fd _ _ _ | OpMask fd _ _ _ _
  | OpEvAdd fd _ _ _ | OpEvDel fd _ _ | OpEvGet fd | OpEvOpt fd _ _ _ | OpCdtCreate fd _ | OpCdtGetName fd _
  | OpCdtGetType fd _ | OpMapAdd fd _ _ | OpMapDel fd _ _ | OpMapGet fd _ _ | OpGrpAdd fd _ | OpGrpDel fd _
  | OpGrpRead fd _ | OpGrpWrite fd _ _ | OpGrpMwrite fd | OpAtomic fd _ _ _ | OpOvAdd fd _ _ _ _ | OpOvDel fd _ _ _
  | OpOvGet fd _ _ _ | OpOvSet fd _ _ => Some fd
  | OpTick _ => None
  end.
