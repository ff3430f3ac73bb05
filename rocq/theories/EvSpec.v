(** * EvSpec: vocabulary of the event properties *)
From Verif Require Import Base Const Types State Events Atomic Server Lib SearchProofs Shape Inv Reach Spec Frame Effects Out DataFrame WRel Prop_Tags Prop_Data.

(** [o] writes [n] bytes at offset [off] of tag [i], turning its data [b] into [b']; [a] is the
    answer that says so *)
Inductive writing (s : server) (fd i off n : Z) (b b' : list Z) : op -> out -> Prop :=
| wri_plain d : stored s i b -> n = zlen d -> b' = splice off d b ->
    writing s fd i off n b b' (OpWrite fd i off d) (OResp fd MSG_TAG_WRITE [])
| wri_masked d m : stored s i b -> n = zlen d -> b' = splice off (mix (slice off n b) d m) b ->
    writing s fd i off n b b' (OpMask fd i off d m) (OResp fd MSG_TAG_MWRITE []).
(** the event notifications about event [id] of tag [i] *)
Definition about (i id : Z) (o : out) : bool := match o with OEvent _ _ j k _ => (j =? i) && (k =? id) | _ => false end.
(** the notifications about event [e] sent because of the write itself are [l]: they are among the first
    messages of the step; unless the tag has mappings (which cause further writes) only the answer follows *)
Definition told (s s' : server) (i : Z) (e : event) (l : list out) : Prop :=
  exists notes rest, s_out s' = s_out s ++ notes ++ rest /\ filter (about i (e_id e)) notes = l /\
    (no_mapping s i -> exists a, rest = [a] /\ ~ is_event a).
(** the watched range lies in the tag (and in its first 2 GiB) *)
Definition placed (e : event) (b : list Z) : Prop :=
  0 <= e_byte e /\ 0 < e_size e /\ e_byte e + e_size e <= zlen b /\ e_byte e + e_size e <= 2147483647.
(** the two byte ranges have a byte in common *)
Definition meet (off n off' n' : Z) : Prop := exists k, off <= k < off + n /\ off' <= k < off' + n'.
(** the notification for event [e] of tag [i] holding [b], sent to module [m] *)
Definition note (m : module) (i : Z) (e : event) (b : list Z) : out :=
  OEvent (m_fd m) (e_etype e) i (e_id e) (if Z.testbit (e_opts e) 0 then Some (slice (e_byte e) (e_size e) b) else None).
(** the notification fits into one message *)
Definition sendable (e : event) : Prop := Z.testbit (e_opts e) 0 = true -> e_size e + 16 <= DAX_MSGMAX.
(** the module [e] belongs to is connected and is [m] *)
Definition registrant (s : server) (e : event) (m : module) : Prop := In m (s_mods s) /\ m_uid m = e_mod e.

(** the bytes event [e] watches in a tag holding [b] *)
Definition watched (e : event) (b : list Z) : list Z := slice (e_byte e) (e_size e) b.
(** the event last saw the tag holding (in the watched range) [b] *)
Definition saw (e : event) (b : list Z) : Prop := e_test e = watched e b.
Definition change_event (e : event) : Prop := e_etype e = EV_CHANGE /\ e_dtype e <> T_BOOL.

