(** * State: the server's data structures (tagbase.h, daxtypes.h, virtualtag.h) *)
From Verif Require Import Base Const Types.

(** ** What the C program does not determine.
    Theorems quantify over every environment. *)
Record env := mk_env {
  en_strict : bool;              (* true: every read of freed memory counts as undefined;
                                    false: a just-freed block still holds its old contents *)
  en_attr : Z -> Z;              (* contents of _db[i].attr for i >= 1024 before tag_add (xrealloc does not clear) *)
  en_maps0 : Z -> bool;          (* whether _db[i].mappings happens to be NULL there, i >= 1024 *)
  en_retid : Z -> Z;             (* contents of _db[i].ret_file_pointer there *)
  en_junk : Z -> Z -> Z;         (* uninitialised bytes: request number, position *)
  en_qnull : Z -> Z -> bool;     (* whether an uninitialised queue slot pointer happens to be NULL *)
  en_int : Z -> Z;               (* an uninitialised int on the stack of request number n *)
  en_fadd : Z -> Z -> Z -> Z;    (* float arithmetic on bit patterns, first argument = width *)
  en_fsub : Z -> Z -> Z -> Z;
  en_excl : list name            (* configured module tag exclusion list, module.c:170-223 *)
}.

Definition zseq (from : Z) (n : Z) : list Z :=
  map (fun k => from + Z.of_nat k) (seq 0 (Z.to_nat n)).
(** [n] uninitialised bytes *)
Definition jbytes (E : env) (step from n : Z) : list Z :=
  map (fun p => u8 (en_junk E step p)) (zseq from n).

(** opendax.h: struct tag_handle *)
Record handle := mk_h { h_index : Z; h_byte : Z; h_bit : Z; h_count : Z; h_size : Z; h_type : Z }.

(** tagbase.h:75-90 struct dax_event_t *)
Record event := mk_ev {
  e_id : Z; e_byte : Z; e_bit : Z; e_count : Z; e_size : Z; e_opts : Z; e_dtype : Z; e_etype : Z;
  e_data : list Z; e_test : list Z; e_mod : Z }.        (* e_mod: identity of the module pointed to *)
Definition set_test (e : event) (t : list Z) : event :=
  mk_ev (e_id e) (e_byte e) (e_bit e) (e_count e) (e_size e) (e_opts e) (e_dtype e) (e_etype e) (e_data e) t (e_mod e).
Definition set_opts (e : event) (o : Z) : event :=
  mk_ev (e_id e) (e_byte e) (e_bit e) (e_count e) (e_size e) o (e_dtype e) (e_etype e) (e_data e) (e_test e) (e_mod e).

(** tagbase.h:92-98 struct dax_datamap_t *)
Record dmap := mk_map { m_id : Z; m_src : handle; m_dst : handle; m_mask : option (list Z) }.

(** virtualtag.h:48-57 tag_queue.  A slot is NULL, points to one of the queue's blocks, or is
    an uninitialised pointer.  The slot array has q_qsize = length q_slots entries. *)
Inductive slot := SNull | SBlk (n : Z) | SWild.
Record queue := mk_q { q_size : Z; q_slots : list slot; q_blocks : list (list Z); q_count : Z; q_read : Z }.

(** what _db[i].data points to *)
Inductive tdata :=
| DNull                     (* NULL: deleted *)
| DBytes (b : list Z)       (* the tag's data block *)
| DQueue (q : queue)        (* virt_functions {read_queue, write_queue, q} *)
| DTime                     (* virt_functions {server_time, NULL} *)
| DMyName                   (* virt_functions {get_module_tag_name, NULL} *)
| DBad.                     (* a block that was freed, or a truncated virt_functions *)

(** tagbase.h:101-116 _dax_tag_db.  t_maps = None: the pointer is uninitialised garbage. *)
Record tag := mk_tag {
  t_type : Z; t_attr : Z; t_count : Z; t_name : option name; t_fd : Z; t_nextev : Z; t_nextmap : Z;
  t_events : list event; t_maps : option (list dmap); t_data : tdata;
  t_omask : option (list Z); t_odata : option (list Z); t_retid : Z }.
Definition set_data (t : tag) (d : tdata) : tag :=
  mk_tag (t_type t) (t_attr t) (t_count t) (t_name t) (t_fd t) (t_nextev t) (t_nextmap t) (t_events t) (t_maps t) d (t_omask t) (t_odata t) (t_retid t).
Definition set_events (t : tag) (e : list event) : tag :=
  mk_tag (t_type t) (t_attr t) (t_count t) (t_name t) (t_fd t) (t_nextev t) (t_nextmap t) e (t_maps t) (t_data t) (t_omask t) (t_odata t) (t_retid t).
Definition set_nextev (t : tag) (n : Z) : tag :=
  mk_tag (t_type t) (t_attr t) (t_count t) (t_name t) (t_fd t) n (t_nextmap t) (t_events t) (t_maps t) (t_data t) (t_omask t) (t_odata t) (t_retid t).
Definition set_nextmap (t : tag) (n : Z) : tag :=
  mk_tag (t_type t) (t_attr t) (t_count t) (t_name t) (t_fd t) (t_nextev t) n (t_events t) (t_maps t) (t_data t) (t_omask t) (t_odata t) (t_retid t).
Definition set_maps (t : tag) (m : option (list dmap)) : tag :=
  mk_tag (t_type t) (t_attr t) (t_count t) (t_name t) (t_fd t) (t_nextev t) (t_nextmap t) (t_events t) m (t_data t) (t_omask t) (t_odata t) (t_retid t).
Definition set_attr (t : tag) (a : Z) : tag :=
  mk_tag (t_type t) a (t_count t) (t_name t) (t_fd t) (t_nextev t) (t_nextmap t) (t_events t) (t_maps t) (t_data t) (t_omask t) (t_odata t) (t_retid t).
Definition set_count (t : tag) (c : Z) : tag :=
  mk_tag (t_type t) (t_attr t) c (t_name t) (t_fd t) (t_nextev t) (t_nextmap t) (t_events t) (t_maps t) (t_data t) (t_omask t) (t_odata t) (t_retid t).
Definition set_name (t : tag) (n : option name) : tag :=
  mk_tag (t_type t) (t_attr t) (t_count t) n (t_fd t) (t_nextev t) (t_nextmap t) (t_events t) (t_maps t) (t_data t) (t_omask t) (t_odata t) (t_retid t).
Definition set_ovr (t : tag) (m d : option (list Z)) : tag :=
  mk_tag (t_type t) (t_attr t) (t_count t) (t_name t) (t_fd t) (t_nextev t) (t_nextmap t) (t_events t) (t_maps t) (t_data t) m d (t_retid t).
Definition set_retid (t : tag) (r : Z) : tag :=
  mk_tag (t_type t) (t_attr t) (t_count t) (t_name t) (t_fd t) (t_nextev t) (t_nextmap t) (t_events t) (t_maps t) (t_data t) (t_omask t) (t_odata t) r.

(** daxtypes.h:33-38 tag_group ([size] is never set; [count] = length of the members) *)
Record group := mk_g { g_live : bool; g_members : list handle }.
(** daxtypes.h:41-54 dax_module.  m_uid is the identity of the structure (its address).
    m_groups is the allocated array, m_gsize the field groups_size. *)
Record module := mk_mod {
  m_uid : Z; m_name : name; m_fd : Z; m_tagidx : Z; m_evcount : Z; m_groups : list group; m_gsize : Z }.
Definition set_evcount (m : module) (n : Z) : module :=
  mk_mod (m_uid m) (m_name m) (m_fd m) (m_tagidx m) n (m_groups m) (m_gsize m).
Definition set_groups (m : module) (g : list group) (n : Z) : module :=
  mk_mod (m_uid m) (m_name m) (m_fd m) (m_tagidx m) (m_evcount m) g n.
Definition set_tagidx (m : module) (i : Z) : module :=
  mk_mod (m_uid m) (m_name m) (m_fd m) i (m_evcount m) (m_groups m) (m_gsize m).

(** retain.c: rows of the SQLite tables [tags] and [types] *)
Record rrow := mk_row { rr_id : Z; rr_name : name; rr_type : name; rr_count : Z; rr_data : option (list Z) }.
Record rdb := mk_rdb { r_open : bool; r_rows : list rrow; r_next : Z; r_types : list (Z * name * name) }.

(** messages sent by the server *)
Inductive out :=
| OResp (fd cmd : Z) (payload : list Z)
| OErr (fd cmd code : Z)
| OEvent (fd etype idx id : Z) (data : option (list Z)).

Record server := mk_srv {
  s_db : list tag;              (* _db[0 .. _tagnextindex) *)
  s_dbsize : Z;
  s_index : list (name * Z);    (* _index[0 .. _indexcount) *)
  s_types : list cdt;
  s_tagcount : Z; s_ovi : Z; s_ovs : Z;
  s_mods : list module;         (* the circular list of modules; its rotation is not observable *)
  s_nextuid : Z; s_moduuid : Z;
  s_now : Z;                    (* clock, ms *)
  s_ret : rdb;
  s_out : list out;             (* every message sent so far, oldest first *)
  s_step : Z }.                 (* request number *)
Definition set_db (s : server) (x : list tag) : server :=
  mk_srv x (s_dbsize s) (s_index s) (s_types s) (s_tagcount s) (s_ovi s) (s_ovs s) (s_mods s) (s_nextuid s) (s_moduuid s) (s_now s) (s_ret s) (s_out s) (s_step s).
Definition set_dbsize (s : server) (x : Z) : server :=
  mk_srv (s_db s) x (s_index s) (s_types s) (s_tagcount s) (s_ovi s) (s_ovs s) (s_mods s) (s_nextuid s) (s_moduuid s) (s_now s) (s_ret s) (s_out s) (s_step s).
Definition set_index (s : server) (x : list (name * Z)) : server :=
  mk_srv (s_db s) (s_dbsize s) x (s_types s) (s_tagcount s) (s_ovi s) (s_ovs s) (s_mods s) (s_nextuid s) (s_moduuid s) (s_now s) (s_ret s) (s_out s) (s_step s).
Definition set_types (s : server) (x : list cdt) : server :=
  mk_srv (s_db s) (s_dbsize s) (s_index s) x (s_tagcount s) (s_ovi s) (s_ovs s) (s_mods s) (s_nextuid s) (s_moduuid s) (s_now s) (s_ret s) (s_out s) (s_step s).
Definition set_tagcount (s : server) (x : Z) : server :=
  mk_srv (s_db s) (s_dbsize s) (s_index s) (s_types s) x (s_ovi s) (s_ovs s) (s_mods s) (s_nextuid s) (s_moduuid s) (s_now s) (s_ret s) (s_out s) (s_step s).
Definition set_ovi (s : server) (x : Z) : server :=
  mk_srv (s_db s) (s_dbsize s) (s_index s) (s_types s) (s_tagcount s) x (s_ovs s) (s_mods s) (s_nextuid s) (s_moduuid s) (s_now s) (s_ret s) (s_out s) (s_step s).
Definition set_ovs (s : server) (x : Z) : server :=
  mk_srv (s_db s) (s_dbsize s) (s_index s) (s_types s) (s_tagcount s) (s_ovi s) x (s_mods s) (s_nextuid s) (s_moduuid s) (s_now s) (s_ret s) (s_out s) (s_step s).
Definition set_mods (s : server) (x : list module) : server :=
  mk_srv (s_db s) (s_dbsize s) (s_index s) (s_types s) (s_tagcount s) (s_ovi s) (s_ovs s) x (s_nextuid s) (s_moduuid s) (s_now s) (s_ret s) (s_out s) (s_step s).
Definition set_nextuid (s : server) (x : Z) : server :=
  mk_srv (s_db s) (s_dbsize s) (s_index s) (s_types s) (s_tagcount s) (s_ovi s) (s_ovs s) (s_mods s) x (s_moduuid s) (s_now s) (s_ret s) (s_out s) (s_step s).
Definition set_moduuid (s : server) (x : Z) : server :=
  mk_srv (s_db s) (s_dbsize s) (s_index s) (s_types s) (s_tagcount s) (s_ovi s) (s_ovs s) (s_mods s) (s_nextuid s) x (s_now s) (s_ret s) (s_out s) (s_step s).
Definition set_now (s : server) (x : Z) : server :=
  mk_srv (s_db s) (s_dbsize s) (s_index s) (s_types s) (s_tagcount s) (s_ovi s) (s_ovs s) (s_mods s) (s_nextuid s) (s_moduuid s) x (s_ret s) (s_out s) (s_step s).
Definition set_ret (s : server) (x : rdb) : server :=
  mk_srv (s_db s) (s_dbsize s) (s_index s) (s_types s) (s_tagcount s) (s_ovi s) (s_ovs s) (s_mods s) (s_nextuid s) (s_moduuid s) (s_now s) x (s_out s) (s_step s).
Definition set_out (s : server) (x : list out) : server :=
  mk_srv (s_db s) (s_dbsize s) (s_index s) (s_types s) (s_tagcount s) (s_ovi s) (s_ovs s) (s_mods s) (s_nextuid s) (s_moduuid s) (s_now s) (s_ret s) x (s_step s).
Definition set_step (s : server) (x : Z) : server :=
  mk_srv (s_db s) (s_dbsize s) (s_index s) (s_types s) (s_tagcount s) (s_ovi s) (s_ovs s) (s_mods s) (s_nextuid s) (s_moduuid s) (s_now s) (s_ret s) (s_out s) x.

Definition SM := M server.
Definition set_tag (s : server) (i : Z) (t : tag) : server := set_db s (zset (s_db s) i t).
