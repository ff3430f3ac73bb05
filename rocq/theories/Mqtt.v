(** * Mqtt: the MQTT client module (src/modules/mqtt/mqtt.c, mqttopts.c)

    Simplifications.  The client library (PAHO) and the broker are not part of
    the repository; what they answer is an input.  The session is clean
    (mqtt.c:391): the broker forgets the subscriptions of a lost connection.  A
    lost connection is noticed at the end of a cycle of client_loop (connlost
    runs in a thread of the library).  malloc succeeds; the content of a fresh
    block is an input.  Byte orders of client and server are equal, so the
    conversions of the group functions change nothing.  A message pushed on the
    Lua stack by a failed conversion is dropped with the value.  Not modelled:
    that msgarrived and publish_callback use the Lua state from two threads. *)
From Verif Require Import Base Const State Server LuaConv ClientTypes ClientData.

(** ** Topics *)
(** while(cr != '/' && cr != '\0') cr = received[++j]; mqttopts.c:392-394 *)
Fixpoint roll (r : list Z) : list Z :=
  match r with
  | [] => []
  | c :: r' => if (c =? 47) || (c =? 0) then r else roll r'
  end.
(** _topic_compare, mqttopts.c:380-409.  The strings with their terminators from
    the positions i and j on; true: match *)
Fixpoint cmp (s r : list Z) : run bool :=
  match s, r with
  | cs :: s', cr :: r' =>
      if cs =? 43 then
        match s', roll r with
        | _ :: s'', _ :: r'' => cmp s'' r''    (* i++ of line 389, i++ and j++ of lines 405-406 *)
        | _, _ => Undef UOob
        end
      else if negb (cs =? cr) then Done false
      else if (cs =? 0) && (cr =? 0) then Done true
      else if (cs =? 47) && (match s' with c :: _ => c =? 35 | [] => false end) then Done true
      else cmp s' r'
  | _, _ => Undef UOob
  end.
Definition topic_compare (subscription received : name) : run bool := cmp (subscription ++ [0]) (received ++ [0]).

(** ** The lists of subscribers and publishers *)
(** [g_cap]: entries of the block; [g_size]: subscriber_size; [g_count] *)
Record glist := { g_cap : Z; g_size : Z; g_count : Z }.
Definition no_list : glist := {| g_cap := 0; g_size := 0; g_count := 0 |}.
(** _get_new_sub, mqttopts.c:35-72, and _get_new_pub, 152-192: index of the new entry *)
Definition get_new (g : glist) : run (Z * glist) :=
  let g1 := if g_count g =? 0 then {| g_cap := 16; g_size := 16; g_count := 0 |}
            else if g_count g =? g_size g then {| g_cap := g_size g * 2; g_size := g_size g; g_count := g_count g |}
            else g in
  let n := g_count g1 in
  if n <? g_cap g1 then Done (n, {| g_cap := g_cap g1; g_size := g_size g1; g_count := n + 1 |}) else Undef UOob.
(** [k] calls of add_sub() in the configuration *)
Fixpoint adds (k : nat) (g : glist) : run glist :=
  match k with
  | O => Done g
  | S k => x <-- get_new g ;; adds k (snd x)
  end.

(** ** The connection and the set-up *)
Definition UNINIT : Z := 0.     (* mqtt.h:35-37 *)
Definition GOOD : Z := 1.
Definition FAIL : Z := 2.
(** mqtt.h:40-72, the parts that matter *)
Record msub := { u_topic : name; u_tags : list name; u_filter : bool; u_en : Z }.
Record mpub := { v_topic : name; v_tags : list name; v_filter : bool; v_trigger : name; v_en : Z }.
Definition sub_en (e : Z) (u : msub) : msub := {| u_topic := u_topic u; u_tags := u_tags u; u_filter := u_filter u; u_en := e |}.
Definition pub_en (e : Z) (v : mpub) : mpub := {| v_topic := v_topic v; v_tags := v_tags v; v_filter := v_filter v; v_trigger := v_trigger v; v_en := e |}.

(** get_sub, mqttopts.c:416-427 *)
Fixpoint get_sub (us : list msub) (topic : name) : run (option msub) :=
  match us with
  | [] => Done None
  | u :: us =>
      if u_en u =? GOOD then
        b <-- topic_compare (u_topic u) topic ;;
        if b then Done (Some u) else get_sub us topic
      else get_sub us topic
  end.

(** What the surroundings answer during one cycle: the broker accepts the
    connection; the tag exists; the server accepts the group of a topic; the
    broker accepts the subscription; the server accepts the event of a topic (and
    the trigger value is a value); the connection is lost *)
Record cyc := { c_connect : bool; c_tag : name -> bool; c_group : name -> bool; c_sub : name -> bool; c_event : name -> bool; c_lost : bool }.

(** subscribe, mqtt.c:130-187: the subscriber, the result, and whether the broker
    has the subscription now *)
Definition subscribe (c : cyc) (u : msub) : run (msub * Z * bool) :=
  if (zlen (u_tags u) =? 0) && negb (u_filter u) then Done (sub_en FAIL u, 0, false)
  else if negb (forallb (c_tag c) (u_tags u)) then Done (u, 1, false)
  else if (1 <? zlen (u_tags u)) && negb (c_group c (u_topic u)) then Undef UNull   (* lines 154-158 *)
  else if c_sub c (u_topic u) then Done (sub_en GOOD u, 0, true)
  else Done (sub_en FAIL u, 0, false).
(** setup_subscribers, mqtt.c:191-203; [ses]: the subscriptions the broker holds *)
Fixpoint setup_subs (c : cyc) (us : list msub) (ses : list name) : run (list msub * Z * list name) :=
  match us with
  | [] => Done ([], 0, ses)
  | u :: us =>
      x <-- (if u_en u =? UNINIT then subscribe c u else Done (u, 0, false)) ;;
      let '(u', bad, has) := x in
      y <-- setup_subs c us (if has then ses ++ [u_topic u] else ses) ;;
      let '(us', bads, ses') := y in Done (u' :: us', bad + bads, ses')
  end.

(** publish, mqtt.c:278-358: the publisher and whether it is to be tried again *)
Definition publish (c : cyc) (v : mpub) : mpub * Z :=
  if (zlen (v_tags v) =? 0) && negb (v_filter v) then (pub_en FAIL v, 0)
  else if negb (forallb (c_tag c) (v_tags v)) then (pub_en FAIL v, 1)
  else if (1 <? zlen (v_tags v)) && negb (c_group c (v_topic v)) then (pub_en FAIL v, 1)
  else if negb (c_tag c (v_trigger v)) then (pub_en FAIL v, 1)
  else if negb (c_event c (v_topic v)) then (pub_en FAIL v, 1)
  else (pub_en GOOD v, 0).
(** setup_publishers, mqtt.c:361-373 *)
Fixpoint setup_pubs (c : cyc) (vs : list mpub) : list mpub * Z :=
  match vs with
  | [] => ([], 0)
  | v :: vs =>
      let '(v', bad) := if v_en v =? UNINIT then publish c v else (v, 0) in
      let '(vs', bads) := setup_pubs c vs in (v' :: vs', bad + bads)
  end.

(** The variables of client_loop, the connection, the session at the broker and
    the number of attempts to connect *)
Record mst := { z_subs : list msub; z_pubs : list mpub; z_conn : bool; z_cycle : Z; z_every : Z;
                z_bads : Z; z_badp : Z; z_ses : list name; z_tries : Z }.
(** mqtt.c:379-384 *)
Definition mst0 (us : list msub) (vs : list mpub) : mst :=
  {| z_subs := us; z_pubs := vs; z_conn := false; z_cycle := 1; z_every := 1; z_bads := 1; z_badp := 1; z_ses := []; z_tries := 0 |}.

(** mqtt.c:395-409 *)
Definition try_connect (c : cyc) (z : mst) : mst :=
  if negb (z_conn z) && (z_every z <=? z_cycle z) then
    if c_connect c
    then {| z_subs := z_subs z; z_pubs := z_pubs z; z_conn := true; z_cycle := 0; z_every := 1;
            z_bads := z_bads z; z_badp := z_badp z; z_ses := []; z_tries := z_tries z + 1 |}
    else let e := u32 (z_every z * 2) in
         {| z_subs := z_subs z; z_pubs := z_pubs z; z_conn := false; z_cycle := 0; z_every := if 60 <? e then 60 else e;
            z_bads := z_bads z; z_badp := z_badp z; z_ses := z_ses z; z_tries := z_tries z + 1 |}
  else z.
(** mqtt.c:412-414 *)
Definition try_subs (c : cyc) (z : mst) : run mst :=
  if z_conn z && negb (z_bads z =? 0) && (z_cycle z mod 10 =? 0) then
    x <-- setup_subs c (z_subs z) (z_ses z) ;;
    let '(us, bad, ses) := x in
    Done {| z_subs := us; z_pubs := z_pubs z; z_conn := z_conn z; z_cycle := z_cycle z; z_every := z_every z;
            z_bads := bad; z_badp := z_badp z; z_ses := ses; z_tries := z_tries z |}
  else Done z.
(** mqtt.c:415-417 *)
Definition try_pubs (c : cyc) (z : mst) : mst :=
  if z_conn z && negb (z_badp z =? 0) && (z_cycle z mod 10 =? 0) then
    let '(vs, bad) := setup_pubs c (z_pubs z) in
    {| z_subs := z_subs z; z_pubs := vs; z_conn := z_conn z; z_cycle := z_cycle z; z_every := z_every z;
       z_bads := z_bads z; z_badp := bad; z_ses := z_ses z; z_tries := z_tries z |}
  else z.
(** mqtt.c:424-425 and connlost, 119-124 *)
Definition wait (c : cyc) (z : mst) : mst :=
  {| z_subs := z_subs z; z_pubs := z_pubs z; z_conn := z_conn z && negb (c_lost c); z_cycle := u32 (z_cycle z + 1); z_every := z_every z;
     z_bads := z_bads z; z_badp := z_badp z; z_ses := if c_lost c then [] else z_ses z; z_tries := z_tries z |}.
(** One round of the loop, mqtt.c:394-426 *)
Definition cycle (c : cyc) (z : mst) : run mst :=
  z <-- try_subs c (try_connect c z) ;; Done (wait c (try_pubs c z)).
Fixpoint cycles (cs : list cyc) (z : mst) : run mst :=
  match cs with
  | [] => Done z
  | c :: cs => z <-- cycle c z ;; cycles cs z
  end.

(** ** Messages *)
(** A handle as the conversions see it: type, count, size *)
Record mtag := { k_ty : lty; k_count : Z; k_size : Z }.
(** What lua_pcall gives: the message of an error, or a value *)
Inductive called := Failed (msg : list Z) | Gave (v : lval).

(** mqtt.c:80-89: the tags of a list, [off]: offset *)
Fixpoint fill_tags (E : lenv) (ks : list mtag) (n off : Z) (v : lval) (buff mask : list Z) : run (list Z * list Z) :=
  match ks with
  | [] => Done (buff, mask)
  | k :: ks =>
      match v with
      | LTab t =>
          let x := rawget (KI (n + 1)) t in
          if is_lnil x then fill_tags E ks (n + 1) off v buff mask
          else
            if in_bounds off 0 (zlen buff) then
              r <-- lua_to_dax E (k_ty k) (k_count k)
                      {| w_stk := [x; v]; w_data := skipn (Z.to_nat off) buff; w_mask := skipn (Z.to_nat off) mask |} ;;
              fill_tags E ks (n + 1) (off + k_size k) v (firstn (Z.to_nat off) buff ++ w_data (snd r)) (firstn (Z.to_nat off) mask ++ w_mask (snd r))
            else Undef UOob
      | _ => Undef UOob                      (* lua_rawgeti of a value that is no table *)
      end
  end.
(** msgarrived, mqtt.c:58-107: the block that is written to the tags and the mask.
    [filter] None: no filter *)
Definition arrived (E : lenv) (ks : list mtag) (filter : option called) (payload buff mask : list Z) : run (list Z * list Z) :=
  x <-- match filter with
        | Some (Failed _) => Done (buff, mask)
        | Some (Gave v) =>
            match ks with
            | [] => Done (buff, mask)
            | [k] => r <-- lua_to_dax E (k_ty k) (k_count k) {| w_stk := [v]; w_data := buff; w_mask := mask |} ;;
                     Done (w_data (snd r), w_mask (snd r))
            | _ => fill_tags E ks 0 0 v buff mask
            end
        | None => Done (splice 0 (slice 0 (Z.min (zlen payload) (zlen buff)) payload) buff, mask)
        end ;;
  match ks with [] => Undef UNull | _ => Done x end.     (* line 106, h is NULL *)

(** mqtt.c:219-229: [n] tags, [gi]: index of the group, [ans]: what the server
    has.  dax_group_read uses the block for its request (libmsg.c:1733-1735) *)
Definition pub_read (n gi : Z) (ans : option (list Z)) (buff : list Z) : run (bool * list Z) :=
  if n =? 1 then Done (match ans with Some d => (true, splice 0 d buff) | None => (false, buff) end)
  else if n =? 0 then Undef UNull
  else if zlen buff <? 4 then Undef UOob
  else let b := splice 0 (le_bytes 4 gi) buff in
       Done (match ans with Some d => (true, splice 0 d b) | None => (false, b) end).
(** mqtt.c:248-254 *)
Fixpoint push_tags (ks : list mtag) (n off : Z) (buff : list Z) (t : list (key * lval)) : run lval :=
  match ks with
  | [] => Done (LTab t)
  | k :: ks =>
      v <-- dax_to_lua (skipn (Z.to_nat off) buff) (k_ty k) (k_count k) ;;
      push_tags ks (n + 1) (off + k_size k) buff ((KI (n + 1), v) :: t)
  end.
(** lua_tolstring; [numtext]: the text of a number *)
Definition tolstring (numtext : lval -> list Z) (v : lval) : option (list Z) :=
  match v with LStr s => Some s | LInt _ | LNum _ => Some (numtext v) | _ => None end.
(** publish_callback, mqtt.c:208-276: the payload that is sent, None: nothing is
    sent; and the block.  [filter]: the function *)
Definition triggered (numtext : lval -> list Z) (ks : list mtag) (gi : Z) (filter : option (lval -> called)) (ans : option (list Z))
    (buff : list Z) : run (option (list Z) * list Z) :=
  x <-- pub_read (zlen ks) gi ans buff ;;
  let '(ok, b) := x in
  match filter with
  | None => Done (Some b, b)
  | Some f =>
      arg <-- (if negb ok then Done LNil
               else match ks with
                    | [k] => dax_to_lua b (k_ty k) (k_count k)
                    | _ => push_tags ks 0 0 b []
                    end) ;;
      (* lines 257-261: a failed call leaves its message where the value would be *)
      Done (match f arg with Failed msg => Some msg | Gave v => tolstring numtext v end, b)
  end.

(** ** With the server: one tag without a filter *)
(** msgarrived with dax_write_tag *)
Definition on_message (L : lenv) (E : env) (cc : ctypes) (fd : Z) (s : server) (h : handle) (k : mtag) (payload buff : list Z) : run (server * Z) :=
  x <-- arrived L [k] None payload buff [] ;; dax_tag_write E cc fd s h (fst x).
(** publish_callback with dax_read_tag *)
Definition on_trigger (numtext : lval -> list Z) (E : env) (cc : ctypes) (fd : Z) (s : server) (h : handle) (k : mtag) (buff : list Z) : run (server * option (list Z)) :=
  x <-- dax_tag_read E cc fd s h buff ;;
  let '(s', b, e) := x in
  y <-- triggered numtext [k] 0 None (if e =? 0 then Some b else None) buff ;; Done (s', fst y).
