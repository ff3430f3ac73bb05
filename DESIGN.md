# OpenDAX: formal model and proofs

Everything is in Rocq (Coq 8.16.1) under `rocq/theories`; only Coq's standard library is used.
Build: `coq_makefile -f _CoqProject -o Makefile && make -j4` in `rocq/` (about three minutes on four cores).

* `properties.jsonl`: the properties, in English. `MANIFEST.json`: the theorems for each and their status.
* `seeded/LOG.jsonl`: wrong programs the theorems were tested against.

## Trusted base

* Coq's kernel.
* Axioms: none. `Assumptions.v` collects every theorem the manifest names in one definition per property and prints the assumptions of all of them together: "Closed under the global context". The same holds for each theorem separately. (A checker that looks at whole libraries may list the seven parameters of `Coq.ssr.ssrunder`; that standard-library module is loaded by a tactic library and no theorem depends on it.)
* The reading of the C code. Nothing connects the Gallina model to `/repo` mechanically; each definition cites file and lines and says where it simplifies.
* Platform assumptions written into the model: little-endian LP64 host, 8-bit `char`, 32-bit `int`, `malloc` never returns NULL, C locale for `isalpha`/`isdigit`/`isspace`, one single-threaded server process (that is how the server is written), stream sockets that deliver bytes in order.

## Conventions

* Bytes are `Z` in 0..255, C integers are `Z` with explicit wrap functions (`u8 u16 u32 s32 ...`), memory blocks are lists.
* `run A = Done a | Undef u`. `Undef` is a separate outcome for undefined behaviour: out-of-bounds access, use after free, null or uninitialised pointers, signed overflow, bad shifts, division by zero, failed assertions, overlapping copies, unterminated strings, exhausted fuel (`UFuel`, for the few C recursions that are bounded by fuel). No theorem takes `Undef` for success; theorems of the form "if the step is `Done` …" are partial-correctness statements and the safety properties (C08, C43, C58) say when it is.
* `env` collects what the C program does not determine: contents of fresh memory, of unused table slots above index 1023, whether a freed block still holds its contents (`e_uaf`), floating point comparisons and arithmetic, the configured exclusion list. Theorems quantify over all environments unless a hypothesis says otherwise (`env0`: everything zero; `envS`: junk bytes, use after free is undefined; both only in examples).
* The server is a record, `step : env -> server -> op -> run server` on decoded requests, and a log of the messages sent. `reachable E s` = some list of requests after some start (`boot`) leads to `s`. History theorems quantify over all request lists.
* A property that the code does not have is refuted by a concrete reachable run (`…_refuted`, by computation) and proved under the exact conditions that make it true (`…_partial` or a name that states the condition). Its status is `partial` and its note starts with `REFUTED`.
* Specifications (`Spec.v`, `EvSpec.v`, and definitions in the `Prop_*` files such as `reg_value`, `coil`, `clean_frames`, `qrun`) are written from the documentation and the protocol, not with the helpers of the model. Beside the theorems stand `Example`s with concrete states that meet their hypotheses.

## Files

| Files | Models | Source |
|---|---|---|
| Base, Const, State | outcomes, lists of bytes, C integers; constants; the server's data structures | `opendax.h libcommon.h tagbase.h daxtypes.h virtualtag.h module.h` |
| Types | `_checktype type_size _validate_name cdt_append cdt_create cdt_get_type cdt_get_name serialize_datatype` | `server/tagbase.c` |
| Events, Atomic | event tests, `_send_event`, `event_check`, `_set_event_data`; atomic operations | `server/events.c atomic.c` |
| Server | tags, overrides, queues and special tags, events, mappings, groups, modules, retention, the handlers of all 30 requests, start-up | `server/tagbase.c virtualtag.c events.c mapping.c groups.c module.c retain.c message.c` |
| Buffer, Wire | `buff_read` … `msg_dispatcher`; decoding in the handlers | `server/buffer.c message.c` |
| ClientMsg, Conv | what each `dax_*` call sends; byte order conversion | `lib/libmsg.c libconv.c` |
| ClientData | `dax_read dax_write dax_mask dax_tag_read dax_tag_write dax_tag_mask _read_format _write_format`, with the splitting | `lib/libdata.c libmsg.c` |
| ClientOvr | `dax_tag_add_override dax_tag_del_override dax_tag_get_override`, with the masks they build | `lib/libdata.c libmsg.c` |
| Concur | `dax_tag_read dax_tag_write` with requests of other clients between the parts | `lib/libdata.c libmsg.c` |
| ClientTypes, Path | the client's type cache, `dax_cdt_get`, sizes, tag paths `a.b[3].7` to handles | `lib/libcdt.c` |
| Cache | the tag cache as a circular list of heap nodes | `lib/libdata.c` |
| Text | `dax_val_to_string dax_string_to_val` for integer types | `lib/libfunc.c` |
| ClientRx | `_message_get`, the answer and the event queue, callbacks, deadlines | `lib/libmsg.c libevent.c` |
| Opt | attributes of a module, command line, configuration file, defaults; the server's options | `lib/libopt.c libinit.c` (`dax_init`), `server/options.c` |
| Prop_Deliver (`wire`) | the type and data of each message the server sends, as the client reads them | `server/message.c events.c` |
| Master | supervision of child processes, argument vectors, credentials | `master/process.c`, `master/master.c` (main loop, SIGCHLD handler), `master/mstr_config.c` (`_set_uid_gid`) |
| MstrConf | configuration of the master: command line, check of the file, processes, precedence | `master/mstr_config.c`, `master/process.c` (`process_add`, `_print_process_list`: env), `master/master.c` (start of main) |
| Daemon | the master goes to the background | `master/daemon.c`, `master/master.c` (its call) |
| StartDelay | pauses between the starts of processes | `master/process.c` (`process_start_all`) |
| Hist | recording rule of the historical logger | `modules/histlog/histlog.c` (`_test_difference`, `_event_callback`, `_add_tags` for one tag) |
| DhlFile | file plugin of the historical logger | `modules/histlog/plugins/file/dhl_file.c` (`init`, `_open_file`, `write_data`, `flush_data`, `_rotate_callback`) |
| Script | scheduler of the Lua scripts: queue, worker threads, interval threads, table of scripts | `modules/daxlua/threads.c` (queue, `__queue_thread`, `_run_queue_scripts`, `_script_event_dispatch`, `_interval_thread`), `scripts.c` (`get_new_script`) |
| LuaConv | tags to Lua values and back: layout walk, base types, strings, arrays, compound types, the Lua stack | `lib/lua/libdaxlua.c:38-473` |
| LuaApi | `_tag_read _tag_write _override_add _atomic_op _tag_del` of the Lua API, from the handle on | `lib/lua/libdaxlua.c:726-885, 1116-1170, 1287-1343` |
| CdtNew | `dax_cdt_new dax_cdt_member dax_cdt_create`, and `_cdt_create` of the Lua API | `lib/libcdt.c:252-360`, `lib/libmsg.c:1333-1397`, `lib/lua/libdaxlua.c:562-618` |
| LuaEvent | `_event_add _event_del _event_callback _get_event_type _convert_lua_number _log` of the Lua API | `lib/lua/libdaxlua.c:883-1075, 1477-1500` |
| ClientMap | `dax_map_add dax_map_get dax_map_del dax_group_*`, and `_map_*` of the Lua API | `lib/libmsg.c:1471-1822`, `lib/libdata.c:695-726`, `lib/lua/libdaxlua.c:1172-1284` |
| Daxc | the command line client: splitting a line, choosing the command, command files; `WRITE`, `OP`, the override commands and `DEL TAG` (see DaxcTags, DaxcEvent and DaxcRead for more; the remaining commands, the printing and readline are not modelled) | `modules/daxc/daxc.c:43-397`, `modules/daxc/daxc_tag.c:126-157, 410-490, 609-915` |
| DaxcTags | the commands `ADD TAG` and `LIST TAGS` of the client | `modules/daxc/daxc_tag.c:28-124, 161-258`, `lib/libmsg.c:466-525, 625-660` |
| DaxcEvent | the commands `ADD EVENT` and `DEL EVENT` of the client and the callback that prints events (that the answer to deleting an event has 8 bytes and its variable 4 is left out) | `modules/daxc/daxc_event.c:22-163`, `lib/libevent.c:34-55` |
| DaxcRead | the commands `READ` (compound tags: see CdtIter), `ADD TYPE` and `ADD MAP` of the client | `modules/daxc/daxc_tag.c:319-387, 493-530, 560-599` |
| CdtIter | going through types and members, and the commands `LIST TYPES` and `READ` of compound tags | `lib/libcdt.c:157-180, 779-838`, `modules/daxc/daxc_tag.c:260-313, 532-558` |
| Fqn | the name of a handle, and the number of members of a type | `lib/libcdt.c:843-1028` |
| Util | helpers of a module for its own status tag: running, faulted, status, default actions, callbacks | `lib/libutil.c:40-338` |
| Log | message logger: topics, services, configuration entries | `lib/logger/daxlog.c` |
| ScriptRun | globals, flags, tag, names and configuration of the scripts of daxlua; which scripts a thread runs, its sleep; events of the triggers | `modules/daxlua/scripts.c:46-300, 365-465, 526-640`, `luaif.c:34-112`, `luaopt.c:35-218`, `threads.c:119-203, 262-288, 392-466` |
| Plctag | transfer of values between tags and PLC memory, byte maps, set-up of a tag, queue of completed reads | `modules/plctag/plctag.c` (`_read_tag`, `_event_callback`, `_tag_callback`, `_check_tag_status`), `plcthread.c`, `plcopt.c` (defaults of a tag) |
| Mqtt | topics and filters, lists of subscriptions and publishers, the connection loop, messages in both directions | `modules/mqtt/mqtt.c`, `mqttopts.c` (`_get_new_sub`, `_get_new_pub`, `get_sub`) |
| Crc, Modbus | CRC, slave (TCP and serial), master requests and answers | `modules/modbus/mbutil.c modbus.c mbserver.c mbslave.c mbcmds.c database.c` |
| MbPort | Modbus master: pool of connections, `mb_send_command` with retries, `client_loop master_loop`, `mb_open_port mb_close_port`, with the descriptors of the process | `modules/modbus/modbus.c mbports.c` |
| MbStart | Modbus module: threads and barrier, shared function pointers, event set-up, enable and command tags, privileges, settings of ports, connections of the TCP server | `modules/modbus/modmain.c modbus.c mbserver.c mbports.c modopt.c` |

Proof support: Lib, SearchProofs, TypesProofs, BufProofs, CacheProofs, ClientTypesProofs, LuaConvProofs, LuaApiProofs, MqttProofs, OptProofs, MbPortProofs (facts about parts of the model); Shape, Inv, Reach, ModInv, IdInv (invariants of all reachable servers); MasterProofs (invariants of the supervisor); SafeLoops, SafeInv, SafeWrite, SafeOps, SafeTags, SafeConn, SafeStep (requests within the limits of Safe are defined); Frame, Effects, Out, WRel, DataFrame, QueueFrame, TypeFrame, EvLoops, EvSync (what each function leaves alone); Demo (example servers). Safe states the limits that theorem C80 is about. The theorems are in `Prop_*.v`.

## Not modelled

* Where the modules and the server call the logger, the formatting of messages, the modules other than Modbus, the historical logger, the PLC module, the MQTT module and the scheduler of the Lua scripts, and the Lua bindings other than the conversion of values, except where listed above.
* `malloc` failure; reuse of a freed module's address by a later one; the unused reference counts of types; overflow of `nextevent` after 2^31 registrations on one tag.
* Floating point: REAL and LREAL comparison, deadband and atomic arithmetic are parameters of `env`; text conversion of REAL, LREAL and TIME is left out.
* SQLite: statements are atomic and durable, a restart happens between requests.
* Short writes of `write(2)`; requests of other clients between the parts of a split call other than `dax_tag_read` and `dax_tag_write` of non-BOOL types; the mutexes of the client library (the theorems are about one thread; deadlocks found by reading are listed below).
* Master: the text of the configuration file (what running it does is a parameter; MstrConf), the computation of CPU percentages (supplied by the environment), quitting. Exits are linearised: the SIGCHLD handler touches only the queue, so an exit inside a half of `process_scan` is equivalent to one before or after it. setuid and setgid are the Linux calls without capabilities or supplementary groups.
* Historical logger: plugins other than the file plugin (DhlFile), tags that are not found at first or whose first read fails, failures of `dax_event_get_data`. Times and thresholds are integers (see Hist.v); REAL and LREAL comparison is a parameter.
* Lua scheduler: what a script does between reading and writing its globals, spurious wake-ups (see Script.v and ScriptRun.v).
* Lua values: metatables, strings as numbers and narrowing to float (supplied by the environment), out of memory; a table is a list of assignments.
* PLC module: libplctag itself (its accessors are modelled after its documentation), signalling NaNs, the bit of a BOOL handle (the buffer is packed from bit 0).
* MQTT module: the client library itself (a connection, a clean session), quality of service (the module subscribes with 0 whatever is configured), the two threads that share one Lua state.
* Configuration: a Lua file is a function from its path and the two globals set for it to the globals it leaves; `getopt_long` follows glibc; `inet_aton` is a parameter; whether fresh memory is zero is a parameter. Callbacks of attributes are recorded, not run.
* Modbus: timing of the serial line, effects of Lua callbacks on tags; in MbPort a command is one step (send_lock), requests are log entries, and what connect, write, read and open return is arbitrary. In MbStart the parts are separate models: the threads only meet at the barrier, the server loop only keeps its buffers.

## Properties

| Id | Property | Status | What is proved |
|---|---|---|---|
| C01 | Tag names resolve to exactly one live tag | proved | All reachable states, all requests, all environments. |
| C02 | A tag index denotes the same tag forever | partial | REFUTED in part: indices are permanent and never reused (proved), but write events and mappings can still be registered on a deleted index (C02_refuted_gone_accepts). |
| C03 | Reported tag count equals the number of live tags | proved |  |
| C04 | A read returns the last data written | proved | For ordinary (non-virtual) tags smaller than 2 GiB; the bytes read back after any history of requests that leave the range alone. |
| C05 | A write touches nothing but the addressed bytes | proved |  |
| C06 | Masked writes change exactly the masked bits | proved |  |
| C07 | A refused request leaves the database unchanged | proved | The whole server state is unchanged except for the error message sent. |
| C08 | Out-of-range access is always refused | partial | REFUTED in part: for tags below 2 GiB out-of-range access is refused and in-range access never refused as too big; but a write naming an index outside the allocated table is undefined behaviour (the attribute word is read before the bounds check). |
| C09 | Negative offsets and sizes are refused | partial | REFUTED: negative offsets pass the bounds check and access memory in front of the tag. |
| C10 | A deleted tag stays deleted and unreadable | proved |  |
| C11 | Re-adding an existing tag is idempotent | proved |  |
| C12 | Growing an array keeps its contents and zero-fills the rest | partial | REFUTED: grown memory is not cleared, and a count whose byte size wraps modulo 2^32 shrinks the tag. Old bytes are kept when the size does not wrap (proved). |
| C13 | An override masks what readers see and never the stored value | proved | Install, activate, read, write under, clear; the hypotheses name a stored (non-virtual, non-queue) tag at index >= 9 and the reply of the server. |
| C14 | Overrides can be installed on every tag | partial | REFUTED: fails on BOOL tags (type_size(BOOL)=0 is used) and when malloc returns non-zero memory (mask bits outside the range are garbage). Proved for all other types, resp. for zeroed memory. |
| C15 | Override counters are truthful | partial | REFUTED: deleting an overridden tag, or removing an active override, leaves the counter too high. Proved along every history without those requests. |
| C16 | Read-only tags are only changed by their owner | proved |  |
| C17 | No request of another client can change a read-only tag | partial | REFUTED: group writes, deletion by another client and pre-existing mappings change a read-only tag; every other request is proved harmless. |
| C18 | Module status tags are protected | proved | no request but a (re-)registration changes the id bytes of a status tag; the command byte is free; everything else only by the module itself; conversely the permitted writes are answered OK |
| C19 | Reserved names cannot be created or deleted by clients | proved |  |
| C20 | Disconnecting removes exactly the module's owned tags | proved | exactly the owned tags and the status tag go; the others keep name, type, size and data, except the server-maintained status tags (index below 9), whose data the server updates |
| C21 | Disconnecting never removes server status tags | partial | REFUTED: an excluded module has tag index 0, so its disconnect deletes _tagcount. Proved: with no excluded modules all server tags exist in every reachable state; in general only the disconnect of an excluded module can remove one, and only tag 0 |
| C22 | Every registered module has a status tag of its own | partial | REFUTED: modules foo000, foo, foo share a tag; a module name with characters invalid in tag names leads to an out of bounds access. Proved: if the name the server picks is not in use the tag is not shared, and connections and ids of modules are always distinct |
| C23 | Write events reach the registrant exactly when the watched bytes are written | partial | REFUTED: a write event with the send-data option watching more than 4080 bytes is silently dropped, and a write of zero bytes strictly inside the range is reported. For every notification that fits a message and every non-empty write the iff (once, to the registrant, with index, id and data) is proved for all reachable states. |
| C24 | Change events fire exactly when the watched value changed | proved | Fires iff the watched bytes differ from what the event last saw; what it last saw always equals the current bytes along every history without atomic operations on the tag (see C36); ranges inside the tag, notifications that fit a message. |
| C25 | Set and reset events are edge triggered | partial | REFUTED for bit ranges crossing a byte boundary: the remembered area is too small and the next write is undefined behaviour (heap overrun). Whenever the step is defined the edge semantics is proved. |
| C26 | Comparison events are level-crossing triggered | partial | REFUTED for TIME (only the low 32 bits are compared). Proved for the other twelve integer types and writes of whole elements. |
| C27 | Deadband events measure the true distance | partial | REFUTED: UDINT/DWORD increases wrap, SINT/CHAR/INT differences are truncated. Proved whenever the distance is representable as the code computes it. |
| C28 | Event ids identify one event and belong to their creator | proved | ids as mathematical integers (nextevent overflow after 2^31 registrations on one tag is not modelled). |
| C29 | Queue tags are first-in first-out | proved | qrun describes every history of a queue tag: its creation, accepted and refused writes, reads of the item size and any other request that leaves the tag alone. |
| C30 | Queue tags keep order for any backlog | partial | REFUTED: doubling the ring after a read makes two slots share a block (C30_refuted); the new slots are uninitialised (C30_heap_refuted). C30_partial: order holds for any backlog if the ring only grows before the first read and fresh memory is zero. C30_growth_partial: a write that doubles the ring at any phase keeps the outstanding items in order for the reads that follow it. |
| C31 | A mapping copies the source on every source write | proved | For every mapping whose ends lie inside plain (non-virtual, non-special) tags (record target): after any answered write touching the source range every destination bit equals the source bit; bits no touched mapping writes are unchanged. Hypotheses clear_of/leaves_source exclude mappings of the same source that overwrite each other. |
| C32 | Deleting a mapping removes exactly that mapping | partial | REFUTED: deleting a mapping that is neither newest nor second newest also unlinks the mappings in between (prev never advances), and deleting from a tag without mappings dereferences NULL. Proved: success iff id present, the deleted one is gone, nothing appears, and the others stay when the target is newest or second newest. |
| C33 | Mapping ids are stable and duplicates are merged | proved |  |
| C34 | Tag groups read and write their members | partial | REFUTED: a group write ignores the read-only attribute (C34_readonly_refuted) and the mappings (C34_mapping_refuted) of its members, and an id outside the group table is not checked (C34_outside_refuted). Proved: reading a group of ordinary tags is the concatenation of the single reads or the first error; an unused id is refused; writing a group of writable, unmapped ordinary tags has the effect of the single writes in order, including events and the first error. |
| C35 | Group ids stay valid until deleted | partial | REFUTED: after a group has been deleted, a new group can get the id of a live one and destroy it (C35_refuted). Proved: while the recorded table size covers the live groups (true from connection until the module deletes a group) ids keep their members through any execution, new ids are unused ones, and deleting frees exactly one id. |
| C36 | Atomic operations compute the advertised function on exactly the addressed data | partial | REFUTED: the operand of a bitwise operation is indexed by the offset in the tag (C36_offset_refuted), a BOOL range ending on a byte boundary skips its last byte (C36_edge_refuted), NOR/NAND/XNOR inside one byte change bits outside the range (C36_negated_refuted), INC/DEC of TIME works on the low half only (C36_time_refuted), and a handle that ends behind the tag is not refused (C36_bounds_refuted). Proved: NOT complements exactly the addressed bits (C36_not), INC and DEC of 8 to 64-bit integers act modulo the width on the addressed element and nothing else (C36_count), and the bitwise operations are right for byte ranges at offset 0 (C36_bytes_partial) and for BOOL ranges away from the faulty shapes (C36_bools_partial). |
| C37 | Compound types are laid out without overlap | partial | REFUTED in general: the 32-bit bit counter wraps, so a big type gets too small a size (C37_wrap_refuted), and a member of an empty type aborts the server (C37_abort_refuted). Proved for every reachable server and every type with some layout below 2^32 bits: the computed size admits a disjoint, ordered, packed layout and no layout is smaller. C37_defined: the size of every registered type is a number or that abort. |
| C38 | Client and server agree on the size of every type | partial | REFUTED in general: empty types (0 against 1), members with count 0, and a client that looked up an unknown name. Proved: with a cache that agrees with the registry, counts in 1..2^31-1, descriptions that fit in a message and a positive server size, the client computes the same size for arbitrarily nested types. |
| C39 | Compound type definitions survive the wire | partial | REFUTED in part: repeating the identical definition answers an uninitialised status, another spelling of the same members is refused as a duplicate, and a client that fetches a type twice has every member twice. Proved: the server description parses back to the same type on any server with the earlier types; never a second type; the client loads a readable type complete. |
| C40 | Type ids are permanent | proved | All reachable servers with fewer than 2^30 types. |
| C41 | Requests are framed independently of how the bytes arrive | partial | REFUTED: a read that ends one byte before the end of a request executes it with a stale last byte; a read that ends in the length field, an idle second, and a read error break framing too. Proved: for all interleavings with other sockets, requests whose reads avoid those cuts are executed in order, once, with exactly their own bytes. |
| C42 | Pipelined requests are all executed | partial | REFUTED for every pair: the second of two requests in one read is dropped. Proved: any number of requests that arrive in separate reads are all executed. |
| C43 | No client message can corrupt the server | partial | REFUTED: declared lengths 1..7 and 4097 make the server copy out of bounds; other clients messages with UB are refuted under C02, C08, C12, C21, C30, C32, C35, C36, C37. Proved: the framing layer does nothing undefined for every other declared length, once the length field is there. |
| C44 | Requests encoded by the library decode to the same request at the server | partial | Proved end to end (encode, frame, decode, execute) for every call with arguments in range. REFUTED at the edges: event values of type DWORD and TIME lose their upper bits, names of 29..32 characters overflow the buffer of dax_tag_add, offsets of 2^31 and more change sign, sizes near 2^32 wrap in dax_atomic_op. |
| C45 | Large reads and writes are split transparently | partial | Whenever a call of dax_tag_read/dax_tag_write on whole bytes succeeds it has the effect of one request over the whole range, for every size, type and data; for elementary types reads always succeed and writes are never refused for size. REFUTED in general: a type of more than 4088 (4080 for writes) bytes is refused, and writing a compound value whose compound member is not the first makes _write_format leave the caller's buffer. Not covered: requests of other clients between the parts. |
| C46 | BOOL slices are read at the right place | proved | For every BOOL handle whose bits lie in the bytes of the handle and in the tag (any size, also above one message). |
| C47 | BOOL slices are written at the right place | partial | REFUTED: a slice with a bit offset and a multiple of eight bits is written with one byte too many and refused at the end of the tag; at 2040 bytes it is always refused. Proved otherwise: exactly the bits of the slice change. |
| C48 | Client masked writes honour the caller's mask | partial | REFUTED for BOOL slices: the mask is ignored. Proved for all other handles, any size. |
| C49 | Tag paths resolve to the documented location | partial | REFUTED: a member that is stepped into after BOOLs is not aligned, a bit of a member after BOOLs neither, the bit counter has 8 bits, indices before a member or a bit are not checked, and a member of a base type reads outside the type table. Proved for all types and all paths of any depth without those situations (tame): the handle designates the bit, type, count and byte length that the layout of C37 gives; whole tags, elements and bits of tags without restriction other than the tag size; unknown tags, unknown members (one level) and too large counts are refused. |
| C50 | The tag cache never changes answers except by staleness | partial | REFUTED in two points: with the limit 0, the only value the code ever sets, one entry is kept (C50_limit_zero_refuted); adding an existing tag with fewer elements caches the caller's count (C50_count_refuted). Proved for every sequence of cache operations: no bad pointer and no endless loop, lookups return entries with the right key that were put in, at most max(1, limit) entries, and at library level a purged index is not returned again until it is fetched again. |
| C51 | Undelivered client events are kept newest-last, oldest dropped first | proved | Refinement of the pointer queue to a list queue, for every interleaving of arrivals, fetches and answered requests and every limit of at least 1; error messages are assumed to carry their 4 byte code. A limit of 0 never occurs (libinit.c fixes 8). |
| C52 | A response answers the request that was made | partial | REFUTED: answers carry no sequence number, so after one timed out call every later call of the same kind returns the previous answer. Proved when every answer arrives before its call gives up. |
| C53 | Event reference values reach the server unchanged | partial | REFUTED for DWORD and TIME, of which exactly the low 16 bits arrive (mtos_dword and mtos_time are mtos_uint). Proved for all other base types. |
| C54 | Text to value conversion clamps and reports | partial | REFUTED: for WORD/UINT a number of 2^63 or more is taken for a negative one (strtoul assigned to a long), for LWORD/ULINT a blank hides the sign and "-0" is an underflow, for LINT a too small number after a blank is reported as an overflow. Proved for all texts outside those cases (plain): the nearest value in range is stored, the error names the bound passed, nothing else changes. Proved for all values: value to text to value is the identity, for every integer type, CHAR and BOOL. Missing: REAL, LREAL and TIME (libc conversions are parameters). |
| C55 | Modbus CRC is CRC-16/MODBUS | proved | crc16 equals the bitwise CRC-16/MODBUS (bytes in transmission order) for every message the unsigned short length can describe; an accepted frame changed in any burst of at most 16 bits, any byte, any odd number of bits, or any two bits (frames up to 4095 bytes) is rejected. |
| C56 | Modbus server answers reads with the register contents | partial | REFUTED: legal counts that do not fit the 250-byte buffer get no answer and block the connection, unused bits of the last coil byte are left over from the request, count 0 is answered, and without a callback an uninitialised variable decides. Proved for all other requests: the answer carries exactly the registers or coils asked for, and exceptions 1 and 2 for unknown functions and addresses. |
| C57 | Modbus server writes store exactly the requested registers | partial | REFUTED: refused writes (read-only tags, coils whose last byte is not in the tag) are acknowledged, a short frame is completed with bytes of the previous one, and count 0 stores coils. Proved: what is acknowledged for one register, n registers, one coil is what is stored, and nothing else changes; n coils when the spurious last byte lies in the tag. |
| C58 | No Modbus request can corrupt the module | partial | REFUTED: with large register tables the slave overflows reg[150], reads past the connection's buffer and stores the serial checksum behind it. Proved for all byte streams, cut in any way, when the slave has at most 121 holding and 125 input registers, 1944 coils, 2000 discrete inputs. |
| C59 | Modbus client requests are well-formed | partial | REFUTED: over TCP the second byte of a single coil is uninitialised; on a serial line a single register loses its high byte, several coils are not sent, 125 registers wrap the length; 124 and 125 registers exceed the protocol's limit. Proved: all other commands the configuration accepts produce exactly the frame of the protocol. |
| C60 | Retained tags survive a restart | partial | REFUTED: the second restart loses every restored tag (they lose the RETAIN attribute and the tables are dropped at start); BOOL tags come back as zeros; deleted tags come back; a re-created tag is never stored; a longer tag comes back with its old length; a tag retained after being written comes back as zeros. Proved for every history and every restart point between requests: a tag of a base type other than BOOL that is in the file and still has the size it was registered with is restored with the bytes it held (if written since, or created with the attribute). Not covered: custom types, a crash in the middle of a request; SQLite statements are taken as atomic and durable. |
| C61 | A received event runs the callback registered for it | proved | For fewer than 2^30 registrations (the array size is an int that doubles). Ids are compared modulo 2^32. |
| C62 | The client cuts the byte stream into the messages that were sent | partial | REFUTED: a header that arrives in two pieces swallows bytes of the body, and a receive timeout inside a message loses the position in the stream. Proved when each header arrives in one piece and no timeout expires inside a message. |
| C63 | A client wait with a timeout ends at a valid moment | partial | REFUTED: when the nanoseconds add up to exactly 10^9 the deadline is invalid and the assertion after the wait aborts the program. Proved for all other times. |
| C64 | A Modbus poll transfers the registers | proved | For up to 123 registers, 1976 coils, 121 registers written (what fits the slave's buffer, see C56 and C58), tags without events or mappings for writes (quiet), and any cut of the request; the answer is read at once (see C65). |
| C65 | The Modbus master takes only the answer to its request | partial | REFUTED: the transaction number is not compared, so a late answer is taken for the next one; a longer answer overflows the data area; answers in pieces are mistaken or copied with a negative size. Proved: other units, functions and exceptions never touch the data; answers not longer than the data area are taken safely. |
| C66 | Dead processes are restarted with a bounded back-off | proved | Over all histories of exits, clean-ups and scans; for clock readings between the death and 24 days later (sane); the truncation of times to milliseconds shows as one millisecond of tolerance. |
| C67 | Every exit of a child is noticed and attributed to its process | partial | REFUTED: the queue of exits has ten slots and the eleventh exit between two scans writes past its end; a process id that was reaped but not yet cleaned up can be given to a new child, and then the wrong process is marked dead and gets a second instance. Proved when fork does not return an id that waits in the queue; with at most ten configured processes the queue never overflows. |
| C68 | The master signals only its own children | partial | REFUTED: a process without the restart flag that exceeded its limit and exited is condemned again with pid 0, and the master sends SIGQUIT and SIGKILL to its own process group. Proved for configurations in which every limited process has the restart flag (a child that exited but is not cleaned up yet may still be signalled). |
| C69 | Processes are started with the configured arguments | partial | REFUTED: without an argument string the vector is not terminated; the start-up listing does not reset its index and reads past the vector of a process with fewer arguments than its predecessor. Proved: with an argument string the program gets exactly its words; the listing is defined exactly when argument counts never decrease. |
| C70 | Children run with the configured user and group | partial | REFUTED: the user is changed before the group, so a child of a root master always keeps root's group; a child whose user does not exist is started with the master's identity. Proved: a known user other than root is taken with real, effective and saved id. |
| C71 | The historical log stays within the threshold of the tag | partial | REFUTED: BOOL is missing from the comparison, so no change of a BOOL is ever recorded; UINT and WORD compare 4 bytes of 2-byte blocks (every event reads out of bounds); UDINT, DWORD, ULINT and LWORD differences wrap, TIME compares 32 of 64 bits; DINT and LINT differences overflow. Proved for BYTE, SINT, CHAR, INT and for DINT, LINT of moderate size, over all histories. |
| C72 | Gaps in the historical log are marked, and its times do not go back | partial | REFUTED: the time of the previous event starts at 0, so the first event always records a NULL, before the records of the start; the value kept back before a gap is never recorded. Proved from the first event on: marking of gaps, no other NULL, and the order of times. |
| C73 | The queue of scripts is first in, first out and refuses what does not fit | partial | REFUTED: the test for a full queue compares the end before it is wrapped, so a queue filled from place 0 is not known to be full and the next push loses all queued scripts; and the queue is not marked empty at the start, so a pop before the first push reads an unwritten cell. Proved: first in, first out while no more is pushed than fits; refusal unless the queue was filled from place 0. |
| C74 | Every event runs its script, once and in order | partial | REFUTED: a worker waits without looking at the queue, so a signal given before it waits is lost and the script stays queued; with a full queue the automatic scripts are queued by a thread that keeps the lock while it sleeps, so no worker can take one. Proved when all workers wait at the start and each event finds a free place: runs are in order, none is lost, and running workers finish the queue. |
| C75 | Interval scripts run once per interval | partial | REFUTED: the time taken is added to the sleep instead of subtracted, so a round takes the interval plus twice the running time; a round that crosses a second with an interval below two seconds is counted as an overrun and repeated at once. Proved for running times of whole seconds. |
| C76 | Every configured script is stored | partial | REFUTED: the size of the table is not updated when it grows, so the seventeenth script is written outside of it. Proved up to sixteen. |
| C77 | A run of a script sees the data of its own event | partial | REFUTED: the data is kept in one block per script, so the data of a later event replaces that of a run still queued. Proved when every event finds the queue empty. |
| C78 | Values survive the way to Lua and back | partial | REFUTED: REAL is cut to an integer when read, the upper half of ULINT and LWORD reads as negative numbers that cannot be written back, TIME after 1970-02-19 cannot be written, LINT beyond 2^53 is rounded, a short string writes uninitialised bytes. Proved: reading stays within the data for every type without REAL; for the other contents (ok_ty) the value survives and writing it back changes nothing. |
| C79 | A Lua value changes exactly the members it names | partial | REFUTED: a wrong value for a member leaves the Lua stack wrong and the next member is looked up in a value that is not a table; an array of a compound type cannot be left out; a string written to an array of BOOL writes outside of the mask; numbers out of range are undefined. Proved: members left out of a table that is written with success are not marked, for types without arrays of BOOL; a wrong value for a whole array or compound tag is refused with nothing written. |
| C80 | Requests within stated limits keep the server defined | proved | The limits ([sane], [calm] in Safe.v) are sufficient; that every limit excludes a defect is shown by the refutations of the other properties, not by a theorem of its own. Start with the contents of a retention file is not covered. |
| C81 | Values read from a PLC reach the tag unchanged | partial | REFUTED: an LREAL is read with plc_tag_get_float32, so for whatever conversion some PLC value does not arrive (C81_lreal_refuted); an element outside the PLC tag becomes libplctag's error value, taken for data (C81_short_refuted). Proved for every other number type and for BOOL when the PLC tag has all the elements. |
| C82 | Changes in the tag server reach the PLC unchanged | partial | REFUTED for the round trip of LREAL (C82_round_refuted). The writing direction is proved for every number type and BOOL (C82_write, C82_write_bool), the round trip for every number type but LREAL (C82_round_partial). |
| C83 | Compound types are transferred by the byte map | partial | REFUTED: a map that names a byte twice sends uninitialised stack bytes to the PLC (C83_map_refuted); without a map the place of an element is computed with 32 bits, so element 32768 of 65536 two-byte elements is stored over element 0 (C83_big_refuted). Proved for valid maps (one to one for the writing direction) and for blocks with count * size up to 2^32. |
| C84 | The callbacks of the PLC module stay within memory | partial | REFUTED: a change before the PLC has answered makes an array of -1 bytes (C84_early_change_refuted); a read that completes between the filling of the handle and the allocation uses a null pointer (C84_early_read_refuted); an element size larger than the compound type overruns the block (C84_overrun_refuted). Proved for every sequence of events once the tag is set up with sizes that fit. |
| C85 | Every completed read of a PLC tag is written to the tag server | partial | REFUTED: a callback that finds the queue full returns with the mutex locked, after which nothing but the tag in hand is ever written (C85_deadlock_refuted); a queue that fills up at its beginning is not known to be full and is wiped out by the next read (C85_overwrite_refuted); a read that completes before the thread waits stays in the queue (C85_lost_wakeup_refuted). Proved for tags that are only read, when the thread waits first and reads never find the queue full. |
| C86 | The last value stored on either side of a PLC tag survives | partial | REFUTED: for a tag that is both read and written the change event of the module's own write throws an older value back at the PLC, and the newer one is lost on both sides (C86_echo_refuted). Proved: as long as the PLC's program leaves the tag alone, the PLC has the server's value whenever no change event is under way (C86_out_partial). |
| C87 | Topics are compared with filters as MQTT defines it | partial | REFUTED: a + in the last level reads behind the ends of both strings (C87_plus_last_refuted), as does a topic that ends in the level of a + (C87_plus_short_refuted); '+/#' and '#' match nothing and 'w/#' does not match 'w' (C87_plus_hash_refuted, C87_hash_refuted, C87_parent_refuted). Proved: exact agreement with the standard for filters without wildcards, for filters with only #, and for + in the middle when the topic has enough levels. |
| C88 | Every subscription that matches gets the message | partial | REFUTED: only the first match gets the message (C88_shadow_refuted), and one filter ending in + makes the search for every later subscription undefined (C88_search_refuted). Proved: what is found is active and matches (C88_found), the first match is found (C88_only_partial), and if nothing is found nothing matches (C88_none). |
| C89 | Any number of subscriptions and publishers can be configured | partial | REFUTED: the size of the list is never updated when it grows, so it grows to 32 entries once and the 33rd is written behind it (C89_refuted). Proved for up to 32, with consecutive indices. |
| C90 | The module keeps trying to connect to the broker | proved | For every reachable state of the loop. |
| C91 | Subscriptions are in force while the module is connected | partial | REFUTED: after a lost connection nothing is subscribed again although the session starts clean (C91_lost_refuted: for ever, C91_reconnect_refuted: a run); a refused group is used as a null pointer (C91_group_refuted). Proved while the connection is not lost: what the module regards as subscribed is in the session (C91_held_partial), and a waiting subscription is made within ten cycles (C91_retried_partial). |
| C92 | Publishers become active once their tags exist | partial | REFUTED: a publisher is marked as failed before its tags are looked for and never tried again, so a tag that appears later does not help (C92_never_refuted, C92_missing_refuted). Proved when everything exists at the first attempt (C92_active_partial). |
| C93 | A raw message becomes the value of the tag | partial | REFUTED: a short message is completed with bytes of the one before, over whatever the tag holds by now (C93_short_refuted). Proved for messages at least as long as the tag: the block is the beginning of the message, and when the write succeeds the tag, and only it, has those bytes (C93_raw_partial, C93_stored_partial, the latter with the server model). |
| C94 | What the filter function gives becomes the value of the tags | partial | REFUTED: a nil in the table shifts all later values to the wrong tags (C94_nil_refuted); after an error the last block is written again (C94_failed_refuted); a result that is no table for several tags (C94_table_refuted) and a subscription without tags (C94_notags_refuted) are undefined. Proved: a value that is the reading of some block (every type, structures and arrays included) is what the tag reads as afterwards, whatever the buffer and mask held before (C94_value_partial), and the same for tables of several tags (C94_round_partial). |
| C95 | What is published is the value of the tags | partial | REFUTED: when the read fails the last block is published, for groups with the group number at its start (C95_stale_refuted, C95_stale_group_refuted); the text of a Lua error is published (C95_error_refuted); groups of fewer than four bytes overflow the buffer (C95_small_refuted); a publisher without tags is undefined (C95_notags_refuted). Proved: if the read succeeds the payload is the stored data (C95_raw_partial, C95_stored_partial with the server model, C95_filter_partial with a function), and a tag published on one server and subscribed on another ends up with the same bytes there (C95_round_partial). |
| C96 | Every request is answered exactly once | partial | REFUTED: MSG_TAG_LIST and MSG_EVNT_GET are understood but never answered (C96_unsupported_refuted, for all states), and a read of a queue tag with a size above 4088 removes an item and answers nothing (C96_queue_refuted). Proved for all other requests: one answer of the right command and size (C96_answer_partial), none without a request (C96_silent), and by induction over the whole history (C96_history_partial); C96_decoded: every message that is decoded is such a request of its sender. Requests that end in undefined behaviour are excluded (C80 says when that cannot happen). |
| C97 | A change of a watched tag runs the callback of the client that watches it | partial | REFUTED: a notification fetched by another thread before dax_event_add has entered the callback is lost (C97_race_refuted); see also C51 (full backlog) and C62 (short reads). Proved by composing C24, C62, C51 and C61: C97_change_partial (one write, from the request to the callback), C97_delivered_partial (any history), C97_fits (every message of the server, for all histories, has a size and type the client can take apart). Conditions: reads of at least 8 bytes, at most n events waiting, tag and event numbers below 2^32, tag without mappings for C97_change_partial. |
| C98 | Each call of a client gets the answer to its own request | partial | REFUTED: after an answer that came too late every call gets the answer of the one before (see C52_shift_refuted, C52_late_refuted), and MSG_TAG_LIST/MSG_EVNT_GET are never answered (C96_unsupported_refuted). Proved (composition of C96 and C52) for answers in time and the other commands, from the start of the server. |
| C99 | Command line before program before file before default | proved | The attributes are any that dax_init and dax_add_attribute accept, with letters and digits as short options. The memory from malloc is zero where the option tables are not terminated; without that the parse is undefined for some command lines (C105). |
| C100 | Attributes can be told apart | partial | REFUTED: two attributes without a letter clash with each other (both have the letter 0), so the second is refused; and the first character of a long name is not checked. Proved: uniqueness for every sequence of registrations, and exactly which registrations are accepted. |
| C101 | Callbacks of attributes are attached and called | partial | REFUTED: the loop of dax_attr_callback never moves on; for every attribute but the one added last it does not end. For that one it attaches the callback. The calls made while the command line is parsed are exactly those of the settings on the command line and of the values taken from the file. |
| C102 | The configuration file that is read | partial | REFUTED: a file name given through the attribute config is freed after the file was read although the attribute keeps the pointer; reading the attribute, setting it or configuring again is undefined. The choice of the file is proved. |
| C103 | The name a module registers under | partial | REFUTED: a name set in the configuration file changes the attribute but not the name used for the registration. Proved for the command line and for values set by the program. |
| C104 | The time limit of requests is always sensible | proved | The number is what strtol reads, converted to int (so 4294968296 counts as 1000, as in C). |
| C105 | Every command line is handled | partial | REFUTED: the string of letters and the table of long options are not terminated (an unknown option reads beyond what was written); an option with an optional value and none given passes NULL to strdup; an attribute that has only a long name next to one without a long name passes NULL to strcasecmp. Proved for the command lines of C99. |
| C106 | The configuration file sets only what it may | partial | REFUTED: the mark CFG_MODCONF is not looked at, the file sets any attribute; and a boolean is taken as Yes whether it is true or false (verbose = false in the file turns it on). Attributes the file does not mention are not touched. |
| C107 | Setting and reading an attribute | partial | REFUTED: resetting an attribute that has no default passes NULL to strdup, and setting an attribute that the file set to a boolean frees a string literal. Otherwise defined; the law of set and get holds. |
| C108 | Command line before file before default in the server | partial | REFUTED: port 0 and address 0.0.0.0 on the command line lose against the file; -T is documented but not known; a port above 65535 is cut to 16 bits (73313 listens on 7777). The order is proved for all other values. |
| C109 | Transfers while other clients use the server | partial | REFUTED for transfers of more than one message: a read returns contents the tag never held, and after two successful concurrent writes the tag holds a mixture. Proved: a read of up to 4088 bytes is a copy from one moment; in a larger one each element is; a write that no one disturbs ends with the caller's data, and before that others see whole elements, a prefix of them new and the rest old. |
| C110 | Requests of a Modbus TCP master go to their device | partial | REFUTED for a master that is not persistent: during its first scan and for commands of events between scans it closes the connection after each command and keeps it in the pool, so the next request goes to a closed descriptor or to another file with the same number, which is closed as well; and the 2049th device is stored at a negative index. Proved: a persistent master, or one whose commands are all sent while scanning, sends each request to its device and closes only its own; a persistent one keeps one connection for each device; no overflow with up to 2048 devices. |
| C111 | A Modbus TCP master recovers from connection failures | partial | REFUTED: a persistent master that loses the connection to a device never gets an answer from it again, in any continuation; each refused connection leaves a descriptor open, which is never closed. Proved: a master that is not persistent connects again after each pause. |
| C112 | Retries of a Modbus command | proved | Covers both kinds of ports. Also shown: result and error code in each case, and that all requests of a command go to the same descriptor. |
| C113 | Intervals of Modbus commands | proved |  |
| C114 | A serial Modbus master that gets no answers | partial | REFUTED: attempts are not counted from zero after opening again, so that a single failure closes the port; if opening fails, descriptor 0 is closed and commands of events are written to it; with an inhibit time of 0 the port ends for good; a port that is not persistent (the default) is closed after the first early scan, and in every continuation later requests go to descriptor 0. Proved for persistent ports, over any history of scans: closed only after maxattempts failures, silent until closed after that many, all requests of the scan go to the line; the loop ends only for inhibit time 0. |
| C115 | Each Modbus port uses the functions of its own protocol | partial | REFUTED: with a serial and a TCP port there is an interleaving in which a TCP request is sent with the function for RTU. Proved: all ports with the same protocol, any interleaving; no call ever goes through an unset pointer. |
| C116 | Events of Modbus commands are set up once their tags exist | partial | REFUTED: the result of an attempt is that of the last event of the last port only, so an event whose tag comes one second late is never added if a later command or port has no error; after 60 rounds none is added. Proved: over any number of rounds no event is added twice and none that was not asked for; events are tried again while the last command of the last port misses the tag of its trigger. |
| C117 | Enable bits of a Modbus master port | partial | REFUTED for the type of the command tags: the second port with such a tag uses a variable that was never set. Proved: the enable bits, both directions, for any number of commands and any junk; one port. |
| C118 | Threads of the Modbus ports start and keep running | partial | REFUTED: the barrier is used again after each error but never opens a second time, so that a port whose first attempt fails, or a slave or server that meets one error (such as a read error on one connection), is not served in any continuation; if one port has no thread, no port is ever served and the module never reports that it runs. Proved: if all ports can be opened, all are served, in every order of arrival. |
| C119 | Commands written to the command tag of a Modbus port | partial | REFUTED: nothing in the tag is checked. Reading 121 to 125 registers, which is legal, stores beyond the data area of 240 bytes; writing 121 to 123 reads beyond it; an unknown function is sent with an uninitialised length; without a connection the response is that of the command before, 0 at first, which means success. Proved over TCP: a legal command that fits is sent as the protocol wants it; an answer, an exception and silence are reported; only send and response are changed in the tag. |
| C120 | Settings of a Modbus port are used as configured | partial | REFUTED: the parity is never stored; a number of retries of 0 replaces the timeout by one millisecond; an address of 15 characters is not terminated. Proved: the other settings of a serial port, timeouts with 1 to 100 retries, addresses of up to 14 characters. |
| C121 | The Modbus module gives up its privileges | partial | REFUTED: the user is changed before the group, so with a group root always fails and the module ends; an unknown group is a null pointer; a group without a user reads an uninitialised variable. Proved: the module goes on only with the user and group that were asked for. |
| C122 | Connections of the Modbus TCP server are kept apart | partial | REFUTED: the buffer of each connection ever accepted is kept for ever; a descriptor above 1023 is written beyond the set. Proved for descriptors up to 1023: buffers, set and maxfd. |
| C123 | An override requested through a handle covers exactly the bits of the handle | partial | REFUTED: handles of more than 2038 bytes (4080 for deletion) overflow the message buffer of the library before the size check; a bit slice with offset and a multiple of 8 bits at the end of a tag is refused; an override on a BOOL tag makes the server write outside its memory. Proved: the message carries exactly the mask and data of the handle, and for non-BOOL tags readers see the mix. |
| C124 | Reading an override gives the data and the mask of the addressed bits | partial | REFUTED: the server copies from the beginning of the tag whatever the offset; bit slices are not shifted; a tag without override makes the server follow a null pointer; more than 2044 bytes overflow the answer buffer. Proved for handles at the beginning of a non-BOOL tag with an override. |
| C125 | A Lua script reads back the value it wrote | partial | REFUTED: a string shorter than the CHAR array is stored with uninitialised memory behind it. Proved end to end (conversion, splitting, server, conversion back) for every value that a tag of the type can have, for tags without mapping and override, and for BOOL slices whose message fits the tag. |
| C126 | A partial table changes only what it names | partial | REFUTED: bits of a BOOL slice that the table does not name get uninitialised memory (dax_tag_mask ignores the mask of bit slices); elements of TIME arrays are written 4 bytes apart. Proved for members of compound types and elements of arrays of the other types. |
| C127 | Overrides and atomic operations of a script use exactly the value given | partial | REFUTED: elements that the table does not name take uninitialised memory as override or operand (the mask is computed and not used). Proved for values that name everything. |
| C128 | tag_del of a script deletes the tag it names or raises an error | partial | REFUTED: the result of the lookup is ignored, an unknown name deletes the tag whose number is in uninitialised memory and the script sees success. Proved for names of existing tags. |
| C129 | Globals of a script follow their tags | partial | REFUTED: a global whose write fails stops all that were configured before it; after a tag is deleted and created again its READ global stays nil for ever. Proved: values before the run (tags without override), static variables and _firstrun, and, if no write is refused, the tags afterwards and that no other tag changes. |
| C130 | A script runs exactly when it is enabled and has not failed | partial | REFUTED: a worker that waits for the lock runs the script again after it failed; disable_self is undone by the message about the module's own earlier write of the tag; an old enable command overrules a newer write to the tag; every failing run leaves a value on the Lua stack. Proved: counting of runs and _firstrun under all interleavings, a disabled script stays so until enabled, a failed script stays so if no run waits. |
| C131 | The tag of a script shows its state and switches it | partial | REFUTED: a write to the tag during a run makes the module enable and disable the script for ever; commands do not update the tag. Proved: the tag after a run, and the reaction to a write when nothing else is under way. |
| C132 | Script names and numbers lead to each other | partial | REFUTED: negative numbers read before the array, numbers of more than 31 bits are cut off. Proved for all lists of named scripts, all names and numbers from 0. |
| C133 | The configuration of a script is stored as written | partial | REFUTED: auto_run is true by default; a trigger without tag or type passes NULL to strdup or strcasecmp; a refused table without a name stays in the list. Proved: what is stored for an accepted table, and that names are unique after any sequence of calls. |
| C134 | An interval thread runs its scripts once per interval | partial | REFUTED: the nanoseconds are added instead of subtracted, so the scripts' time lengthens the period twice, or a round that crosses a second counts as an overrun. Proved: which scripts a thread runs; the period when the nanoseconds are equal. |
| C135 | Every trigger of a script gets its event exactly once | partial | REFUTED: an event that is refused after its tag was found is never retried, and success is logged. Proved when every tag found can have its event. |
| C136 | A module sets its running and faulted flags | proved |  |
| C137 | The status text of a module | proved |  |
| C138 | The default reaction to run, stop and kill | proved |  |
| C139 | A module is told of run, stop and kill commands | proved |  |
| C140 | A module finds its own status tag | proved | The first state is a hypothesis (names_served): a retention file naming _my_tagname could change it at start-up; after that no request can. |
| C141 | A log message goes to the services that take its topic | partial | REFUTED: a stdio service for a file other than stdout and stderr is accepted and its first message uses a FILE pointer nobody set (C141_file_refuted); the rest holds, and nothing is undefined while all services are usable. |
| C142 | The mask of a list of topic names | partial | REFUTED: LOGIC and LOGICERR are printed but cannot be asked for - as the default topics they silence fatal errors too - and a blank behind a comma hides a topic. The mask itself is exactly as stated, and the names agree for the other thirteen topics. |
| C143 | Log services of a configuration file | partial | REFUTED: an entry without type, file or priority hands a null pointer to strcasecmp, and refused entries are silently skipped because the error code is taken as a number of Lua results. Complete entries do what is stated, up to the delivery of messages. |
| C144 | A module that asks for a new type gets exactly that type | partial | REFUTED: a member name with commas and colons passes the library and adds other members than asked for (C144_inject_refuted); making a type again in the same module doubles its members and its size in the library, with the server of the same type unchanged (C144_again_refuted, for runs where the status word the server sends uninitialised is not negative). For well-formed wishes the full claim is proved (C144_made_partial). |
| C145 | A script that asks for a new type gets exactly that type | partial | REFUTED: a member without count is registered on the server for good and its description is then released twice (C145_count_refuted); a member that is no table, a first member without name and a missing type name dereference null or misuse the Lua stack (C145_shape_refuted). For complete tables the full claim is proved (C145_made_partial). A member without a type is refused and the server not asked (C145_untyped). |
| C146 | An event that a script adds is the event on the server | partial | REFUTED: for a TIME tag only four of the eight bytes of the reference value are set, the others are left by an earlier call (C146_time_refuted); a number outside the range of the type and a missing kind are undefined behaviour (C146_range_refuted). For all calls that return, on integer types but TIME and on LREAL, the full claim is proved (C146_registered, C146_unknown). |
| C147 | An arriving event calls the function the script gave, with the data the script gave | partial | REFUTED: nil, 0, texts and tables are accepted as callback and raise a Lua error inside dax_event_select when the event arrives (C147_nothing_refuted). Which value is called with which data is proved for all histories (C147_called). |
| C148 | What a script logs is written as it is | partial | REFUTED: the text of the script is used as a printf format (C148_format_refuted). For texts without percent signs both halves are proved (C148_logged_partial, C148_safe_partial). With every percent sign written twice the meant text is logged (C148_doubled). |
| C149 | Mappings that clients add, look up and delete | partial | REFUTED: deleting a mapping that is not the newest of its tag loses others (C149_lost_refuted) and deleting an id twice ends the server (C149_crash_refuted). Adding and looking up, from C and from Lua, is proved in full (C149_added, C149_found, C149_unknown, C149_roundtrip, C149_script); what deletion does to the id given is proved (C149_deleted_partial). |
| C150 | Groups of clients read and write their members | partial | REFUTED: reading a group of less than four bytes overflows a buffer of its size (C150_small_refuted), and single bits are read at their place in the byte and written with all their neighbours (C150_bits_refuted). For members that are readable without a virtual function, reading returns the members' bytes (C150_read_partial), without undefined behaviour for whole values of base types (C150_safe_partial); writing stores the consecutive parts in the members (C150_written_partial); deletion is proved in full (C150_deleted). A handle whose count does not fit its size overruns the buffer (C150_count_refuted). |
| C151 | The command line client splits a line into its words | partial | REFUTED: the array of the tokens is seven bytes too small for the NULL at its end, for every command (C151_overflow_refuted). The splitting itself is proved in full (C151_words, C151_lossless); it is safe where malloc hands out multiples of 8 bytes (C151_safe_partial). |
| C152 | The command line client runs the command that was typed | partial | REFUTED: words that are no command are obeyed if they begin with a, r, wr or op (C152_other_refuted). Every real command runs its function (C152_commands) and comments run nothing (C152_comment). |
| C153 | A file of commands is run line by line | partial | REFUTED: the last line is run twice if it ends with a newline (C153_twice_refuted), a blank last line and an empty file are undefined (C153_blank_refuted, C153_empty_refuted), lines above 255 characters are split (C153_long_refuted). Proved for files of shorter lines without a newline at the end (C153_once_partial). |
| C154 | WRITE of the command line client stores the values given | partial | REFUTED: ~ does not leave a BOOL unchanged (C154_skip_refuted) and writing a compound tag sets it to zero (C154_compound_refuted). Proved for the integer types (C154_values_partial) and for texts (C154_text). |
| C155 | OP of the command line client performs the operation named | partial | REFUTED: INC and DEC without a value report success and do nothing (C155_inc_refuted), XNOR is done as XOR (C155_xnor_refuted). For integer types and all other operations, the message sent is the operation with the values given (C155_values_partial). |
| C156 | Deleting tags and overrides from the command line | partial | REFUTED: SET, CLEAR and DEL OVERRIDE of an unknown tag use a handle never set (C156_unknown_refuted), DEL TAG without a name reads NULL and with a long name uses an unset structure (C156_none_refuted, C156_long_refuted). Deleting by name (C156_deleted, C156_absent) and overrides of integer tags (C156_override_partial) are proved. |
| C157 | LIST TAGS shows every tag | partial | REFUTED: paging never shows the last tag when a page ends just before it (C157_last_refuted). LIST TAGS without a count shows all tags (C157_all), a page shows the tags from where it starts (C157_page_partial). Assumes that _lastindex holds the last index. |
| C158 | ADD TAG makes the tag that was described | partial | REFUTED: a word that is no attribute after a count is ignored and the tag is made without attributes (C158_attribute_refuted); names of 29 to 32 characters overrun a buffer of the library (C158_name_refuted). Proved for names of at most 28 characters and attributes that exist (C158_added_partial); an unknown type is refused by the server (C158_type). A third word that is neither count nor attribute is refused (C158_word). |
| C159 | ADD EVENT makes the event that was described | partial | REFUTED: for TIME half of the reference value is uninitialised memory (C159_time_refuted) and numbers out of range are cut to their low bits (C159_range_refuted). Proved for the other integer types and numbers in range (C159_registered_partial); unknown kinds are refused (C159_unknown). The reference values of REAL and LREAL are not covered. |
| C160 | Events of the command line client keep their numbers | partial | REFUTED: a place is never free again, after 64 events no more can be added (C160_full_refuted); DEL EVENT 65 reads past the table (C160_last_refuted); numbers are taken modulo 2^32 (C160_modulo_refuted). Numbering, printing and deleting are proved for all sessions (C160_numbered), as long as there are fewer than 2^31 tags and events per tag. |
| C161 | READ of the command line client prints what is stored | partial | REFUTED for CHAR tags that hold zeros: a space and the zero itself are printed for each (C161_zero_refuted). Proved for all integer types (C161_values), for bits (C161_bits), for texts without zeros (C161_text_partial), for reading after writing (C161_written) and for names that cannot be resolved (C161_unknown). REAL, LREAL, TIME and compound tags are not covered. |
| C162 | ADD TYPE makes the type that was described | partial | REFUTED: a member that cannot be made is left out and the type is made without it (C162_left_out_refuted); a refusal of the server is reported as success (C162_result_refuted). Proved for well-formed descriptions (C162_made_partial) and for wrong numbers of words (C162_words). |
| C163 | ADD MAP makes the mapping that was described | partial | REFUTED: a refusal of the server is reported as success (C163_result_refuted) and counts are taken modulo 2^32 (C163_count_refuted). Proved: the mapping made is the one described (C163_mapped), it is made when the server agrees (C163_agreed), bad counts and names are refused (C163_refused). |
| C164 | LIST TYPES of the command line client | partial | REFUTED: a name that is no type lists all types, each as if it were a member of its own type (C164_unknown_refuted); after the second such question the first type of the server shows every member twice (C164_again_refuted). Proved in full: all types; the members of a type; nothing for a base type. |
| C165 | Going through the members of a type | proved | For types with a layout in the sense of C37, which excludes those whose size does not fit the 32 bit counter of the server. |
| C166 | READ of compound tags | partial | REFUTED: of a member that is an array of a compound type only the first element is printed (C166_array_refuted). Proved for any nesting of single compound members, whole numbers, bits and texts without zeros (C166_lines_partial, C166_elements_partial); the data are those stored (C166_data). Missing: REAL, LREAL and TIME values, whose texts are left open in the model, and texts with zeros, which are printed as a space and a zero (C161). |
| C167 | The name of a handle leads back to the handle | partial | REFUTED: bits or members in the first byte of the first element get a name without index when their number equals the number of elements of the tag (C167_index_refuted, C167_element_refuted); the first member of a compound member gets the name of the compound (C167_first_refuted), bit 0 of a member that of the member (C167_bit0_refuted); after two BOOL members that leave more than 8 bits over, the next member gets the name of one of its bits (C167_carry_refuted). Proved in full for tags and their elements (C167_tag), and outside of these cases for bits of tags (C167_bit_partial), members of any depth (C167_member_partial, C167_back_partial) and bits of them (C167_member_bit_partial). Missing: handles whose bit number is above 7, names of 1024 characters and more. |
| C168 | The number of members of a type | proved |  |
| C169 | Only a file of root is run with the rights of root | partial | REFUTED: a file that the members of group 0 may write is run, and the file is looked at and opened by name, so the owner of the directory can exchange it in between. Proved: the file looked at is root's and not writable by others; if the name stands for the same file both times and the group may not write it, nobody but root can write the file that is run; a file that fails is fatal. |
| C170 | Command line before file before default in the master | partial | REFUTED in one point: the long option is spelt --deamonize, so --daemonize is ignored. The precedence is proved in full. |
| C171 | The processes of the configuration file | partial | REFUTED: an entry without name or path is left out silently; a user or group of another type is strdup(NULL); limits out of the range of int are undefined; the string of env is kept in the Lua state and read by _print_process_list after lua_close. Proved: the processes are the complete entries in order, each with all the fields of its table. |
| C172 | The log files of the historical logger lose nothing | partial | REFUTED: a file that cannot be opened is not noticed and the first record goes to fprintf(NULL); a compound value prints an uninitialised buffer; a character that is a line feed breaks the line; with a directory of 255 characters or more a rotation opens the same name again. Proved: no record is lost or reordered over any sequence of calls; a rotation opens the file of its time; with files that open and values that have a text nothing is undefined; lines whose value has no line feed tell the record. |
| C173 | The master in the background | partial | REFUTED: the file for the process id is unlinked as soon as it is written and its name is fixed, so the configured file is never written; when fork fails main does not look at the result and goes on in the foreground; if /dev/null cannot be opened nothing stands in for the standard descriptors. Proved: with new process ids, room for three descriptors and /dev/null, whatever was open before and whether or not the file for the process id can be opened, the result is a daemon and its id was told to standard error. |
| C174 | The delay between the starts of processes | partial | REFUTED: errno is tested although nanosleep succeeded, so EINVAL left by an earlier call makes the assertion fail and the master abort. Proved: if errno is not EINVAL when the sleep begins, the times are exact for any sequence of interruptions. |

## Defects found while modelling

Server, tags: realloc to size 0 frees the data of a tag of an empty type; a re-add whose byte size wraps shrinks the tag; grown memory is not cleared; the read-only test reads the attribute word before the index is checked; negative offsets pass the bounds test; any client may delete owned and read-only tags; tags of 2 GiB have a negative size; attributes, mappings and retention ids of slots from 1024 on are uninitialised; a custom type number with the queue bit reads outside the type table.
Server, requests: `msg_tag_read` overflows its 4088-byte buffer; a failed `msg_tag_get` calls `strlen` on uninitialised memory; `event_del`/`event_opt` always answer success; `msg_cdt_create` of an identical type answers an uninitialised status; `CDT_GET` of an unknown name answers the first type; definitions of 4084..4087 characters cannot be fetched.
Server, events: deleting an unknown id decrements the counter; events and mappings can be added to deleted tags; data events above 4080 bytes are dropped; a write of zero bytes fires events; buffers of bit events ignore the bit offset; TIME compares 32 bits; UDINT/INT/SINT deadbands wrap or truncate; BOOL change events remember whole bytes; DELETED events are refused for BOOL and custom types; events on queues read outside the queue structure.
Server, queues, maps, groups: growth of a queue leaves uninitialised and shared slots; a read with a wrong size consumes an item; BOOL queues have items of 0 bytes; `map_del` never advances `prev` and dereferences NULL; the MAPPING attribute is never cleared; `group_del` shrinks the recorded table; group ids are not checked; group writes ignore read-only and mappings.
Server, atomic, overrides: see C36; DINT/LINT overflow; `h.size` is not checked; the override counters drift; BOOL overrides fail; override buffers do not grow with the tag; a failed install leaves memory behind; `override_get` of a virtual tag returns a pointer.
Server, modules, retention, framing: see C21, C22, C60, C41–C43; a module name that is no valid tag name leads to an out-of-bounds access.
Client: `dax_cdt_create`, `dax_tag_add` and the format functions can call a locking function with the lock held; names of 29..32 characters overflow a 41-byte buffer; `dax_event_del` receives 8 bytes into 4; `dax_atomic_op` adds sizes modulo 2^32; `_write_format` adds a nested offset twice; the override calls free a mask twice; the cache limit is always 0; see C47–C54, C62, C63; received sizes are not checked against the buffers.
Modbus: see C56–C59, C65, C110, C111, C114–C122.
Client, overrides: see C123, C124.
Lua API: see C125–C128. Scripts of daxlua: see C129–C135. Logger: see C141–C143. Making types: see C144, C145. Events and log of scripts: see C146–C148. Mappings and groups of clients: see C149, C150. Command line client: see C151–C164, C166. Names of handles: see C167.
Master: see C67–C70, C169–C171, C173, C174; `process_del` walks an uninitialised pointer (never called).
Historical logger: see C71, C72, C172; shutdown passes an uninitialised plugin handle for tags that were never found; the comparison value is uninitialised if the first read fails.

Lua scheduler: see C73–C77. Lua values: see C78, C79. PLC module: see C81–C86. MQTT module: see C87–C95. Commands never answered: see C96. Lost notifications and mixed-up answers: see C97, C98. Torn transfers: see C109. Configuration: see C100–C103, C105–C108; `dax_configure` without CFG_MODCONF returns an uninitialised result.

## Wrong programs

Each line of `seeded/LOG.jsonl` is one edit of the model, made in a scratch copy, that mimics a realistic bug. The copy is rebuilt; proofs that fail are removed and the theorems that depend on them count as failed. A surviving theorem whose claim the edit breaks was tightened; the log names it.
