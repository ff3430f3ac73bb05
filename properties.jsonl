{"id": "C01", "title": "Tag names resolve to exactly one live tag", "statement": "At every point of any server history, looking up a tag by name succeeds exactly when a tag with that name has been added and not since deleted, it returns the index, type, count and attributes of that tag, and no two live tags ever carry the same name.", "quantifier": "every sequence of client requests (add, delete, write, register, disconnect, ...) by any number of clients, every name", "why_tests_cant": "The sorted name table is reshuffled by every add and delete; a wrong boundary in the binary search or the insertion point only shows for particular orderings of names, of which there are infinitely many.", "anchors": ["src/server/tagbase.c:_get_by_name", "src/server/tagbase.c:_add_index", "src/server/tagbase.c:_del_index", "src/server/tagbase.c:tag_add", "src/server/tagbase.c:tag_get_name"]}
{"id": "C02", "title": "A tag index denotes the same tag forever", "statement": "Once the server has returned an index for a tag, that index never refers to a tag with a different name or type: it refers to that tag until it is deleted and from then on every request naming the index is refused, even if a tag of the same name is created again.", "quantifier": "every history of requests, every index handed out in it", "why_tests_cant": "The guarantee is about all futures of an index; a test can only look at a few continuations.", "anchors": ["src/server/tagbase.c:tag_add", "src/server/tagbase.c:tag_del", "src/server/tagbase.c:tag_get_index"]}
{"id": "C03", "title": "Reported tag count equals the number of live tags", "statement": "After any history the server's tag counter equals the number of tags that were added and not deleted, and the next index equals the number of distinct tags ever created.", "quantifier": "every history of requests", "why_tests_cant": "A counter drifts only on some path (duplicate add, failed add, failed delete, clean-up on disconnect) combinations.", "anchors": ["src/server/tagbase.c:tag_add", "src/server/tagbase.c:tag_del", "src/server/module.c:module_unregister"]}
{"id": "C04", "title": "A read returns the last data written", "statement": "After a successful write of some bytes to a plain tag, reading the same range returns exactly these bytes as long as no other request changed that range and no override is active on the tag.", "quantifier": "every tag, offset, length and byte string, every state of the server", "why_tests_cant": "The space of offsets, sizes and contents is unbounded, and the off-by-one cases lie at the tag's end.", "anchors": ["src/server/tagbase.c:tag_write", "src/server/tagbase.c:tag_read", "src/server/message.c:msg_tag_write", "src/server/message.c:msg_tag_read"]}
{"id": "C05", "title": "A write touches nothing but the addressed bytes", "statement": "A successful write to a tag with no mapping leaves every byte of that tag outside the addressed range, and the data, name, type, count and attributes of every other tag, exactly as they were.", "quantifier": "every state, tag, offset, length, content", "why_tests_cant": "Absence of side effects over the whole database cannot be sampled.", "anchors": ["src/server/tagbase.c:tag_write", "src/server/message.c:msg_tag_write", "src/server/events.c:event_check"]}
{"id": "C06", "title": "Masked writes change exactly the masked bits", "statement": "After a successful masked write, bit k of the addressed range equals the new data's bit where the mask bit is one and its previous value where the mask bit is zero; nothing else changes.", "quantifier": "every state, range, data and mask", "why_tests_cant": "2^(2n) data/mask combinations per n-byte range.", "anchors": ["src/server/tagbase.c:tag_mask_write", "src/server/message.c:msg_tag_mask_write"]}
{"id": "C07", "title": "A refused request leaves the database unchanged", "statement": "If a read, write, masked write, or tag delete request is answered with an error, then no tag, no byte of data, no event and no mapping in the server has changed.", "quantifier": "every state and every such request", "why_tests_cant": "An early partial update on an error path is only seen for the request/state pairs that take the path.", "anchors": ["src/server/tagbase.c:tag_write", "src/server/tagbase.c:tag_mask_write", "src/server/tagbase.c:tag_del", "src/server/message.c:msg_tag_write"]}
{"id": "C08", "title": "Out-of-range access is always refused", "statement": "A read or write with a non-negative offset and size that reaches past the end of the tag, or that names an index never handed out, is answered with an error, and one that fits within the tag is never refused as too big.", "quantifier": "every tag, every offset and size representable in the message that does not overflow a 32-bit signed sum", "why_tests_cant": "The boundary must be exact for every type, array length and offset.", "anchors": ["src/server/tagbase.c:tag_get_size", "src/server/tagbase.c:tag_read", "src/server/tagbase.c:tag_write"]}
{"id": "C09", "title": "Negative offsets and sizes are refused", "statement": "A read or write request whose offset or size is negative (or overflows) when interpreted as the server does is answered with an error and never touches memory outside the tag.", "quantifier": "every raw read or write message a client can put on the socket", "why_tests_cant": "Attack inputs are outside any regression suite's range.", "anchors": ["src/server/tagbase.c:tag_read", "src/server/tagbase.c:tag_write", "src/server/message.c:msg_tag_read", "src/server/message.c:msg_tag_write"]}
{"id": "C10", "title": "A deleted tag stays deleted and unreadable", "statement": "After a tag has been deleted every later read, write, masked write, delete or query of its index fails, and nothing any client does makes that index readable again.", "quantifier": "every history following the deletion", "why_tests_cant": "Quantifies over all continuations.", "anchors": ["src/server/tagbase.c:tag_del", "src/server/tagbase.c:tag_read", "src/server/tagbase.c:tag_write", "src/server/tagbase.c:tag_mask_write"]}
{"id": "C11", "title": "Re-adding an existing tag is idempotent", "statement": "Adding a tag that already exists with the same type and a count not larger than the existing one returns the existing index and changes neither data, type, count nor name of any tag.", "quantifier": "every state, name, type, count", "why_tests_cant": "Depends on all states in which the name is bound.", "anchors": ["src/server/tagbase.c:tag_add"]}
{"id": "C12", "title": "Growing an array keeps its contents and zero-fills the rest", "statement": "Re-adding a tag with a larger count keeps the old elements' bytes and makes the new elements read as zero, like a freshly created tag.", "quantifier": "every existing tag and larger count, every content of freed heap memory", "why_tests_cant": "The value of recycled heap memory is not under a test's control.", "anchors": ["src/server/tagbase.c:tag_add", "src/server/func.c:xrealloc"]}
{"id": "C13", "title": "An override masks what readers see and never the stored value", "statement": "While an override is set on a tag, every read returns the override bit where the override mask is one and the stored bit elsewhere; writes still update the stored value; when the override is cleared readers see the last value written.", "quantifier": "every tag, stored data, override data and mask, every interleaving of writes", "why_tests_cant": "Interleavings of writes, override changes and reads are unbounded.", "anchors": ["src/server/tagbase.c:override_add", "src/server/tagbase.c:override_set", "src/server/tagbase.c:override_del", "src/server/tagbase.c:tag_read"]}
{"id": "C14", "title": "Overrides can be installed on every tag", "statement": "Installing an override whose range lies inside the tag succeeds for every data type, and bits of the tag outside the installed range are not affected by it.", "quantifier": "every tag type, count, range and every content of freshly allocated memory", "why_tests_cant": "Depends on the content of uninitialised memory and on each data type.", "anchors": ["src/server/tagbase.c:override_add", "src/server/tagbase.c:override_set"]}
{"id": "C15", "title": "Override counters are truthful", "statement": "The number of installed (set) overrides the server publishes equals the number of live tags that have an override installed (set).", "quantifier": "every history of override, tag add and tag delete requests", "why_tests_cant": "Counters drift only on particular sequences.", "anchors": ["src/server/tagbase.c:override_add", "src/server/tagbase.c:override_del", "src/server/tagbase.c:override_set", "src/server/tagbase.c:tag_del"]}
{"id": "C16", "title": "Read-only tags are only changed by their owner", "statement": "A write, masked write or atomic operation on a read-only tag that is not owned by the requesting connection is refused and changes nothing.", "quantifier": "every state, connection, tag and request of these kinds", "why_tests_cant": "All combinations of attributes, owners and requests.", "anchors": ["src/server/message.c:msg_tag_write", "src/server/message.c:msg_tag_mask_write", "src/server/message.c:msg_atomic_op", "src/server/tagbase.c:is_tag_owned"]}
{"id": "C17", "title": "No request of another client can change a read-only tag", "statement": "No request of any kind sent by a connection that does not own it changes the stored data of a read-only tag or deletes it.", "quantifier": "every state, connection and request", "why_tests_cant": "Requires checking every request kind, including indirect writes through groups and mappings.", "anchors": ["src/server/groups.c:group_write", "src/server/mapping.c:map_check", "src/server/message.c:msg_tag_del"]}
{"id": "C18", "title": "Module status tags are protected", "statement": "The start time and id of a module's status tag are never changed by a client write, only the module itself may write the other status bytes, and any client may write the one command byte.", "quantifier": "every state with registered modules, every writing connection, offset and size", "why_tests_cant": "All connection/offset/size combinations.", "anchors": ["src/server/virtualtag.c:special_tag_write", "src/server/virtualtag.c:special_tag_mask_write", "src/server/module.c:module_register"]}
{"id": "C19", "title": "Reserved names cannot be created or deleted by clients", "statement": "No client add or delete request ever creates or removes a tag whose name starts with an underscore.", "quantifier": "every state and request", "why_tests_cant": "All names and indices.", "anchors": ["src/server/message.c:msg_tag_add", "src/server/message.c:msg_tag_del"]}
{"id": "C20", "title": "Disconnecting removes exactly the module's owned tags", "statement": "When a registered module with a status tag disconnects, exactly the tags it owns and its status tag are deleted; every other tag keeps its data.", "quantifier": "every reachable state and every connected module", "why_tests_cant": "Depends on the set of tags and owners in every state.", "anchors": ["src/server/module.c:module_unregister", "src/server/tagbase.c:is_tag_owned"]}
{"id": "C21", "title": "Disconnecting never removes server status tags", "statement": "No client connecting or disconnecting ever removes one of the server's own status tags such as the tag counter.", "quantifier": "every server configuration (including the list of modules that get no status tag) and history", "why_tests_cant": "Depends on configuration and history.", "anchors": ["src/server/module.c:module_unregister", "src/server/module.c:_check_module_tag_exclusion"]}
{"id": "C22", "title": "Every registered module has a status tag of its own", "statement": "Two simultaneously registered modules never share one status tag, and registering never fails to produce a well-formed server whatever the module is called.", "quantifier": "every sequence of module names, connects and disconnects", "why_tests_cant": "Collisions need particular name combinations.", "anchors": ["src/server/module.c:module_register"]}
{"id": "C23", "title": "Write events reach the registrant exactly when the watched bytes are written", "statement": "A write event registered on a byte range is delivered on a write if and only if the written range intersects the watched range, once per write, to the connection that registered it, carrying the tag index and the event id.", "quantifier": "every set of registered events, every write", "why_tests_cant": "All interval pairs, all event populations.", "anchors": ["src/server/events.c:event_check", "src/server/events.c:_event_hit", "src/server/events.c:_send_event"]}
{"id": "C24", "title": "Change events fire exactly when the watched value changed", "statement": "A change event on a non-BOOL range fires on a write if and only if some watched byte now differs from its value when the event last fired or was registered; repeating the same write never fires it again.", "quantifier": "every sequence of writes of any overlap with the watched range", "why_tests_cant": "Partial overlaps and sequences are unbounded.", "anchors": ["src/server/events.c:_event_change", "src/server/events.c:_set_event_data"]}
{"id": "C25", "title": "Set and reset events are edge triggered", "statement": "A set event on BOOLs fires on a write if and only if one of the watched bits is one now and was not one the last time the event looked; a reset event likewise for zero.", "quantifier": "every sequence of writes, every bit range", "why_tests_cant": "Edge detection is a property of write histories.", "anchors": ["src/server/events.c:_event_set", "src/server/events.c:_event_reset"]}
{"id": "C26", "title": "Comparison events are level-crossing triggered", "statement": "An equal/greater/less event on an aligned range fires on a write if and only if one of the re-written elements satisfies the relation to the reference now and did not the last time it was written, for every integer type including unsigned and negative values.", "quantifier": "every integer data type, reference value, write history", "why_tests_cant": "Signedness and width boundaries across all values.", "anchors": ["src/server/events.c:_generic_compare", "src/server/events.c:_event_compare"]}
{"id": "C27", "title": "Deadband events measure the true distance", "statement": "A deadband event fires if and only if the mathematical distance between an element's current value and its value at the last firing is at least the configured band.", "quantifier": "every integer data type, pair of values and band", "why_tests_cant": "Overflow only shows for extreme value pairs.", "anchors": ["src/server/events.c:_generic_deadband", "src/server/events.c:_event_deadband"]}
{"id": "C28", "title": "Event ids identify one event and belong to their creator", "statement": "Event ids returned for a tag are never reused on that tag, and only the connection that created an event can delete it or change its options.", "quantifier": "every history of event requests by any clients", "why_tests_cant": "All interleavings of clients.", "anchors": ["src/server/events.c:event_add", "src/server/events.c:event_del", "src/server/events.c:event_opt"]}
{"id": "C29", "title": "Queue tags are first-in first-out", "statement": "As long as at most sixteen items are outstanding, reads of a queue tag return the written items in exactly the order written, each once, and report empty exactly when everything has been read.", "quantifier": "every interleaving of writes and reads of any length with backlog at most 16, every item size", "why_tests_cant": "The ring buffer wraps at every possible phase.", "anchors": ["src/server/virtualtag.c:write_queue", "src/server/virtualtag.c:read_queue", "src/server/tagbase.c:_queue_add"]}
{"id": "C30", "title": "Queue tags keep order for any backlog", "statement": "Reads of a queue tag return the items in the order written for any backlog.", "quantifier": "every interleaving of writes and reads, every content of freed heap memory", "why_tests_cant": "Growth happens at every phase of the ring.", "anchors": ["src/server/virtualtag.c:write_queue"]}
{"id": "C31", "title": "A mapping copies the source on every source write", "statement": "After a successful client write that touches the source range of a mapping, the destination range holds the source's current bytes (or, for BOOLs, the destination bits hold the source bits and all other bits are unchanged).", "quantifier": "every state with valid mappings, every write", "why_tests_cant": "All bit offset pairs and counts.", "anchors": ["src/server/mapping.c:map_check", "src/server/mapping.c:map_add", "src/server/message.c:msg_tag_write"]}
{"id": "C32", "title": "Deleting a mapping removes exactly that mapping", "statement": "Deleting a mapping by id succeeds if and only if the mapping exists, removes it and leaves every other mapping of the tag in place.", "quantifier": "every set of mappings on a tag and every id", "why_tests_cant": "Depends on the position in the list.", "anchors": ["src/server/mapping.c:map_del"]}
{"id": "C33", "title": "Mapping ids are stable and duplicates are merged", "statement": "Adding the same mapping twice returns the same id; different mappings get different ids; a mapping queried by its id returns the handles it was created with.", "quantifier": "every history of mapping requests on a tag", "why_tests_cant": "Unbounded histories.", "anchors": ["src/server/mapping.c:map_add", "src/server/mapping.c:map_get"]}
{"id": "C34", "title": "Tag groups read and write their members", "statement": "Reading a group returns the concatenation of what reading each member would return; writing a group is the same as writing the members one after another; both refuse unknown groups.", "quantifier": "every group, member list and state", "why_tests_cant": "All member lists.", "anchors": ["src/server/groups.c:group_read", "src/server/groups.c:group_write", "src/server/groups.c:group_add"]}
{"id": "C35", "title": "Group ids stay valid until deleted", "statement": "A group id returned to a client keeps denoting the same member list until the client deletes it, and a new group never gets the id of a live one.", "quantifier": "every history of group adds and deletes", "why_tests_cant": "Slot management errors need particular add/delete sequences.", "anchors": ["src/server/groups.c:_group_add", "src/server/groups.c:group_del"]}
{"id": "C36", "title": "Atomic operations compute the advertised function on exactly the addressed data", "statement": "An atomic increment/decrement adds/subtracts modulo the type's width; NOT/OR/AND/XOR/NOR/NAND/XNOR replace each addressed bit by the Boolean function of its old value and the operand; no other bit of the tag changes.", "quantifier": "every type, offset, bit offset, count, data and operand", "why_tests_cant": "Bit-level alignment cases are exponentially many.", "anchors": ["src/server/atomic.c:atomic_op", "src/server/atomic.c:_atomic_inc", "src/server/atomic.c:_atomic_or", "src/server/atomic.c:_atomic_nor", "src/server/atomic.c:_left_shift"]}
{"id": "C37", "title": "Compound types are laid out without overlap", "statement": "Members of a compound type occupy disjoint bit ranges in declaration order inside the type's size; BOOLs are packed, everything else starts on a byte boundary, and the size is the smallest number of bytes that holds them.", "quantifier": "every compound type definition, arbitrarily nested", "why_tests_cant": "Unbounded family of types.", "anchors": ["src/server/tagbase.c:type_size", "src/lib/libcdt.c:dax_get_typesize"]}
{"id": "C38", "title": "Client and server agree on the size of every type", "statement": "For every registered type whose size is representable the client library computes the same byte size as the server.", "quantifier": "every compound type definition, arbitrarily nested", "why_tests_cant": "Unbounded family of types.", "anchors": ["src/server/tagbase.c:type_size", "src/lib/libcdt.c:dax_get_typesize"]}
{"id": "C39", "title": "Compound type definitions survive the wire", "statement": "A type description string produced by serialising a registered type parses back to the same name and members; creating the same type twice returns the same type id and never a second type.", "quantifier": "every registered type", "why_tests_cant": "All names, member lists and counts.", "anchors": ["src/server/tagbase.c:cdt_create", "src/server/tagbase.c:serialize_datatype", "src/lib/libcdt.c:add_cdt_to_cache"]}
{"id": "C40", "title": "Type ids are permanent", "statement": "A type id once returned always denotes the same definition and two types never have names equal up to letter case.", "quantifier": "every history", "why_tests_cant": "All futures.", "anchors": ["src/server/tagbase.c:cdt_create", "src/server/tagbase.c:cdt_get_type"]}
{"id": "C41", "title": "Requests are framed independently of how the bytes arrive", "statement": "A request is executed exactly once and with exactly its own bytes no matter how the bytes are split over socket reads.", "quantifier": "every message and every split of its bytes", "why_tests_cant": "Chunking of a TCP stream is not under test control.", "anchors": ["src/server/buffer.c:buff_read", "src/server/message.c:msg_dispatcher"]}
{"id": "C42", "title": "Pipelined requests are all executed", "statement": "If two requests arrive in one socket read both are executed.", "quantifier": "every pair of requests", "why_tests_cant": "Timing dependent.", "anchors": ["src/server/buffer.c:buff_read", "src/server/message.c:msg_dispatcher"]}
{"id": "C43", "title": "No client message can corrupt the server", "statement": "Whatever bytes a client sends, the server never performs an out-of-bounds access.", "quantifier": "every byte string", "why_tests_cant": "Infinite input space.", "anchors": ["src/server/buffer.c:buff_read", "src/server/message.c:msg_dispatcher", "src/server/groups.c:group_del"]}
{"id": "C44", "title": "Requests encoded by the library decode to the same request at the server", "statement": "For every tag add, delete, read, write, masked write, event, mapping, group and atomic call the server reconstructs exactly the arguments that were passed to the library.", "quantifier": "all argument values within the documented ranges", "why_tests_cant": "All argument values.", "anchors": ["src/lib/libmsg.c:dax_tag_add", "src/lib/libmsg.c:dax_read", "src/lib/libmsg.c:dax_write", "src/lib/libmsg.c:dax_mask", "src/lib/libmsg.c:dax_event_add", "src/lib/libmsg.c:dax_map_add", "src/lib/libmsg.c:dax_group_add", "src/lib/libmsg.c:dax_atomic_op", "src/server/message.c"]}
{"id": "C45", "title": "Large reads and writes are split transparently", "statement": "Reading or writing a handle larger than one message has the same effect as one read or write of the whole range.", "quantifier": "every handle size and type size, every data", "why_tests_cant": "Sizes around multiples of the message size.", "anchors": ["src/lib/libdata.c:dax_tag_read", "src/lib/libdata.c:dax_tag_write"]}
{"id": "C46", "title": "BOOL slices are read at the right place", "statement": "Reading a BOOL handle with any bit offset and count returns bit i of the slice in bit i of the result.", "quantifier": "every bit offset, count, data", "why_tests_cant": "All alignments.", "anchors": ["src/lib/libdata.c:dax_tag_read"]}
{"id": "C47", "title": "BOOL slices are written at the right place", "statement": "Writing a BOOL handle sets exactly the bits of the slice and leaves neighbouring bits of the tag alone, and is not refused when the slice lies inside the tag.", "quantifier": "every bit offset, count, data and tag size", "why_tests_cant": "All alignments at the end of the tag.", "anchors": ["src/lib/libdata.c:dax_tag_write"]}
{"id": "C48", "title": "Client masked writes honour the caller's mask", "statement": "A masked write through the library changes only bits whose mask bit is one, for every data type including BOOL slices.", "quantifier": "every handle, data and mask", "why_tests_cant": "All alignments and masks.", "anchors": ["src/lib/libdata.c:dax_tag_mask"]}
{"id": "C49", "title": "Tag paths resolve to the documented location", "statement": "Resolving a textual tag path (array indices, members, bit index) yields the byte and bit at which the layout of the type places that element, or an error if it does not exist.", "quantifier": "every type definition and path", "why_tests_cant": "Unbounded family of types and paths.", "anchors": ["src/lib/libcdt.c:dax_tag_handle", "src/lib/libcdt.c:_parse_next_member", "src/lib/libcdt.c:_parse_bit_index"]}
{"id": "C50", "title": "The tag cache never changes answers except by staleness", "statement": "The client's tag cache returns, for a name or index, only entries that were put in under that name or index, holds at most its configured number of entries, and an entry purged after a deleted-tag error is not returned again until it is re-fetched.", "quantifier": "every sequence of lookups, insertions and deletions, every cache size", "why_tests_cant": "The bubble-up reordering of a circular list has many shapes.", "anchors": ["src/lib/libdata.c:cache_tag_add", "src/lib/libdata.c:cache_tag_del", "src/lib/libdata.c:check_cache_name", "src/lib/libdata.c:check_cache_index", "src/lib/libdata.c:_cache_hit"]}
{"id": "C51", "title": "Undelivered client events are kept newest-last, oldest dropped first", "statement": "Events received but not yet fetched are handed out in arrival order; when the backlog limit is reached the oldest is dropped and the newest is kept.", "quantifier": "every arrival/fetch interleaving and queue limit", "why_tests_cant": "Unbounded interleavings.", "anchors": ["src/lib/libmsg.c:_read_next_message", "src/lib/libevent.c:_pop_event"]}
{"id": "C52", "title": "A response answers the request that was made", "statement": "The data returned by a client call is the server's response to that very call.", "quantifier": "every sequence of calls, timeouts and late responses", "why_tests_cant": "Needs a late response race.", "anchors": ["src/lib/libmsg.c:_message_recv", "src/lib/libmsg.c:_read_next_message"]}
{"id": "C53", "title": "Event reference values reach the server unchanged", "statement": "The reference value passed to dax_event_add arrives at the server unchanged for every data type.", "quantifier": "every data type and value", "why_tests_cant": "All values; tests use small ones.", "anchors": ["src/lib/libconv.c:mtos_generic", "src/lib/libdax.h", "src/lib/libmsg.c:dax_event_add"]}
{"id": "C54", "title": "Text to value conversion clamps and reports", "statement": "Converting text to a typed value stores the parsed value if it is in the type's range and otherwise the nearest bound together with an overflow/underflow error; converting a value to text and back is the identity for integer types.", "quantifier": "every integer type and numeral", "why_tests_cant": "All values.", "anchors": ["src/lib/libfunc.c:dax_string_to_val", "src/lib/libfunc.c:dax_val_to_string"]}
{"id": "C55", "title": "Modbus CRC is CRC-16/MODBUS", "statement": "The table-driven Modbus CRC equals the bitwise polynomial definition for every message, and a frame with its CRC appended checks while one with any single corrupted byte or any burst shorter than 17 bits does not.", "quantifier": "every byte string", "why_tests_cant": "Infinite input space.", "anchors": ["src/modules/modbus/mbutil.c:crc16", "src/modules/modbus/mbutil.c:crc16check"]}
{"id": "C56", "title": "Modbus server answers reads with the register contents", "statement": "For every well-formed read request in range the response carries the slave's coils/registers in Modbus order, and every out-of-range request is answered with the illegal-data-address exception.", "quantifier": "every register file, address and count", "why_tests_cant": "All addresses and bit alignments.", "anchors": ["src/modules/modbus/modbus.c:create_response", "src/modules/modbus/modbus.c:_read_bits_response", "src/modules/modbus/modbus.c:_read_words_response"]}
{"id": "C57", "title": "Modbus server writes store exactly the requested registers", "statement": "A valid write request stores the given coils/registers at the given addresses, changes nothing else and is acknowledged with the echoed header; reading back returns the values.", "quantifier": "every register file, address, count, data", "why_tests_cant": "All addresses and alignments.", "anchors": ["src/modules/modbus/modbus.c:create_response"]}
{"id": "C58", "title": "No Modbus request can corrupt the module", "statement": "Whatever request frame arrives, building the response never accesses memory outside its buffers.", "quantifier": "every frame", "why_tests_cant": "Infinite input space.", "anchors": ["src/modules/modbus/modbus.c:create_response", "src/modules/modbus/modbus.c:_read_bits_response", "src/modules/modbus/mbserver.c:_mb_read"]}
{"id": "C59", "title": "Modbus client requests are well-formed", "statement": "The request frame built for a command follows the Modbus application protocol for each function code.", "quantifier": "every command", "why_tests_cant": "All commands and data.", "anchors": ["src/modules/modbus/modbus.c:sendRTUrequest", "src/modules/modbus/modbus.c:sendTCPrequest"]}
{"id": "C60", "title": "Retained tags survive a restart", "statement": "After a restart every tag that was retained has the value last written to it before the shutdown, at any crash point after the write completed.", "quantifier": "every history and crash point", "why_tests_cant": "Crash points and restart sequences.", "anchors": ["src/server/retain.c:ret_add_tag", "src/server/retain.c:ret_tag_write", "src/server/retain.c:_create_tags", "src/server/retain.c:_init"]}
{"id": "C61", "title": "A received event runs the callback registered for it", "statement": "An event message runs exactly the callback that was registered for its tag index and event id and not deleted since, and the callback sees exactly the data sent with the event; without such a registration no callback runs.", "quantifier": "every history of registrations and deletions, every event message", "why_tests_cant": "Unbounded histories and database sizes.", "anchors": ["src/lib/libevent.c:add_event", "src/lib/libevent.c:del_event", "src/lib/libevent.c:dispatch_event", "src/lib/libevent.c:dax_event_get_data"]}
{"id": "C62", "title": "The client cuts the byte stream into the messages that were sent", "statement": "However the bytes from the server are split over reads, the messages the client library obtains are the messages the server sent, in order.", "quantifier": "every sequence of messages and every splitting of the stream", "why_tests_cant": "All splittings of the stream; split headers are rare in tests.", "anchors": ["src/lib/libmsg.c:_message_get"]}
{"id": "C63", "title": "A client wait with a timeout ends at a valid moment", "statement": "The deadline computed for a timed wait is the timeout after the current time and is a valid time (nanoseconds below one second).", "quantifier": "every current time and timeout", "why_tests_cant": "The bad case is one nanosecond value in 10^9.", "anchors": ["src/lib/libmsg.c:_message_recv", "src/lib/libevent.c:dax_event_wait"]}
{"id": "C64", "title": "A Modbus poll transfers the registers", "statement": "When the Modbus master of this program polls registers or coils of the Modbus slave of this program over TCP, its data area afterwards holds the slave's registers; when it writes registers, the slave's registers afterwards hold its data area and no others changed. This holds however the stream is cut into reads.", "quantifier": "every command, register content, cut of the stream", "why_tests_cant": "Any addresses, counts, contents and cuts of the byte stream.", "anchors": ["src/modules/modbus/modbus.c:sendTCPrequest", "src/modules/modbus/modbus.c:create_response", "src/modules/modbus/modbus.c:handleresponse", "src/modules/modbus/modbus.c:getTCPresponse", "src/modules/modbus/mbserver.c:_mb_read"]}
{"id": "C65", "title": "The Modbus master takes only the answer to its request", "statement": "An answer is stored only if it is the answer to the request that was sent; no received bytes make the master touch memory outside the command's data area.", "quantifier": "every command and every sequence of received bytes", "why_tests_cant": "Arbitrary answers, delays and cuts.", "anchors": ["src/modules/modbus/modbus.c:handleresponse", "src/modules/modbus/modbus.c:getTCPresponse", "src/modules/modbus/modbus.c:mb_send_command"]}
{"id": "C66", "title": "Dead processes are restarted with a bounded back-off", "statement": "The master restarts a process that has the restart flag as soon as it has been dead for its restart delay and never before; the delay is 0 at first and after a run of over a minute, then 100 ms, doubling up to one minute; the master does not sleep past the moment a restart is due; only dead processes with the flag are started.", "quantifier": "every configuration and every sequence of exits and scans, for clocks that are not set back", "why_tests_cant": "Needs all interleavings of exits, clock readings and scans over minutes.", "anchors": ["src/master/process.c:process_scan", "src/master/process.c:_process_restart", "src/master/process.c:_difftimeval"]}
{"id": "C67", "title": "Every exit of a child is noticed and attributed to its process", "statement": "Every exit recorded by the SIGCHLD handler leads to the process of that child, and no other, being marked dead with its status; no running child is taken for dead; there is never more than one running child per configured process.", "quantifier": "every configuration and every interleaving of exits with the two halves of process_scan", "why_tests_cant": "Depends on how many children exit between two scans and on reuse of process ids.", "anchors": ["src/master/process.c:process_dpq_add", "src/master/process.c:_cleanup_process", "src/master/master.c:child_signal"]}
{"id": "C68", "title": "The master signals only its own children", "statement": "kill is only called with the process id of a child of the master; a process over its CPU or memory limit is told to quit at its next turn and killed at the turn after.", "quantifier": "every configuration and every history", "why_tests_cant": "Needs a limit to be exceeded by a process that then exits, and 64 scans.", "anchors": ["src/master/process.c:process_scan", "src/master/process.c:_process_get_cpu_stat"]}
{"id": "C69", "title": "Processes are started with the configured arguments", "statement": "The argument vector is the path followed by the words of the configured argument string and a terminating NULL; building, listing and using the vectors stays inside them.", "quantifier": "every list of configured processes", "why_tests_cant": "Uninitialised memory is usually zero in a test.", "anchors": ["src/master/process.c:_arglist_tok", "src/master/process.c:_print_process_list", "src/master/process.c:process_start"]}
{"id": "C70", "title": "Children run with the configured user and group", "statement": "A child started by a privileged master runs with the configured user and group (by default opendax), or is not started.", "quantifier": "every configuration entry, user database and master identity", "why_tests_cant": "Tests do not run as root.", "anchors": ["src/master/process.c:_set_user_group", "src/master/mstr_config.c:_set_uid_gid"]}
{"id": "C71", "title": "The historical log stays within the threshold of the tag", "statement": "With the change trigger every value that differs from the last recorded value by the threshold or more is recorded, together with the value received before it, so after every event the last record is within the threshold of the tag; only received values are recorded; with the write trigger every received value is recorded.", "quantifier": "every numeric type, threshold, timeout and sequence of events", "why_tests_cant": "Depends on the whole history of values and on the width of every type.", "anchors": ["src/modules/histlog/histlog.c:_event_callback", "src/modules/histlog/histlog.c:_test_difference", "src/modules/histlog/histlog.c:_add_tags"]}
{"id": "C72", "title": "Gaps in the historical log are marked, and its times do not go back", "statement": "When an event comes later than the timeout after the previous one, a NULL a timeout before it and then the value are recorded, and at no other time is a NULL recorded after the start; the times of the records do not decrease; the last value known before a gap is recorded.", "quantifier": "every sequence of events with times that do not decrease", "why_tests_cant": "Needs long pauses at particular points of a history.", "anchors": ["src/modules/histlog/histlog.c:_event_callback"]}
{"id": "C73", "title": "The queue of scripts is first in, first out and refuses what does not fit", "statement": "Scripts leave the queue in the order they were put in; a script is refused exactly when the queue holds as many as it has places, and a refused or accepted script never damages what is queued; taking from an empty queue gives nothing.", "quantifier": "every queue size and every sequence of pushes and pops", "why_tests_cant": "The failing state needs a queue filled from one particular place.", "anchors": ["src/modules/daxlua/threads.c:_q_push", "src/modules/daxlua/threads.c:_q_pop"]}
{"id": "C74", "title": "Every event runs its script, once and in order", "statement": "Each script put in the queue by an event is taken out and run exactly once, in the order of the events, whatever the order in which the threads are scheduled; no thread blocks for ever while scripts are queued.", "quantifier": "every number of worker threads and every interleaving of events and threads", "why_tests_cant": "Depends on the scheduling of threads.", "anchors": ["src/modules/daxlua/threads.c:__queue_thread", "src/modules/daxlua/threads.c:_run_queue_scripts"]}
{"id": "C75", "title": "Interval scripts run once per interval", "statement": "The scripts of an interval thread start once per interval when they take less than the interval, and an overrun is counted exactly when they take longer.", "quantifier": "every interval, start time and running time", "why_tests_cant": "Depends on the time at which a round starts within a second.", "anchors": ["src/modules/daxlua/threads.c:_interval_thread"]}
{"id": "C76", "title": "Every configured script is stored", "statement": "Each script added to the configuration gets its own place in the table of scripts, and no script already stored is changed.", "quantifier": "every number of scripts", "why_tests_cant": "Needs more scripts than the initial table.", "anchors": ["src/modules/daxlua/scripts.c:get_new_script"]}
{"id": "C77", "title": "A run of a script sees the data of its own event", "statement": "When a script started by an event reads the event data, it gets the data of the event that queued that run.", "quantifier": "every interleaving of events and worker threads", "why_tests_cant": "Depends on the timing of events against threads.", "anchors": ["src/modules/daxlua/threads.c:__queue_thread", "src/modules/daxlua/threads.c:_script_event_dispatch"]}
{"id": "C78", "title": "Values survive the way to Lua and back", "statement": "Every tag, of a base or a compound type or an array, can be given to a script without reading outside its data; and the value a script gets, written to a tag of the same type, gives a tag that reads as the same value; written back unchanged to the tag it came from, it changes nothing.", "quantifier": "every type, nesting, count and contents", "why_tests_cant": "Infinitely many types and contents; the failing ones are ordinary numbers at the ends of the ranges.", "anchors": ["src/lib/lua/libdaxlua.c:daxlua_dax_to_lua", "src/lib/lua/libdaxlua.c:daxlua_lua_to_dax", "src/lib/lua/libdaxlua.c:_push_base_datatype", "src/lib/lua/libdaxlua.c:_pop_base_datatype"]}
{"id": "C79", "title": "A Lua value changes exactly the members it names", "statement": "When a script writes a table to a tag of a compound type, only the members that are present in the table are marked to be written; a value that does not fit the type is refused, with nothing written.", "quantifier": "every type and every Lua value", "why_tests_cant": "Depends on the combination of type, order of the members and value.", "anchors": ["src/lib/lua/libdaxlua.c:_write_from_stack", "src/lib/lua/libdaxlua.c:_pop_base_datatype", "src/lib/lua/libdaxlua.c:_write_callback"]}
{"id": "C80", "title": "Requests within stated limits keep the server defined", "statement": "A server started without a retention file, and then given any history of requests from any number of clients in which each request is within the limits written down in Safe.v (areas inside the tags, writes that start at elements watched by comparing events, no growing queues, and so on; each limit excludes a defect that is shown separately), never accesses memory outside its blocks, never uses a null pointer, released or uninitialised memory, never overflows, and never aborts: every request is carried out and the server goes on to the next.", "quantifier": "every environment, start time and history of requests of any length", "why_tests_cant": "The property is about the absence of undefined behaviour in unboundedly many interleavings of 31 kinds of requests; a test observes a handful of them and often cannot observe the undefined behaviour at all.", "anchors": ["src/server/message.c:msg_dispatcher", "src/server/tagbase.c:tag_write", "src/server/tagbase.c:tag_read", "src/server/tagbase.c:tag_add", "src/server/tagbase.c:tag_del", "src/server/events.c:event_check", "src/server/events.c:events_cleanup", "src/server/mapping.c:map_check", "src/server/groups.c:group_read", "src/server/module.c:module_register", "src/server/module.c:module_unregister", "src/server/func.c", "src/server/retain.c"]}
{"id": "C81", "title": "Values read from a PLC reach the tag unchanged", "statement": "When a read of a PLC tag completes, element i of the OpenDAX tag's block holds exactly the bytes that the PLC tag has at i * elem_size (bit i for BOOL); elements the PLC does not have are not invented.", "quantifier": "every base type, count, element size and PLC memory", "why_tests_cant": "The mapping differs per type and element size; the loss for LREAL shows only for values that a float cannot hold, and no PLC is available in tests.", "anchors": ["src/modules/plctag/plctag.c:_read_tag", "src/modules/plctag/plctag.c:_tag_callback"]}
{"id": "C82", "title": "Changes in the tag server reach the PLC unchanged", "statement": "When a change event arrives, the PLC tag gets exactly the bytes of element i at i * elem_size and keeps its other bytes, and reading it back gives the same data.", "quantifier": "every base type, count, element size of at least the size of the type, data and PLC memory", "why_tests_cant": "Needs every type and element size and a PLC; round trips hide errors made twice.", "anchors": ["src/modules/plctag/plctag.c:_event_callback", "src/modules/plctag/plctag.c:_read_tag"]}
{"id": "C83", "title": "Compound types are transferred by the byte map", "statement": "For a tag of a compound type, byte n of each element is byte map[n] of the PLC element in both directions; without a map the elements are copied to their places in the block.", "quantifier": "every byte map, count, element size, block and PLC memory", "why_tests_cant": "The map is free configuration; uninitialised stack bytes and 32 bit overflow look like valid data.", "anchors": ["src/modules/plctag/plctag.c:_read_tag", "src/modules/plctag/plctag.c:_event_callback", "src/modules/plctag/plcopt.c:_add_plctag"]}
{"id": "C84", "title": "The callbacks of the PLC module stay within memory", "statement": "Whatever the PLC sends, however short its tag is and whatever order creation, discovery, reads and changes happen in, the callbacks never touch memory outside the tag's block.", "quantifier": "every sequence of callbacks and events", "why_tests_cant": "Depends on the order of events of three threads and on what a remote PLC sends.", "anchors": ["src/modules/plctag/plctag.c:_read_tag", "src/modules/plctag/plctag.c:_event_callback", "src/modules/plctag/plctag.c:_check_tag_status", "src/modules/plctag/plcopt.c:_add_plctag"]}
{"id": "C85", "title": "Every completed read of a PLC tag is written to the tag server", "statement": "Each completed read leads to exactly one write of its tag, in order, and without any further read the tag server ends up with the value of the last read of each tag.", "quantifier": "every interleaving of reads and the writing thread, every queue size", "why_tests_cant": "Needs 256 reads to complete while one write is in progress, or a race at start-up.", "anchors": ["src/modules/plctag/plcthread.c:tag_queue_push", "src/modules/plctag/plcthread.c:tag_queue_pop", "src/modules/plctag/plcthread.c:__tag_queue_thread", "src/modules/plctag/plctag.c:_tag_callback"]}
{"id": "C86", "title": "The last value stored on either side of a PLC tag survives", "statement": "If only the PLC stores values, the last one it stored ends up in the PLC and in the tag server; if only the tag server is written, the PLC ends up with its value.", "quantifier": "every interleaving of reads, writes and events, any number of tags", "why_tests_cant": "A race between an event and a read that completes meanwhile.", "anchors": ["src/modules/plctag/plctag.c:_event_callback", "src/modules/plctag/plctag.c:_tag_callback", "src/modules/plctag/plcthread.c:__tag_queue_thread"]}
{"id": "C87", "title": "Topics are compared with filters as MQTT defines it", "statement": "The topic of a message matches the filter of a subscription exactly when section 4.7 of the MQTT standard says so: + stands for one level, # for the rest, all else is literal.", "quantifier": "every filter and every topic", "why_tests_cant": "The reads behind the end of the strings depend on what memory happens to follow; filters and topics are unbounded.", "anchors": ["src/modules/mqtt/mqtt.c:_roll_forward", "src/modules/mqtt/mqtt.c:_topic_compare"]}
{"id": "C88", "title": "Every subscription that matches gets the message", "statement": "A message is handed to each active subscription whose filter matches its topic, and to no other.", "quantifier": "every list of subscriptions and every topic", "why_tests_cant": "Overlapping subscriptions and their order are rarely tested.", "anchors": ["src/modules/mqtt/mqttopts.c:get_sub", "src/modules/mqtt/mqtt.c:msgarrived"]}
{"id": "C89", "title": "Any number of subscriptions and publishers can be configured", "statement": "Each call of subscribe or publish in the configuration gets an entry of its own inside the allocated list.", "quantifier": "any number of calls", "why_tests_cant": "The overflow needs 33 entries and then corrupts the heap silently.", "anchors": ["src/modules/mqtt/mqttopts.c:_get_new_sub", "src/modules/mqtt/mqttopts.c:_get_new_pub"]}
{"id": "C90", "title": "The module keeps trying to connect to the broker", "statement": "An unconnected module tries again after at most 60 further cycles, whatever has happened before, and the pause doubles from 1 to 60 cycles as long as the broker refuses.", "quantifier": "every history of connections, losses and refusals", "why_tests_cant": "Needs minutes of waiting and every history; a pause computed wrongly can wrap to zero or grow without bound.", "anchors": ["src/modules/mqtt/mqtt.c:client_loop", "src/modules/mqtt/mqtt.c:_connect"]}
{"id": "C91", "title": "Subscriptions are in force while the module is connected", "statement": "While the module is connected every subscription whose tags exist is in force at the broker, at most ten cycles after its tags appeared or the connection was made.", "quantifier": "every history of connections, tags and refusals", "why_tests_cant": "Needs the broker to drop a connection at the right time.", "anchors": ["src/modules/mqtt/mqtt.c:subscribe", "src/modules/mqtt/mqtt.c:setup_subscribers", "src/modules/mqtt/mqtt.c:client_loop", "src/modules/mqtt/mqtt.c:connlost"]}
{"id": "C92", "title": "Publishers become active once their tags exist", "statement": "Each publisher whose tags and trigger exist is active at most ten cycles after the last of them appeared.", "quantifier": "every history of connections and tags", "why_tests_cant": "Needs modules that start in another order.", "anchors": ["src/modules/mqtt/mqtt.c:publish", "src/modules/mqtt/mqtt.c:setup_publishers", "src/modules/mqtt/mqtt.c:client_loop"]}
{"id": "C93", "title": "A raw message becomes the value of the tag", "statement": "Without a filter function the bytes of a message are stored in the tag; a message that is too short changes only the bytes it has or nothing.", "quantifier": "every message, tag and server state", "why_tests_cant": "Short messages after long ones look right if both agree.", "anchors": ["src/modules/mqtt/mqtt.c:msgarrived"]}
{"id": "C94", "title": "What the filter function gives becomes the value of the tags", "statement": "With a filter function the tag takes the value the function returned (several tags: the values of the table, in order), an error changes nothing, and no return value makes the module misbehave.", "quantifier": "every function result, every type including compound ones, every message", "why_tests_cant": "Needs functions that fail or return unusual values; memory errors are silent.", "anchors": ["src/modules/mqtt/mqtt.c:msgarrived"]}
{"id": "C95", "title": "What is published is the value of the tags", "statement": "When the trigger fires the payload is the current content of the tags, or what the filter function made of it; if the tags cannot be read or the function fails nothing is published.", "quantifier": "every tag, trigger, function and server state", "why_tests_cant": "Failures of reads and functions are rare; small groups overflow silently.", "anchors": ["src/modules/mqtt/mqtt.c:publish_callback", "src/lib/libmsg.c:dax_group_read"]}
{"id": "C96", "title": "Every request is answered exactly once", "statement": "Whatever a client asks and whatever the state of the server, the client that asked gets exactly one answer, which names the command it answers, fits into a message and carries a negative code if it is an error; from the start of the server the answers are those to the requests made, one each and in their order.", "quantifier": "every server state and every history of requests of any number of clients", "why_tests_cant": "A missing answer shows only as a timeout of one client, a second one only as a wrong answer to the next request; tests look at the contents of the answers they expect.", "anchors": ["src/server/message.c:_message_send", "src/server/message.c:msg_tag_read", "src/server/message.c:msg_dispatcher"]}
{"id": "C97", "title": "A change of a watched tag runs the callback of the client that watches it", "statement": "From the write request of any client to the callback of the watching client: a write that changes watched bytes runs the callback registered for this event exactly once, with the new bytes if the client asked for them, and no callback of any other client; over any history the callbacks run are those of the notifications sent, in their order.", "quantifier": "every server state, every write, every history of requests, every interleaving of arriving messages with the client's threads", "why_tests_cant": "Involves server, socket and both threads of the client's library; tests look at single events on an idle system.", "anchors": ["src/server/events.c:_send_event", "src/server/events.c:event_check", "src/lib/libmsg.c:_message_get", "src/lib/libmsg.c:_read_next_message", "src/lib/libevent.c:dispatch_event", "src/lib/libmsg.c:dax_event_add"]}
{"id": "C98", "title": "Each call of a client gets the answer to its own request", "statement": "For every history of the server a client that makes one call after the other, whose answers come before its timeout, gets from every call what the server answered to this very request, whatever notifications come in between.", "quantifier": "every history of requests of all clients, every interleaving of notifications and fetched events", "why_tests_cant": "A mix-up needs a missing or doubled answer somewhere earlier.", "anchors": ["src/lib/libmsg.c:_message_recv", "src/server/message.c:_message_send", "src/server/message.c:msg_dispatcher"]}
{"id": "C99", "title": "Command line before program before file before default", "statement": "After dax_configure, every attribute of a module has the value given for it on the command line (the last one if there are several), else the value the program set before, else the value the configuration file gives it, else its default. (The directory of the configuration takes the compiled-in directory instead of a value of the file; the name of the file itself is treated in C102.)", "quantifier": "every list of registered attributes, every command line made of options of these attributes in any of the four spellings (-x v, -xv, --long v, --long=v) and other words, every outcome of the configuration file", "why_tests_cant": "The four sources combine with every set of attributes and spellings; a test tries a few command lines of one module.", "anchors": ["src/lib/libopt.c:dax_configure", "src/lib/libopt.c:_parse_commandline", "src/lib/libopt.c:_mod_config_file", "src/lib/libopt.c:_get_lua_globals", "src/lib/libopt.c:_set_defaults", "src/lib/libinit.c:dax_init"]}
{"id": "C100", "title": "Attributes can be told apart", "statement": "No two attributes of a module have the same name, the same option letter or the same long name; dax_add_attribute accepts every attribute with a valid name and long name that clashes with none before, and refuses every other one.", "quantifier": "every sequence of dax_add_attribute calls after dax_init", "why_tests_cant": "Uniqueness is an invariant over all sequences of registrations.", "anchors": ["src/lib/libopt.c:dax_add_attribute", "src/lib/libopt.c:_check_attr", "src/lib/libopt.c:_validate_name", "src/lib/libopt.c:_validate_longopt"]}
{"id": "C101", "title": "Callbacks of attributes are attached and called", "statement": "dax_attr_callback attaches a callback to the named attribute or reports that there is none; dax_configure calls the callback of an attribute exactly once for each setting on the command line and each value taken from the file, in order.", "quantifier": "every list of attributes and every command line", "why_tests_cant": "The failing case needs an attribute that is not the first in the list, and it hangs rather than fails.", "anchors": ["src/lib/libopt.c:dax_attr_callback", "src/lib/libopt.c:_set_attr", "src/lib/libopt.c:_parse_commandline"]}
{"id": "C102", "title": "The configuration file that is read", "statement": "dax_configure reads the file given by the attribute config, or else <directory>/<module>.conf, once; the value of config stays readable afterwards.", "quantifier": "every list of attributes and every command line", "why_tests_cant": "Freed memory usually still holds its contents, so that a test sees the right string.", "anchors": ["src/lib/libopt.c:_mod_config_file", "src/lib/libopt.c:_get_attr", "src/lib/libopt.c:dax_configure"]}
{"id": "C103", "title": "The name a module registers under", "statement": "A module registers under the name given on the command line, else in the file, else the name passed to dax_init.", "quantifier": "every list of attributes, command line and file", "why_tests_cant": "The combination of sources is unbounded.", "anchors": ["src/lib/libopt.c:dax_configure", "src/lib/libmsg.c:dax_connect", "src/lib/libinit.c:dax_init"]}
{"id": "C104", "title": "The time limit of requests is always sensible", "statement": "After dax_configure the time limit for answers is between 500 and 30000 ms; it is the configured number if that is within these limits and 1000 otherwise.", "quantifier": "every list of attributes, command line and file", "why_tests_cant": "All texts, including those that are no numbers or overflow, must be considered.", "anchors": ["src/lib/libopt.c:_verify_config"]}
{"id": "C105", "title": "Every command line is handled", "statement": "dax_configure handles every command line without undefined behaviour: it reads no uninitialised memory and passes no null pointer to strcasecmp or strdup.", "quantifier": "every list of attributes, every argument vector, every contents of fresh memory", "why_tests_cant": "The tables handed to getopt_long are one element short of a terminator; fresh memory is often zero in tests.", "anchors": ["src/lib/libopt.c:_parse_commandline"]}
{"id": "C106", "title": "The configuration file sets only what it may", "statement": "A configuration file sets exactly the attributes that are marked for it, to the values it gives them; all others keep their values.", "quantifier": "every list of attributes and all contents of the file", "why_tests_cant": "The file may assign any set of globals with any types.", "anchors": ["src/lib/libopt.c:_get_lua_globals"]}
{"id": "C107", "title": "Setting and reading an attribute", "statement": "dax_set_attr followed by dax_get_attr gives the value set and changes no other attribute; a null value stands for the default.", "quantifier": "every list of attributes, names and values", "why_tests_cant": "Double frees and frees of literals need not show in a test.", "anchors": ["src/lib/libopt.c:dax_set_attr", "src/lib/libopt.c:dax_get_attr"]}
{"id": "C108", "title": "Command line before file before default in the server", "statement": "The socket name, address, port, excluded names, log topics and minimum number of buffers of the server come from the command line, else from the configuration file, else from the defaults; the server listens on the port that is configured.", "quantifier": "every command line made of the server's options, every outcome of the file", "why_tests_cant": "The sources combine with all values; a zero stands for both not set and set to zero.", "anchors": ["src/server/options.c:opt_configure", "src/server/options.c:parsecommandline", "src/server/options.c:readconfigfile", "src/server/options.c:setdefaults", "src/server/message.c:msg_setup"]}
{"id": "C109", "title": "Transfers while other clients use the server", "statement": "dax_tag_read returns the contents the range had at one moment during the call, and dax_tag_write replaces the range in one step: whatever other clients send in the meantime, no one sees a mixture of old and new data, and after two concurrent writes the range holds the data of one of them.", "quantifier": "every reachable server, every handle of a type other than BOOL, every list of requests that other clients get served between the requests of the call", "why_tests_cant": "The outcome depends on which requests of others fall between two requests of one call; a test cannot place them all.", "anchors": ["src/lib/libdata.c:dax_tag_read", "src/lib/libdata.c:dax_tag_write", "src/lib/libmsg.c:dax_read", "src/lib/libmsg.c:dax_write", "src/server/message.c:msg_receive"]}
{"id": "C110", "title": "Requests of a Modbus TCP master go to their device", "statement": "Every request of a Modbus TCP master is written to an open connection to the address and port of its command, the master closes no descriptor but its own connections, it uses one connection for each device, and its pool of connections never overflows.", "quantifier": "every configuration of a TCP master, every sequence of commands from the scan and from callbacks, of pauses, of connections accepted, refused or dropped, and of descriptors opened and closed by the rest of the process", "why_tests_cant": "Descriptor numbers are reused by the kernel, so a wrong number shows only for particular orders of opening and closing in different parts of the process.", "anchors": ["src/modules/modbus/modbus.c:mb_send_command", "src/modules/modbus/mbports.c:mb_get_connection", "src/modules/modbus/mbports.c:_get_unused_connection", "src/modules/modbus/mbports.c:mb_close_port"]}
{"id": "C111", "title": "A Modbus TCP master recovers from connection failures", "statement": "If a device drops its connection or refuses one, the master gets answers again once the device accepts connections, and failed attempts leave no descriptors behind.", "quantifier": "every history before the failure and every continuation after it", "why_tests_cant": "\"Never again\" is a statement about all continuations; a test observes one of finite length.", "anchors": ["src/modules/modbus/modbus.c:mb_send_command", "src/modules/modbus/mbports.c:openIPport", "src/modules/modbus/mbports.c:mb_get_connection"]}
{"id": "C112", "title": "Retries of a Modbus command", "statement": "A command is sent at most retries + 1 times, again only if no valid message was received, and not after the first one; the counters of the command account for every request as answered, timed out, damaged or not written.", "quantifier": "every port, command and sequence of results of write and read", "why_tests_cant": "The number of rounds and the result of each are combined; the counters wrap.", "anchors": ["src/modules/modbus/modbus.c:mb_send_command"]}
{"id": "C113", "title": "Intervals of Modbus commands", "statement": "In each scan of a TCP master a continuous command is called exactly if the port and the command are enabled and the number of scans with both enabled is a multiple of the interval (0 counts as 1), in the order of the configuration, whatever happened to other commands or earlier requests.", "quantifier": "every list of commands, every history of enabling and disabling, of answers, failures and pauses", "why_tests_cant": "The history is unbounded.", "anchors": ["src/modules/modbus/modbus.c:client_loop", "src/modules/modbus/modmain.c:_enable_callback"]}
{"id": "C114", "title": "A serial Modbus master that gets no answers", "statement": "A serial master closes its port after maxattempts commands in a row without an answer and only then, opens it again after the inhibit time, and then has the full number of attempts; it writes only to its serial line and closes nothing else.", "quantifier": "every history of scans, answers and results of open", "why_tests_cant": "The fault shows only after a series of failures, and then in descriptors of other parts of the process.", "anchors": ["src/modules/modbus/modbus.c:master_loop", "src/modules/modbus/mbports.c:mb_close_port", "src/modules/modbus/mbports.c:mb_open_port"]}
{"id": "C115", "title": "Each Modbus port uses the functions of its own protocol", "statement": "Whenever mb_send_command builds a request or reads an answer for a port, it calls the functions of that port's protocol, whatever other ports are doing at the same time.", "quantifier": "every number of threads, every assignment of protocols to them, every interleaving", "why_tests_cant": "The function pointers are static variables shared by all threads: a wrong call needs two ports with different protocols and an unlucky interleaving.", "anchors": ["src/modules/modbus/modbus.c:mb_send_command"]}
{"id": "C116", "title": "Events of Modbus commands are set up once their tags exist", "statement": "Every event that a command asks for is added exactly once, as soon as its tag exists, even if the tag is created after the module started.", "quantifier": "every configuration of ports and commands, every order in which tags appear", "why_tests_cant": "The fault depends on which tag appears in which second, in relation to the order of the configuration.", "anchors": ["src/modules/modbus/modmain.c:_setup_master_events", "src/modules/modbus/modmain.c:main"]}
{"id": "C117", "title": "Enable bits of a Modbus master port", "statement": "The tag with the enable bits is first written with the settings of the configuration, and after a change each command is enabled if and only if its bit is set; every port with a command tag gets a tag of the type mb_command.", "quantifier": "every number of commands, every pattern of bits, every content of the uninitialised buffer; every number of ports", "why_tests_cant": "All combinations of bits and of junk in malloc'ed memory.", "anchors": ["src/modules/modbus/modmain.c:_enable_callback", "src/modules/modbus/modmain.c:_add_enable_tag", "src/modules/modbus/modmain.c:_add_async_command_tag"]}
{"id": "C118", "title": "Threads of the Modbus ports start and keep running", "statement": "Every port that can be opened is served once the module runs, and a port that could not be opened, or whose loop ended because of an error, is served again as soon as it can be opened.", "quantifier": "every configuration, every interleaving of the threads, every sequence of failures", "why_tests_cant": "\"Never again\" is a statement about all continuations, and the barrier depends on the number of threads that reach it.", "anchors": ["src/modules/modbus/modbus.c:mb_run_port", "src/modules/modbus/mbserver.c:server_loop", "src/modules/modbus/modmain.c:main"]}
{"id": "C119", "title": "Commands written to the command tag of a Modbus port", "statement": "A command written to the tag of a port is sent as the protocol wants it, with the data of the tag, its outcome is reported in the response member, and no content of the tag makes the module use memory it should not.", "quantifier": "every content of the tag, every answer of the device, every state of the connection", "why_tests_cant": "The tag can hold 2^120 commands; the faults need particular lengths, or a failure after a success.", "anchors": ["src/modules/modbus/modmain.c:_async_command_callback", "src/modules/modbus/modmain.c:_add_async_command_tag", "src/modules/modbus/modbus.c:mb_send_command"]}
{"id": "C120", "title": "Settings of a Modbus port are used as configured", "statement": "Baud rate, data bits, parity and stop bits, the timeout, the number of retries and the address to bind are used as the configuration gives them.", "quantifier": "every configuration", "why_tests_cant": "The wrong values are silent: the port opens and works with default settings.", "anchors": ["src/modules/modbus/mbports.c:mb_set_serial_port", "src/modules/modbus/mbports.c:mb_set_network_port", "src/modules/modbus/modopt.c:_add_port"]}
{"id": "C121", "title": "The Modbus module gives up its privileges", "statement": "If user and group are configured, the module goes on only with that user and group, and it can do so when started as root.", "quantifier": "every user and group database, all credentials at the start", "why_tests_cant": "Needs root and an account database; the wrong order of setuid and setgid only fails for users other than root.", "anchors": ["src/modules/modbus/modmain.c:_demote_wait"]}
{"id": "C122", "title": "Connections of the Modbus TCP server are kept apart", "statement": "The data waiting for a connection are what it sent since it was accepted or last answered, nothing of other or earlier connections; select watches exactly the open connections; closed ones leave nothing behind.", "quantifier": "every sequence of connections, data, answers, pauses and ends", "why_tests_cant": "Descriptor numbers are reused, and the list of buffers is never shortened.", "anchors": ["src/modules/modbus/mbserver.c:_add_connection", "src/modules/modbus/mbserver.c:_del_connection", "src/modules/modbus/mbserver.c:_mb_read", "src/modules/modbus/mbserver.c:_clear_buffers"]}
{"id": "C123", "title": "An override requested through a handle covers exactly the bits of the handle", "statement": "After dax_tag_add_override and dax_tag_set_override succeed for a handle, every reader sees the caller's data in exactly the bits the handle stands for and the stored data in all others; dax_tag_clr_override and dax_tag_del_override address the same bits.", "quantifier": "for all reachable server states, tags, handles (byte data and bit slices) and data", "why_tests_cant": "The library shifts and masks the data itself; a test would have to try every bit offset, bit count and size, including those near the size of the message.", "anchors": ["src/lib/libmsg.c:831-1072", "src/server/tagbase.c: override_add/override_set/override_del"]}
{"id": "C124", "title": "Reading an override gives the data and the mask of the addressed bits", "statement": "dax_tag_get_override returns the stored data and the override mask of the data the handle stands for, or an error.", "quantifier": "for all reachable server states, tags and handles", "why_tests_cant": "Needs tags with and without override, and handles of any offset and size.", "anchors": ["src/lib/libmsg.c: dax_tag_get_override", "src/server/tagbase.c: override_get", "src/server/message.c: msg_get_override"]}
{"id": "C125", "title": "A Lua script reads back the value it wrote", "statement": "If tag_write(tag, v) succeeds in a script, a later tag_read of the same tag returns v, whatever memory malloc returned to either call, and no other tag changes.", "quantifier": "for all reachable server states, tags, types (elementary, compound, BOOL slices), values and contents of the allocated buffers", "why_tests_cant": "The result depends on uninitialised memory, which is zero in most test runs; sizes above one message and every bit offset would have to be tried.", "anchors": ["src/lib/lua/libdaxlua.c:38-473", "src/lib/lua/libdaxlua.c:726-845", "src/lib/libdata.c", "src/server/tagbase.c"]}
{"id": "C126", "title": "A partial table changes only what it names", "statement": "If a script writes a table that names only some members or elements of a tag, the other members and elements keep their bits, whatever memory malloc returned.", "quantifier": "for all reachable server states, tags, handles, types, tables and contents of the allocated buffer", "why_tests_cant": "The mask that protects the other members is built by one function and applied by two others on different paths; the failing path needs particular memory contents.", "anchors": ["src/lib/lua/libdaxlua.c:215-473", "src/lib/lua/libdaxlua.c:798-845", "src/lib/libdata.c: dax_tag_mask"]}
{"id": "C127", "title": "Overrides and atomic operations of a script use exactly the value given", "statement": "override_add and atomic_op send the bytes of the value; members and elements that the value does not name take no part.", "quantifier": "for all reachable server states, handles, types, values and contents of the allocated buffer", "why_tests_cant": "Depends on uninitialised memory.", "anchors": ["src/lib/lua/libdaxlua.c:1116-1170", "src/lib/lua/libdaxlua.c:1287-1343", "src/lib/libmsg.c:1091-1139"]}
{"id": "C128", "title": "tag_del of a script deletes the tag it names or raises an error", "statement": "After tag_del(x) either the tag that x names is gone and all others are kept, or nothing changed and the script got an error.", "quantifier": "for all reachable server states and arguments", "why_tests_cant": "For an unknown name the index is uninitialised stack memory.", "anchors": ["src/lib/lua/libdaxlua.c:848-885", "src/lib/libmsg.c:566-660"]}
{"id": "C129", "title": "Globals of a script follow their tags", "statement": "Before a script runs, the variable of each READ global holds the value of its tag, each static variable its configured value, and _firstrun tells whether it is the first run; after the run the tag of each WRITE global holds the value of its variable, and no other tag has changed.", "quantifier": "for all reachable server states, lists of globals, modes, types, values and contents of fresh memory", "why_tests_cant": "One refused write silently drops all the globals behind it in the list; tests use one or two globals that never fail.", "anchors": ["src/modules/daxlua/scripts.c:87-228", "src/modules/daxlua/luaif.c:34-112"]}
{"id": "C130", "title": "A script runs exactly when it is enabled and has not failed", "statement": "A script that is disabled does not run until it is enabled; one that failed never runs again; the last request to enable or disable it counts; executions counts the completed runs; a run leaves nothing behind in the Lua state.", "quantifier": "for all interleavings of worker threads, main thread, commands of other scripts, triggers and writes to the script tag", "why_tests_cant": "Races between two workers, and between a worker and the main thread, need particular interleavings.", "anchors": ["src/modules/daxlua/scripts.c:230-299", "src/modules/daxlua/scripts.c:406-465", "src/modules/daxlua/threads.c"]}
{"id": "C131", "title": "The tag of a script shows its state and switches it", "statement": "The tag shows name, enabled, failed and executions; writing its enable bit enables or disables the script once, after which the tag shows the state again and all is quiet.", "quantifier": "for all states of the script and interleavings of runs, writes and event messages", "why_tests_cant": "The feedback through the event of the module itself is unstable only if two messages wait at the same time.", "anchors": ["src/modules/daxlua/scripts.c:526-587", "src/modules/daxlua/scripts.c:623-640"]}
{"id": "C132", "title": "Script names and numbers lead to each other", "statement": "get_script_id and get_script_name are inverse to each other; enable_script and disable_script act on the script named or numbered, or on none.", "quantifier": "for all lists of scripts and all Lua arguments", "why_tests_cant": "Negative and very large numbers are not tried; the result depends on memory before the array.", "anchors": ["src/modules/daxlua/scripts.c:365-465"]}
{"id": "C133", "title": "The configuration of a script is stored as written", "statement": "A table given to add_script adds one script with the entries of the table and documented defaults, or raises an error and adds nothing; names stay unique.", "quantifier": "for all tables and sequences of calls of add_script", "why_tests_cant": "Missing entries and refused tables have many combinations; tests configure complete tables.", "anchors": ["src/modules/daxlua/luaopt.c:35-218", "src/lib/libevent.c:34-55", "doc/manual/daxlua.asciidoc:126-170"]}
{"id": "C134", "title": "An interval thread runs its scripts once per interval", "statement": "A thread runs exactly the scripts that name it, in the order they were added; the time between the starts of two rounds is the interval whenever the scripts take less.", "quantifier": "for all configurations, intervals, start and end times", "why_tests_cant": "The error of the period depends on the nanoseconds of both times; tests do not measure it.", "anchors": ["src/modules/daxlua/threads.c:119-203"]}
{"id": "C135", "title": "Every trigger of a script gets its event exactly once", "statement": "The start-up loop creates one event for each trigger, retries what failed and ends only when all exist.", "quantifier": "for all lists of triggers and all answers of the server in each round", "why_tests_cant": "A refusal of the event after a successful lookup has to happen at a particular moment.", "anchors": ["src/modules/daxlua/threads.c:392-466"]}
{"id": "C136", "title": "A module sets its running and faulted flags", "statement": "dax_set_running and dax_set_faulted, called by a module that has a status tag, succeed; the flag of this module takes the wanted value (any non-zero value means set) and nothing else in the server changes.", "quantifier": "for all reachable server states with a status tag of the module that has no mapping, all values, all caches of the client and all contents of its uninitialised buffers", "why_tests_cant": "The functions find the bit through two look-ups by name and a masked write; tests set the flag of one module in an otherwise idle server.", "anchors": ["src/lib/libutil.c:40-71", "src/lib/libutil.c:109-141"]}
{"id": "C137", "title": "The status text of a module", "statement": "dax_set_status succeeds; the first 64 characters of the text, filled up with zeros, are in the status member and nothing else changes. A text of up to 63 characters reads back as the same string; a longer one is stored without a terminator.", "quantifier": "for all reachable server states with a status tag of the module that has no mapping, and all texts", "why_tests_cant": "The lengths 63, 64 and 65 are the interesting ones; tests use short texts.", "anchors": ["src/lib/libutil.c:73-107"]}
{"id": "C138", "title": "The default reaction to run, stop and kill", "statement": "The default run (stop) action clears the run (stop) bit of the module and sets (clears) its running flag; the default kill action clears the kill bit; nothing else in the server changes.", "quantifier": "for all reachable server states with a status tag of the module that has no mapping", "why_tests_cant": "A command bit left set would make every later command of this kind silent; tests give each command once.", "anchors": ["src/lib/libutil.c:143-232"]}
{"id": "C139", "title": "A module is told of run, stop and kill commands", "statement": "A successful dax_set_run/stop/kill_callback registers an event which watches exactly the command bit of this module. From then on every write by anybody that covers the bit and leaves it set tells the module once if the bit was not set when the event last looked, and does not tell it otherwise.", "quantifier": "for all reachable server states, all writes and masked writes of other modules, without mappings on the status tag", "why_tests_cant": "The answer depends on the history of the bit, not on its value only.", "anchors": ["src/lib/libutil.c:235-338", "src/server/events.c"]}
{"id": "C140", "title": "A module finds its own status tag", "statement": "The name of the own status tag is read and extended within the buffers, and the handle found is the one of the named member; a module without a status tag gets \"not found\" and nothing changes. No request of any client ever changes _my_tagname, so a client that asks the server believes what this needs.", "quantifier": "for all reachable server states, all clients and all sequences of requests (for a first state that has _my_tagname as start-up makes it)", "why_tests_cant": "The buffer is exactly as long as the tag; whether some request can make the tag longer is a question about all requests.", "anchors": ["src/lib/libutil.c:40-338", "src/server/virtualtag.c:61-74", "src/server/module.c:225-289"]}
{"id": "C141", "title": "A log message goes to the services that take its topic", "statement": "Without configured services a message is printed exactly if its topic is in the default mask. With services, each one whose mask has the topic gets the message once, in the order of configuration, cut to 255 characters; the others get nothing. No message has undefined behaviour.", "quantifier": "for all loggers, service lists, topics and messages", "why_tests_cant": "There are 2^32 topic masks and up to 32 services; tests look at one service.", "anchors": ["src/lib/logger/daxlog.c:84-118", "src/lib/logger/daxlog.c:291-312"]}
{"id": "C142", "title": "The mask of a list of topic names", "statement": "dax_parse_log_topics sets a bit exactly if one of the parts between the commas is ALL or the name of this topic. The name under which a topic is printed is the name under which it can be asked for.", "quantifier": "for all strings and all 32 bits", "why_tests_cant": "Empty parts, unknown names and repetitions in any order; tests parse a few lists.", "anchors": ["src/lib/logger/daxlog.c:40-76", "src/lib/logger/daxlog.c:230-264"]}
{"id": "C143", "title": "Log services of a configuration file", "statement": "A complete entry adds one service with the topics, kind and priority of the entry; every other entry is refused with an error and changes nothing. After a file with at most 32 complete entries a message reaches exactly the services whose entry asks for its topic.", "quantifier": "for all configuration files, topics and messages", "why_tests_cant": "The claim is about whole files; tests use one or two entries.", "anchors": ["src/lib/logger/daxlog.c:92-202"]}
{"id": "C144", "title": "A module that asks for a new type gets exactly that type", "statement": "dax_cdt_new, dax_cdt_member for each member and dax_cdt_create succeed for a free name, at least one member, different member names, existing types and positive counts, if the description fits one message. The server then has one type more, with exactly these members in this order, no tag changes, and the client library knows the type completely.", "quantifier": "for all reachable servers, type caches that agree with it, names and member lists", "why_tests_cant": "The description is written as text by the library and read back by two parsers; tests make a few types.", "anchors": ["src/lib/libcdt.c:252-329", "src/lib/libmsg.c:1333-1397", "src/server/tagbase.c"]}
{"id": "C145", "title": "A script that asks for a new type gets exactly that type", "statement": "cdt_create of the Lua library makes the type whose members the table lists, where type names can be written in any mix of upper and lower case; a table it cannot use ends in a Lua error.", "quantifier": "for all reachable servers, type caches that agree with it, names and tables", "why_tests_cant": "Lua tables can have any shape; tests use complete ones.", "anchors": ["src/lib/lua/libdaxlua.c:562-618", "src/lib/libcdt.c:363-408"]}
{"id": "C146", "title": "An event that a script adds is the event on the server", "statement": "If event_add of the Lua library returns, the server has one event more on the tag: of the kind named (in any case), at the place and type of the handle, owned by the module, with the script's number as reference value. An unknown kind ends in a Lua error and changes nothing.", "quantifier": "for all reachable servers, script states, handles, kinds, numbers, functions and data", "why_tests_cant": "The number is converted into a static union of which the size of the type is sent; leftovers show only after other calls.", "anchors": ["src/lib/lua/libdaxlua.c:898-1049", "src/lib/libmsg.c:1163-1222", "src/server/events.c"]}
{"id": "C147", "title": "An arriving event calls the function the script gave, with the data the script gave", "statement": "After any sequence of event_add and event_del calls, successful or not, an event that arrives calls exactly the function given for it with the data given for it, or nothing if the script has no such event.", "quantifier": "for all histories of additions, failures and removals, and all event messages", "why_tests_cant": "Function and data are kept behind two integers in a structure behind a third; tests register few events.", "anchors": ["src/lib/lua/libdaxlua.c:883-1069", "src/lib/libevent.c:40-178"]}
{"id": "C148", "title": "What a script logs is written as it is", "statement": "log of the Lua library writes the text of the script, cut to the size of a message, to exactly the services that take one of the topics, and never does anything undefined.", "quantifier": "for all loggers, topics and texts", "why_tests_cant": "Texts with percent signs come from data at run time.", "anchors": ["src/lib/lua/libdaxlua.c:1477-1500", "src/lib/logger/daxlog.c:291-312"]}
{"id": "C149", "title": "Mappings that clients add, look up and delete", "statement": "After dax_map_add (or map_add of a script) succeeded with an id, dax_map_get with that id returns the two handles given, also over another connection; an id that is not in use is an error; dax_map_del removes that mapping and leaves all others.", "quantifier": "for all reachable servers, handles, ids and connections, and whatever the answer buffer held before", "why_tests_cant": "The handles travel as 21 packed bytes twice over two protocols; ids of older mappings come into play only after deletions.", "anchors": ["src/lib/libmsg.c:1575-1700", "src/lib/libdata.c:695-726", "src/lib/lua/libdaxlua.c:1172-1284", "src/server/mapping.c"]}
{"id": "C150", "title": "Groups of clients read and write their members", "statement": "dax_group_add gives a group whose size is the sum of the sizes of its members; dax_group_read returns the values that dax_tag_read returns for the members, one after another, in a buffer of the size of the group; dax_group_write stores what dax_tag_write for each member stores; dax_group_del removes that group only.", "quantifier": "for all reachable servers, groups, buffers and data", "why_tests_cant": "Small groups and single bits are the cases that no test has.", "anchors": ["src/lib/libmsg.c:1471-1574", "src/lib/libmsg.c:1700-1822", "src/server/groups.c"]}
{"id": "C151", "title": "The command line client splits a line into its words", "statement": "Words are separated by single spaces and a part in double quotes stays together; the words joined by spaces are the line again, and splitting a line never leaves its buffers.", "quantifier": "for all lines", "why_tests_cant": "The array overrun is hidden by the rounding of malloc, and quotes inside words are not tested.", "anchors": ["src/modules/daxc/daxc.c:43-80"]}
{"id": "C152", "title": "The command line client runs the command that was typed", "statement": "Each command, in upper or lower case, runs its function with the rest of the words; a comment or an empty line runs nothing; any other word is reported as an error.", "quantifier": "for all lines", "why_tests_cant": "Commands are compared by prefixes of different lengths; a test of every wrong word is not possible.", "anchors": ["src/modules/daxc/daxc.c:82-375"]}
{"id": "C153", "title": "A file of commands is run line by line", "statement": "Every line of a command file is run exactly once and in order, whatever the length of the lines and however the file ends.", "quantifier": "for all files", "why_tests_cant": "Depends on the end of the file and on the lengths of the lines.", "anchors": ["src/modules/daxc/daxc.c:377-397"]}
{"id": "C154", "title": "WRITE of the command line client stores the values given", "statement": "WRITE stores the values from the place named on, moved into the range of the type, leaves the elements whose value is ~ and everything else in the tag unchanged; a text in quotes fills the tag.", "quantifier": "for all reachable servers, tags, and lists of values", "why_tests_cant": "Values, masks and types combine without limit.", "anchors": ["src/modules/daxc/daxc_tag.c:410-490", "src/modules/daxc/daxc.h"]}
{"id": "C155", "title": "OP of the command line client performs the operation named", "statement": "OP sends the operation that its word names, with the values given as operands; INC and DEC without a value add or subtract one.", "quantifier": "for all tags, operations and values", "why_tests_cant": "No test covers every operation with every type.", "anchors": ["src/modules/daxc/daxc_tag.c:792-915"]}
{"id": "C156", "title": "Deleting tags and overrides from the command line", "statement": "DEL TAG deletes the tag named and no other and reports an unknown tag; ADD, SET and CLEAR OVERRIDE make the values given be read in place of the tag and end that again; a tag that does not exist is reported by all of them.", "quantifier": "for all reachable servers, names and values", "why_tests_cant": "What happens for a wrong name depends on memory that was never set.", "anchors": ["src/modules/daxc/daxc_tag.c:126-157", "src/modules/daxc/daxc_tag.c:609-790"]}
{"id": "C157", "title": "LIST TAGS shows every tag", "statement": "LIST TAGS prints every tag of the server once, in the order of the indices, with its type, count and attributes; typing LIST TAGS with a count again and again shows all tags page by page.", "quantifier": "for all reachable servers, page sizes and numbers of pages", "why_tests_cant": "Whether a tag is skipped depends on the number of tags, the deleted ones and the size of the page.", "anchors": ["src/modules/daxc/daxc_tag.c:28-45", "src/modules/daxc/daxc_tag.c:161-258", "src/lib/libmsg.c:625-660"]}
{"id": "C158", "title": "ADD TAG makes the tag that was described", "statement": "ADD TAG makes a tag with the name, type, count and attributes given, or reports an error and changes no tag.", "quantifier": "for all reachable servers, names, types, counts and attributes", "why_tests_cant": "Names and words are arbitrary texts; the buffer overrun is silent.", "anchors": ["src/modules/daxc/daxc_tag.c:47-124", "src/lib/libmsg.c:466-525"]}
{"id": "C159", "title": "ADD EVENT makes the event that was described", "statement": "ADD EVENT leaves one new event of this client at the tag named, of the kind named, for the elements named and with the number given as its reference value; a word that names no kind and a number outside the range of the type are refused.", "quantifier": "for all reachable servers, tags, kinds and numbers", "why_tests_cant": "Tags, kinds and numbers combine without limit; stack contents are not visible to a test.", "anchors": ["src/modules/daxc/daxc_event.c:51-146", "src/lib/libevent.c:34-55", "src/lib/libmsg.c:1162-1222"]}
{"id": "C160", "title": "Events of the command line client keep their numbers", "statement": "The n-th event added gets number n; whenever the server tells of it, n is printed, whatever other events were added and deleted in between; DEL EVENT n takes exactly this event back, after which nothing is printed for it and its place can be used again; other numbers are reported as errors.", "quantifier": "for all sessions of the client with any activity of other clients in between", "why_tests_cant": "It is a statement about all orders of adding, deleting and receiving.", "anchors": ["src/modules/daxc/daxc_event.c:22-48", "src/modules/daxc/daxc_event.c:96-163", "src/lib/libevent.c:91-178"]}
{"id": "C161", "title": "READ of the command line client prints what is stored", "statement": "READ prints the elements asked for, one line each, as the decimal numbers that are stored (1 and 0 for bits), the characters of a CHAR tag as one text; after a WRITE these are the numbers written, moved into the range of the type; a name that cannot be resolved prints nothing.", "quantifier": "for all reachable servers, tags of all integer types, BOOL and CHAR, all places, counts and contents", "why_tests_cant": "Contents, places and counts combine without limit.", "anchors": ["src/modules/daxc/daxc_tag.c:319-387", "src/lib/libfunc.c:45-109", "src/lib/libdata.c:353-409"]}
{"id": "C162", "title": "ADD TYPE makes the type that was described", "statement": "ADD TYPE makes a type with exactly the members described, in their order, on the server and in the library, and reports success; a description with a member that cannot be made, or that the server refuses, makes no type and is reported as an error.", "quantifier": "for all reachable servers and all descriptions", "why_tests_cant": "Descriptions are of any length, and every member can fail in its own way.", "anchors": ["src/modules/daxc/daxc_tag.c:493-530", "src/lib/libcdt.c:263-329", "src/lib/libmsg.c:1335-1410"]}
{"id": "C163", "title": "ADD MAP makes the mapping that was described", "statement": "ADD MAP makes a mapping from the elements named first to the elements named second; counts that are not positive, tags that cannot be found and mappings that the server refuses are reported as errors.", "quantifier": "for all reachable servers, tags and counts", "why_tests_cant": "Tags, places and counts combine without limit.", "anchors": ["src/modules/daxc/daxc_tag.c:560-599", "src/lib/libmsg.c:1471-1522"]}
{"id": "C164", "title": "LIST TYPES of the command line client", "statement": "LIST TYPES prints the names of all compound types in the order of their creation. With the name of a compound type it prints one line for each member: its name in a column of 32, the name of its type and its count in brackets; with a base type nothing; with any other name an error.", "quantifier": "for all reachable servers, type caches that agree with the server, and names", "why_tests_cant": "Needs every set of types, nesting and cache state; a name that is asked for twice is needed to see the worst failure.", "anchors": ["src/modules/daxc/daxc_tag.c:532-558 list_types", "src/lib/libcdt.c:779-838 dax_cdt_iter", "src/lib/libcdt.c:157-180 get_cdt_pointer"]}
{"id": "C165", "title": "Going through the members of a type", "statement": "dax_cdt_iter calls back once for each member, in order, with its name, type, count and the byte and bit at which the layout of the type (C37) puts it, whatever the callback does to the cache; with type 0 it calls back once for each compound type of the server.", "quantifier": "for all reachable servers, types that have a layout, type caches that agree with the server, and callbacks that keep this agreement", "why_tests_cant": "The place depends on all members before; all sequences of bits and bytes are covered.", "anchors": ["src/lib/libcdt.c:779-838 dax_cdt_iter", "src/lib/libcdt.c:157-180 get_cdt_pointer"]}
{"id": "C166", "title": "READ of compound tags", "statement": "READ of a compound tag prints, for each element, each member with all its values as they are stored; members of members are indented below it.", "quantifier": "for all reachable servers, types, nesting, data and type caches that agree with the server", "why_tests_cant": "Needs every nesting of types and all data; arrays of compound members are easily left out.", "anchors": ["src/modules/daxc/daxc_tag.c:260-313 _read_cdt_callback", "src/modules/daxc/daxc_tag.c:319-387 tag_read"]}
{"id": "C167", "title": "The name of a handle leads back to the handle", "statement": "dax_fqn gives, for every handle that dax_tag_handle can give, a name from which dax_tag_handle (with the count of the handle) gives the same handle: tags and their elements, bits of elements, and members of members down to any depth.", "quantifier": "for all reachable servers, type caches that agree with the server, tags, types, paths of any length, indices and counts", "why_tests_cant": "Needs every nesting of types, every position of bits between members and every index; the test that exists compares names for a fixed list of handles.", "anchors": ["src/lib/libcdt.c:886-918 _fqn_callback", "src/lib/libcdt.c:920-960 _fqn_cdt_member", "src/lib/libcdt.c:974-1028 dax_fqn", "src/lib/libcdt.c:663-758 dax_tag_handle"]}
{"id": "C168", "title": "The number of members of a type", "statement": "dax_cdt_member_count gives the number of members that the server has for a compound type, whether or not the type is in the cache; for a compound type that does not exist an error; for a base type 0.", "quantifier": "for all reachable servers, compound types, and type caches that agree with the server", "why_tests_cant": "Needs every state of cache and server.", "anchors": ["src/lib/libcdt.c:852-869 dax_cdt_member_count", "src/lib/libcdt.c:157-180 get_cdt_pointer"]}
{"id": "C169", "title": "Only a file of root is run with the rights of root", "statement": "When the master runs set-user-ID root for another user, the configuration file it executes is owned by root (user and group) and can be written by nobody but root; otherwise, and when the file cannot be loaded, raises an error or passes something else than a table to add_process, nothing is configured and the master exits.", "quantifier": "for all command lines, real and effective user ids, files, and states of the file system at each look at the name", "why_tests_cant": "The check depends on file ownership and on what happens between two system calls; a test would have to run set-user-ID root and win a race.", "anchors": ["src/master/mstr_config.c:235-273", "src/master/mstr_config.c:275-312", "src/master/master.c:64-68"]}
{"id": "C170", "title": "Command line before file before default in the master", "statement": "The file for the process id and whether the master goes to the background are what the command line says, else what the configuration file says, else the defaults; each setting has an option of its name.", "quantifier": "for all command lines, configuration files and their globals", "why_tests_cant": "Tests start the master with one or two fixed command lines; the order of precedence must hold for every combination and repetition of options.", "anchors": ["src/master/mstr_config.c:27-95", "src/master/mstr_config.c:313-388", "src/master/mstr_config.h:29-37"]}
{"id": "C171", "title": "The processes of the configuration file", "statement": "The master has one process for each call of add_process, in order, each with the name, path, arguments, user, group, limits and restart flag of its table and the documented defaults; any problem with an entry is fatal; what the master keeps of an entry stays valid.", "quantifier": "for all configuration files, tables of any field values, and user and group databases", "why_tests_cant": "Field values come from a dynamically typed language; only a few type combinations can be tried, and a read of freed memory usually goes unnoticed.", "anchors": ["src/master/mstr_config.c:138-233", "src/master/process.c:115-160", "src/master/process.c:517-546", "src/master/master.c:64-75"]}
{"id": "C172", "title": "The log files of the historical logger lose nothing", "statement": "Whatever is recorded and however often the files are rotated, after a flush every record is one line of one log file, in the order of the records, and the log files hold nothing else besides what they held before; a rotation goes on in a new file named after its time; each line tells tag, time and value; the plugin never does anything undefined.", "quantifier": "for all sequences of records, rotation requests and flushes, directories, earlier contents of the disk, and values of every type", "why_tests_cant": "There is no test of the plugin, and one would look at a few runs with a few values; loss at a rotation, files that cannot be opened and values that break the format need arbitrary sequences and contents.", "anchors": ["src/modules/histlog/plugins/file/dhl_file.c:37-90", "src/modules/histlog/plugins/file/dhl_file.c:114-158"]}
{"id": "C173", "title": "The master in the background", "statement": "When the master is told to go to the background it becomes a daemon: in a new session of which it is not the leader, without controlling terminal, in the root directory, with nothing open but the three standard descriptors on /dev/null; its process id is in the configured file while it runs; if it cannot become a daemon it does not go on.", "quantifier": "for all process ids, groups, sessions, tables of open files, files on the disk, and failures of the system calls", "why_tests_cant": "It forks twice and closes everything including the channels of a test; failures of fork and open cannot be provoked.", "anchors": ["src/master/daemon.c:32-109", "src/master/master.c:70-72", "src/master/mstr_config.c:384-388"]}
{"id": "C174", "title": "The delay between the starts of processes", "statement": "process_start_all starts each process exactly the configured delays of the processes before it after the first, however many signals (such as the end of a process just started) interrupt the sleep; the time passed to nanosleep is always valid.", "quantifier": "for all lists of processes, delays, and sequences of interruptions of each sleep", "why_tests_cant": "A test would need signals at chosen moments inside a sleep, and stale values of errno.", "anchors": ["src/master/process.c:208-238"]}
