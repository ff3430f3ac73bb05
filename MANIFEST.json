{
 "claims": [
  {
   "property": "C01",
   "status": "proved",
   "theorems": [
    "C01_lookup_live",
    "C01_lookup_absent",
    "C01_unique_names",
    "C01_quiet",
    "C01_add",
    "C01_del",
    "C01_disconnect",
    "C01_register",
    "C01_history_keep",
    "C01_history_origin"
   ],
   "note": "All reachable states, all requests, all environments."
  },
  {
   "property": "C02",
   "status": "partial",
   "theorems": [
    "C02_index_permanent",
    "C02_gone_forever",
    "C02_new_tag_new_index",
    "C02_refuted_gone_accepts"
   ],
   "note": "REFUTED in part: indices are permanent and never reused (proved), but write events and mappings can still be registered on a deleted index (C02_refuted_gone_accepts)."
  },
  {
   "property": "C03",
   "status": "proved",
   "theorems": [
    "C03_count",
    "C03_next_index"
   ],
   "note": ""
  },
  {
   "property": "C04",
   "status": "proved",
   "theorems": [
    "C04_read_stored",
    "C04_write_stores",
    "C04_mask_stores",
    "C04_read_after_write"
   ],
   "note": "For ordinary (non-virtual) tags smaller than 2 GiB; the bytes read back after any history of requests that leave the range alone."
  },
  {
   "property": "C05",
   "status": "proved",
   "theorems": [
    "C05_write_exact",
    "C05_other_tags"
   ],
   "note": ""
  },
  {
   "property": "C06",
   "status": "proved",
   "theorems": [
    "C06_mask_bits"
   ],
   "note": ""
  },
  {
   "property": "C07",
   "status": "proved",
   "theorems": [
    "C07_refused_unchanged"
   ],
   "note": "The whole server state is unchanged except for the error message sent."
  },
  {
   "property": "C08",
   "status": "partial",
   "theorems": [
    "C08_past_end_refused",
    "C08_unknown_index_refused",
    "C08_inside_not_too_big",
    "C08_refuted_write_wild_index"
   ],
   "note": "REFUTED in part: for tags below 2 GiB out-of-range access is refused and in-range access never refused as too big; but a write naming an index outside the allocated table is undefined behaviour (the attribute word is read before the bounds check)."
  },
  {
   "property": "C09",
   "status": "partial",
   "theorems": [
    "C09_refuted",
    "C09_nonneg_read_partial",
    "C09_accepted_inside_partial"
   ],
   "note": "REFUTED: negative offsets pass the bounds check and access memory in front of the tag."
  },
  {
   "property": "C10",
   "status": "proved",
   "theorems": [
    "C10_gone_refused",
    "C10_deleted_stays_deleted"
   ],
   "note": ""
  },
  {
   "property": "C11",
   "status": "proved",
   "theorems": [
    "C11_readd_idempotent"
   ],
   "note": ""
  },
  {
   "property": "C12",
   "status": "partial",
   "theorems": [
    "C12_refuted_garbage",
    "C12_refuted_shrink",
    "C12_prefix_kept_partial"
   ],
   "note": "REFUTED: grown memory is not cleared, and a count whose byte size wraps modulo 2^32 shrinks the tag. Old bytes are kept when the size does not wrap (proved)."
  },
  {
   "property": "C13",
   "status": "proved",
   "theorems": [
    "C13_read_mixes",
    "C13_write_under",
    "C13_clear",
    "C13_install",
    "C13_set",
    "C13_cycle",
    "C13_delete"
   ],
   "note": "Install, activate, read, write under, clear; the hypotheses name a stored (non-virtual, non-queue) tag at index >= 9 and the reply of the server."
  },
  {
   "property": "C14",
   "status": "partial",
   "theorems": [
    "C14_installs_partial",
    "C14_defined_partial",
    "C14_outside_partial",
    "C14_bool_refuted",
    "C14_outside_refuted"
   ],
   "note": "REFUTED: fails on BOOL tags (type_size(BOOL)=0 is used) and when malloc returns non-zero memory (mask bits outside the range are garbage). Proved for all other types, resp. for zeroed memory."
  },
  {
   "property": "C15",
   "status": "partial",
   "theorems": [
    "C15_truthful_partial",
    "C15_history_partial",
    "C15_refuted"
   ],
   "note": "REFUTED: deleting an overridden tag, or removing an active override, leaves the counter too high. Proved along every history without those requests."
  },
  {
   "property": "C16",
   "status": "proved",
   "theorems": [
    "C16_write",
    "C16_mask",
    "C16_atomic",
    "C16_owner"
   ],
   "note": ""
  },
  {
   "property": "C17",
   "status": "partial",
   "theorems": [
    "C17_refuted_group",
    "C17_refuted_delete",
    "C17_refuted_mapping",
    "C17_protected_partial"
   ],
   "note": "REFUTED: group writes, deletion by another client and pre-existing mappings change a read-only tag; every other request is proved harmless."
  },
  {
   "property": "C18",
   "status": "proved",
   "theorems": [
    "C18_status_protected",
    "C18_permitted"
   ],
   "note": "no request but a (re-)registration changes the id bytes of a status tag; the command byte is free; everything else only by the module itself; conversely the permitted writes are answered OK"
  },
  {
   "property": "C19",
   "status": "proved",
   "theorems": [
    "C19_add_refused",
    "C19_del_refused",
    "C19_reserved_names_stable"
   ],
   "note": ""
  },
  {
   "property": "C20",
   "status": "proved",
   "theorems": [
    "C20_disconnect",
    "C20_nothing_new"
   ],
   "note": "exactly the owned tags and the status tag go; the others keep name, type, size and data, except the server-maintained status tags (index below 9), whose data the server updates"
  },
  {
   "property": "C21",
   "status": "partial",
   "theorems": [
    "C21_server_tags_partial",
    "C21_excluded_only_partial",
    "C21_refuted"
   ],
   "note": "REFUTED: an excluded module has tag index 0, so its disconnect deletes _tagcount. Proved: with no excluded modules all server tags exist in every reachable state; in general only the disconnect of an excluded module can remove one, and only tag 0"
  },
  {
   "property": "C22",
   "status": "partial",
   "theorems": [
    "C22_own_tag_partial",
    "C22_shared_refuted",
    "C22_undefined_refuted"
   ],
   "note": "REFUTED: modules foo000, foo, foo share a tag; a module name with characters invalid in tag names leads to an out of bounds access. Proved: if the name the server picks is not in use the tag is not shared, and connections and ids of modules are always distinct"
  },
  {
   "property": "C23",
   "status": "partial",
   "theorems": [
    "C23_write_event_partial",
    "C23_registered",
    "C23_refuted",
    "C23_empty_write_refuted"
   ],
   "note": "REFUTED: a write event with the send-data option watching more than 4080 bytes is silently dropped, and a write of zero bytes strictly inside the range is reported. For every notification that fits a message and every non-empty write the iff (once, to the registrant, with index, id and data) is proved for all reachable states."
  },
  {
   "property": "C24",
   "status": "proved",
   "theorems": [
    "C24_change_event",
    "C24_repeat_silent",
    "C24_always_saw",
    "C23_registered"
   ],
   "note": "Fires iff the watched bytes differ from what the event last saw; what it last saw always equals the current bytes along every history without atomic operations on the tag (see C36); ranges inside the tag, notifications that fit a message."
  },
  {
   "property": "C25",
   "status": "partial",
   "theorems": [
    "C25_edge_event",
    "C25_refuted"
   ],
   "note": "REFUTED for bit ranges crossing a byte boundary: the remembered area is too small and the next write is undefined behaviour (heap overrun). Whenever the step is defined the edge semantics is proved."
  },
  {
   "property": "C26",
   "status": "partial",
   "theorems": [
    "C26_compare_event_partial",
    "C26_time_refuted"
   ],
   "note": "REFUTED for TIME (only the low 32 bits are compared). Proved for the other twelve integer types and writes of whole elements."
  },
  {
   "property": "C27",
   "status": "partial",
   "theorems": [
    "C27_deadband_event_partial",
    "C27_refuted"
   ],
   "note": "REFUTED: UDINT/DWORD increases wrap, SINT/CHAR/INT differences are truncated. Proved whenever the distance is representable as the code computes it."
  },
  {
   "property": "C28",
   "status": "proved",
   "theorems": [
    "C28_ids_distinct",
    "C28_never_reused",
    "C28_only_owner",
    "C28_foreign_no_effect"
   ],
   "note": "ids as mathematical integers (nextevent overflow after 2^31 registrations on one tag is not modelled)."
  },
  {
   "property": "C29",
   "status": "proved",
   "theorems": [
    "C29_fifo",
    "C29_read_works",
    "C29_write_works"
   ],
   "note": "qrun describes every history of a queue tag: its creation, accepted and refused writes, reads of the item size and any other request that leaves the tag alone."
  },
  {
   "property": "C30",
   "status": "partial",
   "theorems": [
    "C30_partial",
    "C30_refuted",
    "C30_heap_refuted",
    "C30_growth_partial"
   ],
   "note": "REFUTED: doubling the ring after a read makes two slots share a block (C30_refuted); the new slots are uninitialised (C30_heap_refuted). C30_partial: order holds for any backlog if the ring only grows before the first read and fresh memory is zero. C30_growth_partial: a write that doubles the ring at any phase keeps the outstanding items in order for the reads that follow it."
  },
  {
   "property": "C31",
   "status": "proved",
   "theorems": [
    "C31_write_copies",
    "C31_mask_copies",
    "C31_nothing_else"
   ],
   "note": "For every mapping whose ends lie inside plain (non-virtual, non-special) tags (record target): after any answered write touching the source range every destination bit equals the source bit; bits no touched mapping writes are unchanged. Hypotheses clear_of/leaves_source exclude mappings of the same source that overwrite each other."
  },
  {
   "property": "C32",
   "status": "partial",
   "theorems": [
    "C32_partial",
    "C32_refuted",
    "C32_crash_refuted"
   ],
   "note": "REFUTED: deleting a mapping that is neither newest nor second newest also unlinks the mappings in between (prev never advances), and deleting from a tag without mappings dereferences NULL. Proved: success iff id present, the deleted one is gone, nothing appears, and the others stay when the target is newest or second newest."
  },
  {
   "property": "C33",
   "status": "proved",
   "theorems": [
    "C33_registered",
    "C33_distinct",
    "C33_same_twice",
    "C33_never_reused",
    "C33_query"
   ],
   "note": ""
  },
  {
   "property": "C34",
   "status": "partial",
   "theorems": [
    "C34_read",
    "C34_unknown",
    "C34_write_partial",
    "C34_readonly_refuted",
    "C34_mapping_refuted",
    "C34_outside_refuted"
   ],
   "note": "REFUTED: a group write ignores the read-only attribute (C34_readonly_refuted) and the mappings (C34_mapping_refuted) of its members, and an id outside the group table is not checked (C34_outside_refuted). Proved: reading a group of ordinary tags is the concatenation of the single reads or the first error; an unused id is refused; writing a group of writable, unmapped ordinary tags has the effect of the single writes in order, including events and the first error."
  },
  {
   "property": "C35",
   "status": "partial",
   "theorems": [
    "C35_partial",
    "C35_start",
    "C35_new_id",
    "C35_delete",
    "C35_refuted"
   ],
   "note": "REFUTED: after a group has been deleted, a new group can get the id of a live one and destroy it (C35_refuted). Proved: while the recorded table size covers the live groups (true from connection until the module deletes a group) ids keep their members through any execution, new ids are unused ones, and deleting frees exactly one id."
  },
  {
   "property": "C36",
   "status": "partial",
   "theorems": [
    "C36_bytes_partial",
    "C36_bools_partial",
    "C36_not",
    "C36_count",
    "C36_offset_refuted",
    "C36_edge_refuted",
    "C36_negated_refuted",
    "C36_time_refuted",
    "C36_bounds_refuted"
   ],
   "note": "REFUTED: the operand of a bitwise operation is indexed by the offset in the tag (C36_offset_refuted), a BOOL range ending on a byte boundary skips its last byte (C36_edge_refuted), NOR/NAND/XNOR inside one byte change bits outside the range (C36_negated_refuted), INC/DEC of TIME works on the low half only (C36_time_refuted), and a handle that ends behind the tag is not refused (C36_bounds_refuted). Proved: NOT complements exactly the addressed bits (C36_not), INC and DEC of 8 to 64-bit integers act modulo the width on the addressed element and nothing else (C36_count), and the bitwise operations are right for byte ranges at offset 0 (C36_bytes_partial) and for BOOL ranges away from the faulty shapes (C36_bools_partial)."
  },
  {
   "property": "C37",
   "status": "partial",
   "theorems": [
    "C37_partial",
    "C37_defined",
    "C37_wrap_refuted",
    "C37_abort_refuted"
   ],
   "note": "REFUTED in general: the 32-bit bit counter wraps, so a big type gets too small a size (C37_wrap_refuted), and a member of an empty type aborts the server (C37_abort_refuted). Proved for every reachable server and every type with some layout below 2^32 bits: the computed size admits a disjoint, ordered, packed layout and no layout is smaller. C37_defined: the size of every registered type is a number or that abort."
  },
  {
   "property": "C38",
   "status": "partial",
   "theorems": [
    "C38_partial",
    "C38_empty_refuted",
    "C38_count_refuted",
    "C38_cache_refuted"
   ],
   "note": "REFUTED in general: empty types (0 against 1), members with count 0, and a client that looked up an unknown name. Proved: with a cache that agrees with the registry, counts in 1..2^31-1, descriptions that fit in a message and a positive server size, the client computes the same size for arbitrarily nested types."
  },
  {
   "property": "C39",
   "status": "partial",
   "theorems": [
    "C39_roundtrip",
    "C39_never_twice",
    "C39_again_partial",
    "C39_client_partial",
    "C39_again_refuted",
    "C39_spelling_refuted",
    "C39_refetch_refuted"
   ],
   "note": "REFUTED in part: repeating the identical definition answers an uninitialised status, another spelling of the same members is refused as a duplicate, and a client that fetches a type twice has every member twice. Proved: the server description parses back to the same type on any server with the earlier types; never a second type; the client loads a readable type complete."
  },
  {
   "property": "C40",
   "status": "proved",
   "theorems": [
    "C40_permanent",
    "C40_one_definition",
    "C40_names",
    "C40_base_names",
    "C40_answer"
   ],
   "note": "All reachable servers with fewer than 2^30 types."
  },
  {
   "property": "C41",
   "status": "partial",
   "theorems": [
    "C41_partial",
    "C41_alone_partial",
    "C41_last_byte_refuted",
    "C41_stale_byte_refuted",
    "C41_length_cut_refuted",
    "C41_idle_refuted",
    "C41_error_refuted"
   ],
   "note": "REFUTED: a read that ends one byte before the end of a request executes it with a stale last byte; a read that ends in the length field, an idle second, and a read error break framing too. Proved: for all interleavings with other sockets, requests whose reads avoid those cuts are executed in order, once, with exactly their own bytes."
  },
  {
   "property": "C42",
   "status": "partial",
   "theorems": [
    "C42_refuted",
    "C42_separate_partial"
   ],
   "note": "REFUTED for every pair: the second of two requests in one read is dropped. Proved: any number of requests that arrive in separate reads are all executed."
  },
  {
   "property": "C43",
   "status": "partial",
   "theorems": [
    "C43_framing_partial",
    "C43_small_refuted",
    "C43_4097_refuted"
   ],
   "note": "REFUTED: declared lengths 1..7 and 4097 make the server copy out of bounds; other clients messages with UB are refuted under C02, C08, C12, C21, C30, C32, C35, C36, C37. Proved: the framing layer does nothing undefined for every other declared length, once the length field is there."
  },
  {
   "property": "C44",
   "status": "partial",
   "theorems": [
    "C44_tag_add",
    "C44_tag_del",
    "C44_read",
    "C44_write",
    "C44_mask",
    "C44_register",
    "C44_disconnect",
    "C44_byname",
    "C44_byindex",
    "C44_cdt_create",
    "C44_cdt_byname",
    "C44_cdt_bytype",
    "C44_event_del",
    "C44_event_options",
    "C44_map_del",
    "C44_map_get",
    "C44_group_read",
    "C44_group_del",
    "C44_group_write",
    "C44_get_override",
    "C44_set_override",
    "C44_map_add",
    "C44_group_add",
    "C44_atomic",
    "C44_event_add",
    "C44_event_add_data_partial",
    "C44_event_dword_refuted",
    "C44_long_name_refuted",
    "C44_atomic_wrap_refuted",
    "C44_offset_refuted"
   ],
   "note": "Proved end to end (encode, frame, decode, execute) for every call with arguments in range. REFUTED at the edges: event values of type DWORD and TIME lose their upper bits, names of 29..32 characters overflow the buffer of dax_tag_add, offsets of 2^31 and more change sign, sizes near 2^32 wrap in dax_atomic_op."
  },
  {
   "property": "C45",
   "status": "partial",
   "theorems": [
    "C45_read",
    "C45_read_succeeds",
    "C45_write",
    "C45_write_not_too_big",
    "C45_type_refuted",
    "C45_nested_refuted"
   ],
   "note": "Whenever a call of dax_tag_read/dax_tag_write on whole bytes succeeds it has the effect of one request over the whole range, for every size, type and data; for elementary types reads always succeed and writes are never refused for size. REFUTED in general: a type of more than 4088 (4080 for writes) bytes is refused, and writing a compound value whose compound member is not the first makes _write_format leave the caller's buffer. Not covered: requests of other clients between the parts."
  },
  {
   "property": "C46",
   "status": "proved",
   "theorems": [
    "C46_read_bits"
   ],
   "note": "For every BOOL handle whose bits lie in the bytes of the handle and in the tag (any size, also above one message)."
  },
  {
   "property": "C47",
   "status": "partial",
   "theorems": [
    "C47_write_bits_partial",
    "C47_write_bytes",
    "C47_refuted",
    "C47_2040_refuted"
   ],
   "note": "REFUTED: a slice with a bit offset and a multiple of eight bits is written with one byte too many and refused at the end of the tag; at 2040 bytes it is always refused. Proved otherwise: exactly the bits of the slice change."
  },
  {
   "property": "C48",
   "status": "partial",
   "theorems": [
    "C48_mask_partial",
    "C48_refuted"
   ],
   "note": "REFUTED for BOOL slices: the mask is ignored. Proved for all other handles, any size."
  },
  {
   "property": "C49",
   "status": "partial",
   "theorems": [
    "C49_member_partial",
    "C49_tag",
    "C49_bit",
    "C49_no_tag",
    "C49_no_member_partial",
    "C49_too_many",
    "C49_align_refuted",
    "C49_member_bit_refuted",
    "C49_bits_wrap_refuted",
    "C49_bit_number_refuted",
    "C49_index_refuted",
    "C49_bit_index_refuted",
    "C49_element_bit_refuted",
    "C49_count_refuted",
    "C49_outside_refuted"
   ],
   "note": "REFUTED: a member that is stepped into after BOOLs is not aligned, a bit of a member after BOOLs neither, the bit counter has 8 bits, indices before a member or a bit are not checked, and a member of a base type reads outside the type table. Proved for all types and all paths of any depth without those situations (tame): the handle designates the bit, type, count and byte length that the layout of C37 gives; whole tags, elements and bits of tags without restriction other than the tag size; unknown tags, unknown members (one level) and too large counts are refused."
  },
  {
   "property": "C50",
   "status": "partial",
   "theorems": [
    "C50_safe",
    "C50_by_name",
    "C50_by_index",
    "C50_added_found",
    "C50_limit_partial",
    "C50_limit_zero_refuted",
    "C50_duplicate_refuted",
    "C50_purged",
    "C50_answer",
    "C50_count_refuted"
   ],
   "note": "REFUTED in two points: with the limit 0, the only value the code ever sets, one entry is kept (C50_limit_zero_refuted); adding an existing tag with fewer elements caches the caller's count (C50_count_refuted). Proved for every sequence of cache operations: no bad pointer and no endless loop, lookups return entries with the right key that were put in, at most max(1, limit) entries, and at library level a purged index is not returned again until it is fetched again."
  },
  {
   "property": "C51",
   "status": "proved",
   "theorems": [
    "C51",
    "C51_order",
    "C51_all",
    "C51_newest"
   ],
   "note": "Refinement of the pointer queue to a list queue, for every interleaving of arrivals, fetches and answered requests and every limit of at least 1; error messages are assumed to carry their 4 byte code. A limit of 0 never occurs (libinit.c fixes 8)."
  },
  {
   "property": "C52",
   "status": "partial",
   "theorems": [
    "C52_partial",
    "C52_data",
    "C52_error",
    "C52_shift_refuted",
    "C52_late_refuted"
   ],
   "note": "REFUTED: answers carry no sequence number, so after one timed out call every later call of the same kind returns the previous answer. Proved when every answer arrives before its call gives up."
  },
  {
   "property": "C53",
   "status": "partial",
   "theorems": [
    "C44_event_add_data_partial",
    "C53_truncated_partial",
    "C53_small"
   ],
   "note": "REFUTED for DWORD and TIME, of which exactly the low 16 bits arrive (mtos_dword and mtos_time are mtos_uint). Proved for all other base types."
  },
  {
   "property": "C54",
   "status": "partial",
   "theorems": [
    "C54_clamp_partial",
    "C54_char",
    "C54_bool",
    "C54_roundtrip",
    "C54_roundtrip_bool",
    "C54_uint_refuted",
    "C54_uint_minus_refuted",
    "C54_ulint_refuted",
    "C54_zero_refuted",
    "C54_lint_refuted"
   ],
   "note": "REFUTED: for WORD/UINT a number of 2^63 or more is taken for a negative one (strtoul assigned to a long), for LWORD/ULINT a blank hides the sign and \"-0\" is an underflow, for LINT a too small number after a blank is reported as an overflow. Proved for all texts outside those cases (plain): the nearest value in range is stored, the error names the bound passed, nothing else changes. Proved for all values: value to text to value is the identity, for every integer type, CHAR and BOOL. Missing: REAL, LREAL and TIME (libc conversions are parameters)."
  },
  {
   "property": "C55",
   "status": "proved",
   "theorems": [
    "C55_value",
    "C55_accepts",
    "C55_burst",
    "C55_byte",
    "C55_odd",
    "C55_two"
   ],
   "note": "crc16 equals the bitwise CRC-16/MODBUS (bytes in transmission order) for every message the unsigned short length can describe; an accepted frame changed in any burst of at most 16 bits, any byte, any odd number of bits, or any two bits (frames up to 4095 bytes) is rejected."
  },
  {
   "property": "C56",
   "status": "partial",
   "theorems": [
    "C56_words",
    "C56_bits",
    "C56_bad_address",
    "C56_bad_function",
    "C56_count_refuted",
    "C56_padding_refuted",
    "C56_zero_refuted",
    "C56_uninit_refuted"
   ],
   "note": "REFUTED: legal counts that do not fit the 250-byte buffer get no answer and block the connection, unused bits of the last coil byte are left over from the request, count 0 is answered, and without a callback an uninitialised variable decides. Proved for all other requests: the answer carries exactly the registers or coils asked for, and exceptions 1 and 2 for unknown functions and addresses."
  },
  {
   "property": "C57",
   "status": "partial",
   "theorems": [
    "C57_register",
    "C57_registers",
    "C57_coil",
    "C57_coils_partial",
    "C57_bad_address",
    "C57_bad_function",
    "C57_coils_refuted",
    "C57_readonly_refuted",
    "C57_short_frame_refuted",
    "C57_zero_refuted"
   ],
   "note": "REFUTED: refused writes (read-only tags, coils whose last byte is not in the tag) are acknowledged, a short frame is completed with bytes of the previous one, and count 0 stores coils. Proved: what is acknowledged for one register, n registers, one coil is what is stored, and nothing else changes; n coils when the spurious last byte lies in the tag."
  },
  {
   "property": "C58",
   "status": "partial",
   "theorems": [
    "C58_response_partial",
    "C58_stream_partial",
    "C58_serial_partial",
    "C58_read_refuted",
    "C58_write_refuted",
    "C58_checksum_refuted"
   ],
   "note": "REFUTED: with large register tables the slave overflows reg[150], reads past the connection's buffer and stores the serial checksum behind it. Proved for all byte streams, cut in any way, when the slave has at most 121 holding and 125 input registers, 1944 coils, 2000 discrete inputs."
  },
  {
   "property": "C59",
   "status": "partial",
   "theorems": [
    "C59_tcp",
    "C59_rtu_partial",
    "C59_accepted",
    "C59_tcp_coil_refuted",
    "C59_rtu_register_refuted",
    "C59_rtu_coils_refuted",
    "C59_rtu_long_refuted",
    "C59_limit_refuted"
   ],
   "note": "REFUTED: over TCP the second byte of a single coil is uninitialised; on a serial line a single register loses its high byte, several coils are not sent, 125 registers wrap the length; 124 and 125 registers exceed the protocol's limit. Proved: all other commands the configuration accepts produce exactly the frame of the protocol."
  },
  {
   "property": "C60",
   "status": "partial",
   "theorems": [
    "C60_registered",
    "C60_restart_partial",
    "C60_created_partial",
    "C60_second_refuted",
    "C60_rewritten_refuted",
    "C60_bool_refuted",
    "C60_deleted_refuted",
    "C60_recreated_refuted",
    "C60_resized_refuted",
    "C60_late_refuted"
   ],
   "note": "REFUTED: the second restart loses every restored tag (they lose the RETAIN attribute and the tables are dropped at start); BOOL tags come back as zeros; deleted tags come back; a re-created tag is never stored; a longer tag comes back with its old length; a tag retained after being written comes back as zeros. Proved for every history and every restart point between requests: a tag of a base type other than BOOL that is in the file and still has the size it was registered with is restored with the bytes it held (if written since, or created with the attribute). Not covered: custom types, a crash in the middle of a request; SQLite statements are taken as atomic and durable."
  },
  {
   "property": "C61",
   "status": "proved",
   "theorems": [
    "C61",
    "C61_data",
    "C61_outside"
   ],
   "note": "For fewer than 2^30 registrations (the array size is an int that doubles). Ids are compared modulo 2^32."
  },
  {
   "property": "C62",
   "status": "partial",
   "theorems": [
    "C62_partial",
    "C62_message",
    "C62_split_refuted",
    "C62_timeout_refuted"
   ],
   "note": "REFUTED: a header that arrives in two pieces swallows bytes of the body, and a receive timeout inside a message loses the position in the stream. Proved when each header arrives in one piece and no timeout expires inside a message."
  },
  {
   "property": "C63",
   "status": "partial",
   "theorems": [
    "C63_when",
    "C63_partial",
    "C63_refuted"
   ],
   "note": "REFUTED: when the nanoseconds add up to exactly 10^9 the deadline is invalid and the assertion after the wait aborts the program. Proved for all other times."
  },
  {
   "property": "C64",
   "status": "proved",
   "theorems": [
    "C64_words",
    "C64_bits",
    "C64_write"
   ],
   "note": "For up to 123 registers, 1976 coils, 121 registers written (what fits the slave's buffer, see C56 and C58), tags without events or mappings for writes (quiet), and any cut of the request; the answer is read at once (see C65)."
  },
  {
   "property": "C65",
   "status": "partial",
   "theorems": [
    "C65_rejected",
    "C65_safe_partial",
    "C65_stale_refuted",
    "C65_overflow_refuted",
    "C65_short_refuted",
    "C65_pieces_refuted"
   ],
   "note": "REFUTED: the transaction number is not compared, so a late answer is taken for the next one; a longer answer overflows the data area; answers in pieces are mistaken or copied with a negative size. Proved: other units, functions and exceptions never touch the data; answers not longer than the data area are taken safely."
  },
  {
   "property": "C66",
   "status": "proved",
   "theorems": [
    "C66_due",
    "C66_not_early",
    "C66_wakeup",
    "C66_delays"
   ],
   "note": "Over all histories of exits, clean-ups and scans; for clock readings between the death and 24 days later (sane); the truncation of times to milliseconds shows as one millisecond of tolerance."
  },
  {
   "property": "C67",
   "status": "partial",
   "theorems": [
    "C67_recorded_partial",
    "C67_ten_partial",
    "C67_overflow",
    "C67_overflow_refuted",
    "C67_noticed_partial",
    "C67_one_instance_partial",
    "C67_reuse_refuted"
   ],
   "note": "REFUTED: the queue of exits has ten slots and the eleventh exit between two scans writes past its end; a process id that was reaped but not yet cleaned up can be given to a new child, and then the wrong process is marked dead and gets a second instance. Proved when fork does not return an id that waits in the queue; with at most ten configured processes the queue never overflows."
  },
  {
   "property": "C68",
   "status": "partial",
   "theorems": [
    "C68_own_children_partial",
    "C68_group_refuted",
    "C68_enforced",
    "C68_turns"
   ],
   "note": "REFUTED: a process without the restart flag that exceeded its limit and exited is condemned again with pid 0, and the master sends SIGQUIT and SIGKILL to its own process group. Proved for configurations in which every limited process has the restart flag (a child that exited but is not cleaned up yet may still be signalled)."
  },
  {
   "property": "C69",
   "status": "partial",
   "theorems": [
    "C69_args_partial",
    "C69_no_args_refuted",
    "C69_listing_partial",
    "C69_listing_refuted"
   ],
   "note": "REFUTED: without an argument string the vector is not terminated; the start-up listing does not reset its index and reads past the vector of a process with fewer arguments than its predecessor. Proved: with an argument string the program gets exactly its words; the listing is defined exactly when argument counts never decrease."
  },
  {
   "property": "C70",
   "status": "partial",
   "theorems": [
    "C70_user_partial",
    "C70_group_refuted",
    "C70_unknown_refuted"
   ],
   "note": "REFUTED: the user is changed before the group, so a child of a root master always keeps root's group; a child whose user does not exist is started with the master's identity. Proved: a known user other than root is taken with real, effective and saved id."
  },
  {
   "property": "C71",
   "status": "partial",
   "theorems": [
    "C71_tracks_partial",
    "C71_only_partial",
    "C71_before_partial",
    "C71_write",
    "C71_bool_refuted",
    "C71_uint_refuted",
    "C71_udint_refuted",
    "C71_time_refuted",
    "C71_overflow_refuted"
   ],
   "note": "REFUTED: BOOL is missing from the comparison, so no change of a BOOL is ever recorded; UINT and WORD compare 4 bytes of 2-byte blocks (every event reads out of bounds); UDINT, DWORD, ULINT and LWORD differences wrap, TIME compares 32 of 64 bits; DINT and LINT differences overflow. Proved for BYTE, SINT, CHAR, INT and for DINT, LINT of moderate size, over all histories."
  },
  {
   "property": "C72",
   "status": "partial",
   "theorems": [
    "C72_gap",
    "C72_no_gap",
    "C72_order_partial",
    "C72_first_refuted",
    "C72_lost_refuted"
   ],
   "note": "REFUTED: the time of the previous event starts at 0, so the first event always records a NULL, before the records of the start; the value kept back before a gap is never recorded. Proved from the first event on: marking of gaps, no other NULL, and the order of times."
  },
  {
   "property": "C73",
   "status": "partial",
   "theorems": [
    "C73_fifo_partial",
    "C73_refused_partial",
    "C73_overwrite_refuted",
    "C73_start_refuted"
   ],
   "note": "REFUTED: the test for a full queue compares the end before it is wrapped, so a queue filled from place 0 is not known to be full and the next push loses all queued scripts; and the queue is not marked empty at the start, so a pop before the first push reads an unwritten cell. Proved: first in, first out while no more is pushed than fits; refusal unless the queue was filled from place 0."
  },
  {
   "property": "C74",
   "status": "partial",
   "theorems": [
    "C74_runs_partial",
    "C74_lost_wakeup_refuted",
    "C74_deadlock_refuted"
   ],
   "note": "REFUTED: a worker waits without looking at the queue, so a signal given before it waits is lost and the script stays queued; with a full queue the automatic scripts are queued by a thread that keeps the lock while it sleeps, so no worker can take one. Proved when all workers wait at the start and each event finds a free place: runs are in order, none is lost, and running workers finish the queue."
  },
  {
   "property": "C75",
   "status": "partial",
   "theorems": [
    "C75_whole_partial",
    "C75_period_refuted",
    "C75_overrun_refuted"
   ],
   "note": "REFUTED: the time taken is added to the sleep instead of subtracted, so a round takes the interval plus twice the running time; a round that crosses a second with an interval below two seconds is counted as an overrun and repeated at once. Proved for running times of whole seconds."
  },
  {
   "property": "C76",
   "status": "partial",
   "theorems": [
    "C76_stored_partial",
    "C76_seventeen_refuted"
   ],
   "note": "REFUTED: the size of the table is not updated when it grows, so the seventeenth script is written outside of it. Proved up to sixteen."
  },
  {
   "property": "C77",
   "status": "partial",
   "theorems": [
    "C77_data_partial",
    "C77_data_refuted"
   ],
   "note": "REFUTED: the data is kept in one block per script, so the data of a later event replaces that of a run still queued. Proved when every event finds the queue empty."
  },
  {
   "property": "C78",
   "status": "partial",
   "theorems": [
    "C78_read_total",
    "C78_store_partial",
    "C78_unchanged_partial",
    "C78_real_refuted",
    "C78_ulint_refuted",
    "C78_time_refuted",
    "C78_lint_refuted",
    "C78_string_refuted"
   ],
   "note": "REFUTED: REAL is cut to an integer when read, the upper half of ULINT and LWORD reads as negative numbers that cannot be written back, TIME after 1970-02-19 cannot be written, LINT beyond 2^53 is rounded, a short string writes uninitialised bytes. Proved: reading stays within the data for every type without REAL; for the other contents (ok_ty) the value survives and writing it back changes nothing."
  },
  {
   "property": "C79",
   "status": "partial",
   "theorems": [
    "C79_absent_partial",
    "C79_refused_partial",
    "C79_absent_refuted",
    "C79_array_refuted",
    "C79_nested_refuted",
    "C79_bool_refuted",
    "C79_range_refuted"
   ],
   "note": "REFUTED: a wrong value for a member leaves the Lua stack wrong and the next member is looked up in a value that is not a table; an array of a compound type cannot be left out; a string written to an array of BOOL writes outside of the mask; numbers out of range are undefined. Proved: members left out of a table that is written with success are not marked, for types without arrays of BOOL; a wrong value for a whole array or compound tag is refused with nothing written."
  },
  {
   "property": "C80",
   "status": "proved",
   "theorems": [
    "C80_start_defined",
    "C80_run_defined",
    "C80_request_defined"
   ],
   "note": "The limits ([sane], [calm] in Safe.v) are sufficient; that every limit excludes a defect is shown by the refutations of the other properties, not by a theorem of its own. Start with the contents of a retention file is not covered."
  },
  {
   "property": "C81",
   "status": "partial",
   "theorems": [
    "C81_read_partial",
    "C81_bool_partial",
    "C81_lreal_refuted",
    "C81_short_refuted"
   ],
   "note": "REFUTED: an LREAL is read with plc_tag_get_float32, so for whatever conversion some PLC value does not arrive (C81_lreal_refuted); an element outside the PLC tag becomes libplctag's error value, taken for data (C81_short_refuted). Proved for every other number type and for BOOL when the PLC tag has all the elements."
  },
  {
   "property": "C82",
   "status": "partial",
   "theorems": [
    "C82_write",
    "C82_write_bool",
    "C82_round_partial",
    "C82_round_refuted"
   ],
   "note": "REFUTED for the round trip of LREAL (C82_round_refuted). The writing direction is proved for every number type and BOOL (C82_write, C82_write_bool), the round trip for every number type but LREAL (C82_round_partial)."
  },
  {
   "property": "C83",
   "status": "partial",
   "theorems": [
    "C83_read_map_partial",
    "C83_write_map_partial",
    "C83_raw_partial",
    "C83_map_refuted",
    "C83_big_refuted"
   ],
   "note": "REFUTED: a map that names a byte twice sends uninitialised stack bytes to the PLC (C83_map_refuted); without a map the place of an element is computed with 32 bits, so element 32768 of 65536 two-byte elements is stored over element 0 (C83_big_refuted). Proved for valid maps (one to one for the writing direction) and for blocks with count * size up to 2^32."
  },
  {
   "property": "C84",
   "status": "partial",
   "theorems": [
    "C84_defined_partial",
    "C84_early_change_refuted",
    "C84_early_read_refuted",
    "C84_overrun_refuted"
   ],
   "note": "REFUTED: a change before the PLC has answered makes an array of -1 bytes (C84_early_change_refuted); a read that completes between the filling of the handle and the allocation uses a null pointer (C84_early_read_refuted); an element size larger than the compound type overruns the block (C84_overrun_refuted). Proved for every sequence of events once the tag is set up with sizes that fit."
  },
  {
   "property": "C85",
   "status": "partial",
   "theorems": [
    "C85_written_partial",
    "C85_deadlock_refuted",
    "C85_overwrite_refuted",
    "C85_lost_wakeup_refuted"
   ],
   "note": "REFUTED: a callback that finds the queue full returns with the mutex locked, after which nothing but the tag in hand is ever written (C85_deadlock_refuted); a queue that fills up at its beginning is not known to be full and is wiped out by the next read (C85_overwrite_refuted); a read that completes before the thread waits stays in the queue (C85_lost_wakeup_refuted). Proved for tags that are only read, when the thread waits first and reads never find the queue full."
  },
  {
   "property": "C86",
   "status": "partial",
   "theorems": [
    "C86_echo_refuted",
    "C86_out_partial"
   ],
   "note": "REFUTED: for a tag that is both read and written the change event of the module's own write throws an older value back at the PLC, and the newer one is lost on both sides (C86_echo_refuted). Proved: as long as the PLC's program leaves the tag alone, the PLC has the server's value whenever no change event is under way (C86_out_partial)."
  },
  {
   "property": "C87",
   "status": "partial",
   "theorems": [
    "C87_match_partial",
    "C87_hash_partial",
    "C87_plain",
    "C87_plus_last_refuted",
    "C87_plus_short_refuted",
    "C87_plus_hash_refuted",
    "C87_hash_refuted",
    "C87_parent_refuted"
   ],
   "note": "REFUTED: a + in the last level reads behind the ends of both strings (C87_plus_last_refuted), as does a topic that ends in the level of a + (C87_plus_short_refuted); '+/#' and '#' match nothing and 'w/#' does not match 'w' (C87_plus_hash_refuted, C87_hash_refuted, C87_parent_refuted). Proved: exact agreement with the standard for filters without wildcards, for filters with only #, and for + in the middle when the topic has enough levels."
  },
  {
   "property": "C88",
   "status": "partial",
   "theorems": [
    "C88_found",
    "C88_only_partial",
    "C88_none",
    "C88_shadow_refuted",
    "C88_search_refuted"
   ],
   "note": "REFUTED: only the first match gets the message (C88_shadow_refuted), and one filter ending in + makes the search for every later subscription undefined (C88_search_refuted). Proved: what is found is active and matches (C88_found), the first match is found (C88_only_partial), and if nothing is found nothing matches (C88_none)."
  },
  {
   "property": "C89",
   "status": "partial",
   "theorems": [
    "C89_partial",
    "C89_refuted",
    "C89_index"
   ],
   "note": "REFUTED: the size of the list is never updated when it grows, so it grows to 32 entries once and the 33rd is written behind it (C89_refuted). Proved for up to 32, with consecutive indices."
  },
  {
   "property": "C90",
   "status": "proved",
   "theorems": [
    "C90_retries",
    "C90_pause",
    "C90_reset"
   ],
   "note": "For every reachable state of the loop."
  },
  {
   "property": "C91",
   "status": "partial",
   "theorems": [
    "C91_held_partial",
    "C91_retried_partial",
    "C91_lost_refuted",
    "C91_reconnect_refuted",
    "C91_group_refuted"
   ],
   "note": "REFUTED: after a lost connection nothing is subscribed again although the session starts clean (C91_lost_refuted: for ever, C91_reconnect_refuted: a run); a refused group is used as a null pointer (C91_group_refuted). Proved while the connection is not lost: what the module regards as subscribed is in the session (C91_held_partial), and a waiting subscription is made within ten cycles (C91_retried_partial)."
  },
  {
   "property": "C92",
   "status": "partial",
   "theorems": [
    "C92_active_partial",
    "C92_never_refuted",
    "C92_missing_refuted"
   ],
   "note": "REFUTED: a publisher is marked as failed before its tags are looked for and never tried again, so a tag that appears later does not help (C92_never_refuted, C92_missing_refuted). Proved when everything exists at the first attempt (C92_active_partial)."
  },
  {
   "property": "C93",
   "status": "partial",
   "theorems": [
    "C93_raw_partial",
    "C93_stored_partial",
    "C93_short_refuted"
   ],
   "note": "REFUTED: a short message is completed with bytes of the one before, over whatever the tag holds by now (C93_short_refuted). Proved for messages at least as long as the tag: the block is the beginning of the message, and when the write succeeds the tag, and only it, has those bytes (C93_raw_partial, C93_stored_partial, the latter with the server model)."
  },
  {
   "property": "C94",
   "status": "partial",
   "theorems": [
    "C94_value_partial",
    "C94_round_partial",
    "C94_nil_refuted",
    "C94_failed_refuted",
    "C94_table_refuted",
    "C94_notags_refuted"
   ],
   "note": "REFUTED: a nil in the table shifts all later values to the wrong tags (C94_nil_refuted); after an error the last block is written again (C94_failed_refuted); a result that is no table for several tags (C94_table_refuted) and a subscription without tags (C94_notags_refuted) are undefined. Proved: a value that is the reading of some block (every type, structures and arrays included) is what the tag reads as afterwards, whatever the buffer and mask held before (C94_value_partial), and the same for tables of several tags (C94_round_partial)."
  },
  {
   "property": "C95",
   "status": "partial",
   "theorems": [
    "C95_raw_partial",
    "C95_stored_partial",
    "C95_round_partial",
    "C95_filter_partial",
    "C95_stale_refuted",
    "C95_stale_group_refuted",
    "C95_small_refuted",
    "C95_notags_refuted",
    "C95_error_refuted"
   ],
   "note": "REFUTED: when the read fails the last block is published, for groups with the group number at its start (C95_stale_refuted, C95_stale_group_refuted); the text of a Lua error is published (C95_error_refuted); groups of fewer than four bytes overflow the buffer (C95_small_refuted); a publisher without tags is undefined (C95_notags_refuted). Proved: if the read succeeds the payload is the stored data (C95_raw_partial, C95_stored_partial with the server model, C95_filter_partial with a function), and a tag published on one server and subscribed on another ends up with the same bytes there (C95_round_partial)."
  },
  {
   "property": "C96",
   "status": "partial",
   "theorems": [
    "C96_answer_partial",
    "C96_silent",
    "C96_history_partial",
    "C96_client_partial",
    "C96_decoded",
    "C96_unsupported_refuted",
    "C96_queue_refuted"
   ],
   "note": "REFUTED: MSG_TAG_LIST and MSG_EVNT_GET are understood but never answered (C96_unsupported_refuted, for all states), and a read of a queue tag with a size above 4088 removes an item and answers nothing (C96_queue_refuted). Proved for all other requests: one answer of the right command and size (C96_answer_partial), none without a request (C96_silent), and by induction over the whole history (C96_history_partial); C96_decoded: every message that is decoded is such a request of its sender. Requests that end in undefined behaviour are excluded (C80 says when that cannot happen)."
  },
  {
   "property": "C97",
   "status": "partial",
   "theorems": [
    "C97_fits",
    "C97_delivered_partial",
    "C97_change_partial",
    "C97_race_refuted"
   ],
   "note": "REFUTED: a notification fetched by another thread before dax_event_add has entered the callback is lost (C97_race_refuted); see also C51 (full backlog) and C62 (short reads). Proved by composing C24, C62, C51 and C61: C97_change_partial (one write, from the request to the callback), C97_delivered_partial (any history), C97_fits (every message of the server, for all histories, has a size and type the client can take apart). Conditions: reads of at least 8 bytes, at most n events waiting, tag and event numbers below 2^32, tag without mappings for C97_change_partial."
  },
  {
   "property": "C98",
   "status": "partial",
   "theorems": [
    "C98_calls_partial",
    "C98_late_refuted"
   ],
   "note": "REFUTED: after an answer that came too late every call gets the answer of the one before (see C52_shift_refuted, C52_late_refuted), and MSG_TAG_LIST/MSG_EVNT_GET are never answered (C96_unsupported_refuted). Proved (composition of C96 and C52) for answers in time and the other commands, from the start of the server."
  },
  {
   "property": "C99",
   "status": "proved",
   "theorems": [
    "C99_precedence"
   ],
   "note": "The attributes are any that dax_init and dax_add_attribute accept, with letters and digits as short options. The memory from malloc is zero where the option tables are not terminated; without that the parse is undefined for some command lines (C105)."
  },
  {
   "property": "C100",
   "status": "partial",
   "theorems": [
    "C100_unique",
    "C100_accepted",
    "C100_added",
    "C100_noletter_refuted",
    "C100_longname_refuted"
   ],
   "note": "REFUTED: two attributes without a letter clash with each other (both have the letter 0), so the second is refused; and the first character of a long name is not checked. Proved: uniqueness for every sequence of registrations, and exactly which registrations are accepted."
  },
  {
   "property": "C101",
   "status": "partial",
   "theorems": [
    "C101_callback_refuted",
    "C101_callback_partial",
    "C101_calls"
   ],
   "note": "REFUTED: the loop of dax_attr_callback never moves on; for every attribute but the one added last it does not end. For that one it attaches the callback. The calls made while the command line is parsed are exactly those of the settings on the command line and of the values taken from the file."
  },
  {
   "property": "C102",
   "status": "partial",
   "theorems": [
    "C102_file",
    "C102_freed_refuted"
   ],
   "note": "REFUTED: a file name given through the attribute config is freed after the file was read although the attribute keeps the pointer; reading the attribute, setting it or configuring again is undefined. The choice of the file is proved."
  },
  {
   "property": "C103",
   "status": "partial",
   "theorems": [
    "C103_name_partial",
    "C103_file_refuted"
   ],
   "note": "REFUTED: a name set in the configuration file changes the attribute but not the name used for the registration. Proved for the command line and for values set by the program."
  },
  {
   "property": "C104",
   "status": "proved",
   "theorems": [
    "C104_timeout",
    "C104_value"
   ],
   "note": "The number is what strtol reads, converted to int (so 4294968296 counts as 1000, as in C)."
  },
  {
   "property": "C105",
   "status": "partial",
   "theorems": [
    "C105_defined_partial",
    "C105_uninit_refuted",
    "C105_optional_refuted",
    "C105_longonly_refuted"
   ],
   "note": "REFUTED: the string of letters and the table of long options are not terminated (an unknown option reads beyond what was written); an option with an optional value and none given passes NULL to strdup; an attribute that has only a long name next to one without a long name passes NULL to strcasecmp. Proved for the command lines of C99."
  },
  {
   "property": "C106",
   "status": "partial",
   "theorems": [
    "C106_file_refuted",
    "C106_unmentioned"
   ],
   "note": "REFUTED: the mark CFG_MODCONF is not looked at, the file sets any attribute; and a boolean is taken as Yes whether it is true or false (verbose = false in the file turns it on). Attributes the file does not mention are not touched."
  },
  {
   "property": "C107",
   "status": "partial",
   "theorems": [
    "C107_set_get",
    "C107_defined_partial",
    "C107_default_refuted",
    "C107_literal_refuted"
   ],
   "note": "REFUTED: resetting an attribute that has no default passes NULL to strdup, and setting an attribute that the file set to a boolean frees a string literal. Otherwise defined; the law of set and get holds."
  },
  {
   "property": "C108",
   "status": "partial",
   "theorems": [
    "C108_precedence_partial",
    "C108_zero_refuted",
    "C108_topics_refuted",
    "C108_port_refuted"
   ],
   "note": "REFUTED: port 0 and address 0.0.0.0 on the command line lose against the file; -T is documented but not known; a port above 65535 is cut to 16 bits (73313 listens on 7777). The order is proved for all other values."
  },
  {
   "property": "C109",
   "status": "partial",
   "theorems": [
    "C109_read_atomic",
    "C109_read_elements",
    "C109_write",
    "C109_torn_refuted",
    "C109_mixed_refuted"
   ],
   "note": "REFUTED for transfers of more than one message: a read returns contents the tag never held, and after two successful concurrent writes the tag holds a mixture. Proved: a read of up to 4088 bytes is a copy from one moment; in a larger one each element is; a write that no one disturbs ends with the caller's data, and before that others see whole elements, a prefix of them new and the rest old."
  },
  {
   "property": "C110",
   "status": "partial",
   "theorems": [
    "C110_routed_partial",
    "C110_reused_partial",
    "C110_defined_partial",
    "C110_stale_refuted",
    "C110_foreign_refuted",
    "C110_full_refuted"
   ],
   "note": "REFUTED for a master that is not persistent: during its first scan and for commands of events between scans it closes the connection after each command and keeps it in the pool, so the next request goes to a closed descriptor or to another file with the same number, which is closed as well; and the 2049th device is stored at a negative index. Proved: a persistent master, or one whose commands are all sent while scanning, sends each request to its device and closes only its own; a persistent one keeps one connection for each device; no overflow with up to 2048 devices."
  },
  {
   "property": "C111",
   "status": "partial",
   "theorems": [
    "C111_lost_refuted",
    "C111_reconnect_partial",
    "C111_leak_refuted",
    "C111_leak_kept_refuted"
   ],
   "note": "REFUTED: a persistent master that loses the connection to a device never gets an answer from it again, in any continuation; each refused connection leaves a descriptor open, which is never closed. Proved: a master that is not persistent connects again after each pause."
  },
  {
   "property": "C112",
   "status": "proved",
   "theorems": [
    "C112_tries",
    "C112_counters"
   ],
   "note": "Covers both kinds of ports. Also shown: result and error code in each case, and that all requests of a command go to the same descriptor."
  },
  {
   "property": "C113",
   "status": "proved",
   "theorems": [
    "C113_due"
   ],
   "note": ""
  },
  {
   "property": "C114",
   "status": "partial",
   "theorems": [
    "C114_inhibit_partial",
    "C114_lasting_partial",
    "C114_again_refuted",
    "C114_stdin_refuted",
    "C114_ended_refuted",
    "C114_nonpersistent_refuted"
   ],
   "note": "REFUTED: attempts are not counted from zero after opening again, so that a single failure closes the port; if opening fails, descriptor 0 is closed and commands of events are written to it; with an inhibit time of 0 the port ends for good; a port that is not persistent (the default) is closed after the first early scan, and in every continuation later requests go to descriptor 0. Proved for persistent ports, over any history of scans: closed only after maxattempts failures, silent until closed after that many, all requests of the scan go to the line; the loop ends only for inhibit time 0."
  },
  {
   "property": "C115",
   "status": "partial",
   "theorems": [
    "C115_same_partial",
    "C115_set",
    "C115_mixed_refuted"
   ],
   "note": "REFUTED: with a serial and a TCP port there is an interleaving in which a TCP request is sent with the function for RTU. Proved: all ports with the same protocol, any interleaving; no call ever goes through an unset pointer."
  },
  {
   "property": "C116",
   "status": "partial",
   "theorems": [
    "C116_once",
    "C116_retried_partial",
    "C116_port_refuted",
    "C116_command_refuted",
    "C116_late_refuted"
   ],
   "note": "REFUTED: the result of an attempt is that of the last event of the last port only, so an event whose tag comes one second late is never added if a later command or port has no error; after 60 rounds none is added. Proved: over any number of rounds no event is added twice and none that was not asked for; events are tried again while the last command of the last port misses the tag of its trigger."
  },
  {
   "property": "C117",
   "status": "partial",
   "theorems": [
    "C117_initial",
    "C117_change",
    "C117_type_refuted",
    "C117_type_partial"
   ],
   "note": "REFUTED for the type of the command tags: the second port with such a tag uses a variable that was never set. Proved: the enable bits, both directions, for any number of commands and any junk; one port."
  },
  {
   "property": "C118",
   "status": "partial",
   "theorems": [
    "C118_start_partial",
    "C118_first_refuted",
    "C118_again_refuted",
    "C118_missing_refuted"
   ],
   "note": "REFUTED: the barrier is used again after each error but never opens a second time, so that a port whose first attempt fails, or a slave or server that meets one error (such as a read error on one connection), is not served in any continuation; if one port has no thread, no port is ever served and the module never reports that it runs. Proved: if all ports can be opened, all are served, in every order of arrival."
  },
  {
   "property": "C119",
   "status": "partial",
   "theorems": [
    "C119_sent_partial",
    "C119_read_refuted",
    "C119_write_refuted",
    "C119_function_refuted",
    "C119_written_back",
    "C119_response_partial",
    "C119_stale_refuted"
   ],
   "note": "REFUTED: nothing in the tag is checked. Reading 121 to 125 registers, which is legal, stores beyond the data area of 240 bytes; writing 121 to 123 reads beyond it; an unknown function is sent with an uninitialised length; without a connection the response is that of the command before, 0 at first, which means success. Proved over TCP: a legal command that fits is sent as the protocol wants it; an answer, an exception and silence are reported; only send and response are changed in the tag."
  },
  {
   "property": "C120",
   "status": "partial",
   "theorems": [
    "C120_parity_refuted",
    "C120_serial_partial",
    "C120_timeout_refuted",
    "C120_timeout_partial",
    "C120_address_partial",
    "C120_address_refuted"
   ],
   "note": "REFUTED: the parity is never stored; a number of retries of 0 replaces the timeout by one millisecond; an address of 15 characters is not terminated. Proved: the other settings of a serial port, timeouts with 1 to 100 retries, addresses of up to 14 characters."
  },
  {
   "property": "C121",
   "status": "partial",
   "theorems": [
    "C121_result_partial",
    "C121_group_refuted",
    "C121_unknown_refuted",
    "C121_alone_refuted"
   ],
   "note": "REFUTED: the user is changed before the group, so with a group root always fails and the module ends; an unknown group is a null pointer; a group without a user reads an uninitialised variable. Proved: the module goes on only with the user and group that were asked for."
  },
  {
   "property": "C122",
   "status": "partial",
   "theorems": [
    "C122_buffers_partial",
    "C122_leak_refuted",
    "C122_many_refuted"
   ],
   "note": "REFUTED: the buffer of each connection ever accepted is kept for ever; a descriptor above 1023 is written beyond the set. Proved for descriptors up to 1023: buffers, set and maxfd."
  },
  {
   "property": "C123",
   "status": "partial",
   "theorems": [
    "C123_add_partial",
    "C123_del_partial",
    "C123_seen_partial",
    "C123_size_refuted",
    "C123_del_size_refuted",
    "C123_edge_refuted",
    "C123_bool_refuted"
   ],
   "note": "REFUTED: handles of more than 2038 bytes (4080 for deletion) overflow the message buffer of the library before the size check; a bit slice with offset and a multiple of 8 bits at the end of a tag is refused; an override on a BOOL tag makes the server write outside its memory. Proved: the message carries exactly the mask and data of the handle, and for non-BOOL tags readers see the mix."
  },
  {
   "property": "C124",
   "status": "partial",
   "theorems": [
    "C124_get_partial",
    "C124_offset_refuted",
    "C124_bits_refuted",
    "C124_none_refuted",
    "C124_size_refuted"
   ],
   "note": "REFUTED: the server copies from the beginning of the tag whatever the offset; bit slices are not shifted; a tag without override makes the server follow a null pointer; more than 2044 bytes overflow the answer buffer. Proved for handles at the beginning of a non-BOOL tag with an override."
  },
  {
   "property": "C125",
   "status": "partial",
   "theorems": [
    "C125_roundtrip_partial",
    "C125_bits_partial",
    "C125_string_refuted"
   ],
   "note": "REFUTED: a string shorter than the CHAR array is stored with uninitialised memory behind it. Proved end to end (conversion, splitting, server, conversion back) for every value that a tag of the type can have, for tags without mapping and override, and for BOOL slices whose message fits the tag."
  },
  {
   "property": "C126",
   "status": "partial",
   "theorems": [
    "C126_absent_partial",
    "C126_array_partial",
    "C126_time_refuted",
    "C126_slice_refuted"
   ],
   "note": "REFUTED: bits of a BOOL slice that the table does not name get uninitialised memory (dax_tag_mask ignores the mask of bit slices); elements of TIME arrays are written 4 bytes apart. Proved for members of compound types and elements of arrays of the other types."
  },
  {
   "property": "C127",
   "status": "partial",
   "theorems": [
    "C127_override_partial",
    "C127_atomic_partial",
    "C127_override_refuted",
    "C127_atomic_refuted"
   ],
   "note": "REFUTED: elements that the table does not name take uninitialised memory as override or operand (the mask is computed and not used). Proved for values that name everything."
  },
  {
   "property": "C128",
   "status": "partial",
   "theorems": [
    "C128_del_partial",
    "C128_absent_refuted",
    "C128_other_refuted"
   ],
   "note": "REFUTED: the result of the lookup is ignored, an unknown name deletes the tag whose number is in uninitialised memory and the script sees success. Proved for names of existing tags."
  },
  {
   "property": "C129",
   "status": "partial",
   "theorems": [
    "C129_read_partial",
    "C129_static",
    "C129_write_partial",
    "C129_stop_refuted",
    "C129_deleted_refuted"
   ],
   "note": "REFUTED: a global whose write fails stops all that were configured before it; after a tag is deleted and created again its READ global stays nil for ever. Proved: values before the run (tags without override), static variables and _firstrun, and, if no write is refused, the tags afterwards and that no other tag changes."
  },
  {
   "property": "C130",
   "status": "partial",
   "theorems": [
    "C130_count",
    "C130_disabled",
    "C130_failed_partial",
    "C130_failed_refuted",
    "C130_self_refuted",
    "C130_order_refuted",
    "C130_stack_refuted"
   ],
   "note": "REFUTED: a worker that waits for the lock runs the script again after it failed; disable_self is undone by the message about the module's own earlier write of the tag; an old enable command overrules a newer write to the tag; every failing run leaves a value on the Lua stack. Proved: counting of runs and _firstrun under all interleavings, a disabled script stays so until enabled, a failed script stays so if no run waits."
  },
  {
   "property": "C131",
   "status": "partial",
   "theorems": [
    "C131_run",
    "C131_user_partial",
    "C131_stale_refuted",
    "C131_livelock_refuted"
   ],
   "note": "REFUTED: a write to the tag during a run makes the module enable and disable the script for ever; commands do not update the tag. Proved: the tag after a run, and the reaction to a write when nothing else is under way."
  },
  {
   "property": "C132",
   "status": "partial",
   "theorems": [
    "C132_found_partial",
    "C132_unknown_partial",
    "C132_negative_refuted",
    "C132_wrap_refuted"
   ],
   "note": "REFUTED: negative numbers read before the array, numbers of more than 31 bits are cut off. Proved for all lists of named scripts, all names and numbers from 0."
  },
  {
   "property": "C133",
   "status": "partial",
   "theorems": [
    "C133_stored_partial",
    "C133_names",
    "C133_auto_refuted",
    "C133_trigger_refuted",
    "C133_refused_refuted"
   ],
   "note": "REFUTED: auto_run is true by default; a trigger without tag or type passes NULL to strdup or strcasecmp; a refused table without a name stays in the list. Proved: what is stored for an accepted table, and that names are unique after any sequence of calls."
  },
  {
   "property": "C134",
   "status": "partial",
   "theorems": [
    "C134_scripts",
    "C134_period_partial",
    "C134_period_refuted",
    "C134_overrun_refuted"
   ],
   "note": "REFUTED: the nanoseconds are added instead of subtracted, so the scripts' time lengthens the period twice, or a round that crosses a second counts as an overrun. Proved: which scripts a thread runs; the period when the nanoseconds are equal."
  },
  {
   "property": "C135",
   "status": "partial",
   "theorems": [
    "C135_once_partial",
    "C135_lost_refuted"
   ],
   "note": "REFUTED: an event that is refused after its tag was found is never retried, and success is logged. Proved when every tag found can have its event."
  },
  {
   "property": "C136",
   "status": "proved",
   "theorems": [
    "C136_running",
    "C136_faulted"
   ],
   "note": ""
  },
  {
   "property": "C137",
   "status": "proved",
   "theorems": [
    "C137_status"
   ],
   "note": ""
  },
  {
   "property": "C138",
   "status": "proved",
   "theorems": [
    "C138_run",
    "C138_stop",
    "C138_kill"
   ],
   "note": ""
  },
  {
   "property": "C139",
   "status": "proved",
   "theorems": [
    "C139_registered",
    "C139_told",
    "C139_commands"
   ],
   "note": ""
  },
  {
   "property": "C140",
   "status": "proved",
   "theorems": [
    "C140_finds",
    "C140_no_tag",
    "C140_stays",
    "C140_asked"
   ],
   "note": "The first state is a hypothesis (names_served): a retention file naming _my_tagname could change it at start-up; after that no request can."
  },
  {
   "property": "C141",
   "status": "partial",
   "theorems": [
    "C141_delivered",
    "C141_safe_partial",
    "C141_file_refuted"
   ],
   "note": "REFUTED: a stdio service for a file other than stdout and stderr is accepted and its first message uses a FILE pointer nobody set (C141_file_refuted); the rest holds, and nothing is undefined while all services are usable."
  },
  {
   "property": "C142",
   "status": "partial",
   "theorems": [
    "C142_topics",
    "C142_names_partial",
    "C142_logic_refuted",
    "C142_space_refuted"
   ],
   "note": "REFUTED: LOGIC and LOGICERR are printed but cannot be asked for - as the default topics they silence fatal errors too - and a blank behind a comma hides a topic. The mask itself is exactly as stated, and the names agree for the other thirteen topics."
  },
  {
   "property": "C143",
   "status": "partial",
   "theorems": [
    "C143_added",
    "C143_all_or_nothing",
    "C143_end_to_end",
    "C143_missing_refuted",
    "C143_ignored_refuted"
   ],
   "note": "REFUTED: an entry without type, file or priority hands a null pointer to strcasecmp, and refused entries are silently skipped because the error code is taken as a number of Lua results. Complete entries do what is stated, up to the delivery of messages."
  },
  {
   "property": "C144",
   "status": "partial",
   "theorems": [
    "C144_made_partial",
    "C144_inject_refuted",
    "C144_again_refuted"
   ],
   "note": "REFUTED: a member name with commas and colons passes the library and adds other members than asked for (C144_inject_refuted); making a type again in the same module doubles its members and its size in the library, with the server of the same type unchanged (C144_again_refuted, for runs where the status word the server sends uninitialised is not negative). For well-formed wishes the full claim is proved (C144_made_partial)."
  },
  {
   "property": "C145",
   "status": "partial",
   "theorems": [
    "C145_made_partial",
    "C145_count_refuted",
    "C145_shape_refuted",
    "C145_untyped"
   ],
   "note": "REFUTED: a member without count is registered on the server for good and its description is then released twice (C145_count_refuted); a member that is no table, a first member without name and a missing type name dereference null or misuse the Lua stack (C145_shape_refuted). For complete tables the full claim is proved (C145_made_partial). A member without a type is refused and the server not asked (C145_untyped)."
  },
  {
   "property": "C146",
   "status": "partial",
   "theorems": [
    "C146_registered",
    "C146_unknown",
    "C146_time_refuted",
    "C146_range_refuted"
   ],
   "note": "REFUTED: for a TIME tag only four of the eight bytes of the reference value are set, the others are left by an earlier call (C146_time_refuted); a number outside the range of the type and a missing kind are undefined behaviour (C146_range_refuted). For all calls that return, on integer types but TIME and on LREAL, the full claim is proved (C146_registered, C146_unknown)."
  },
  {
   "property": "C147",
   "status": "partial",
   "theorems": [
    "C147_called",
    "C147_nothing_refuted"
   ],
   "note": "REFUTED: nil, 0, texts and tables are accepted as callback and raise a Lua error inside dax_event_select when the event arrives (C147_nothing_refuted). Which value is called with which data is proved for all histories (C147_called)."
  },
  {
   "property": "C148",
   "status": "partial",
   "theorems": [
    "C148_logged_partial",
    "C148_safe_partial",
    "C148_format_refuted",
    "C148_doubled"
   ],
   "note": "REFUTED: the text of the script is used as a printf format (C148_format_refuted). For texts without percent signs both halves are proved (C148_logged_partial, C148_safe_partial). With every percent sign written twice the meant text is logged (C148_doubled)."
  },
  {
   "property": "C149",
   "status": "partial",
   "theorems": [
    "C149_added",
    "C149_found",
    "C149_unknown",
    "C149_roundtrip",
    "C149_script",
    "C149_deleted_partial",
    "C149_lost_refuted",
    "C149_crash_refuted"
   ],
   "note": "REFUTED: deleting a mapping that is not the newest of its tag loses others (C149_lost_refuted) and deleting an id twice ends the server (C149_crash_refuted). Adding and looking up, from C and from Lua, is proved in full (C149_added, C149_found, C149_unknown, C149_roundtrip, C149_script); what deletion does to the id given is proved (C149_deleted_partial)."
  },
  {
   "property": "C150",
   "status": "partial",
   "theorems": [
    "C150_added_partial",
    "C150_read_partial",
    "C150_safe_partial",
    "C150_written_partial",
    "C150_deleted",
    "C150_small_refuted",
    "C150_bits_refuted",
    "C150_count_refuted"
   ],
   "note": "REFUTED: reading a group of less than four bytes overflows a buffer of its size (C150_small_refuted), and single bits are read at their place in the byte and written with all their neighbours (C150_bits_refuted). For members that are readable without a virtual function, reading returns the members' bytes (C150_read_partial), without undefined behaviour for whole values of base types (C150_safe_partial); writing stores the consecutive parts in the members (C150_written_partial); deletion is proved in full (C150_deleted). A handle whose count does not fit its size overruns the buffer (C150_count_refuted)."
  },
  {
   "property": "C151",
   "status": "partial",
   "theorems": [
    "C151_words",
    "C151_lossless",
    "C151_safe_partial",
    "C151_overflow_refuted"
   ],
   "note": "REFUTED: the array of the tokens is seven bytes too small for the NULL at its end, for every command (C151_overflow_refuted). The splitting itself is proved in full (C151_words, C151_lossless); it is safe where malloc hands out multiples of 8 bytes (C151_safe_partial)."
  },
  {
   "property": "C152",
   "status": "partial",
   "theorems": [
    "C152_commands",
    "C152_comment",
    "C152_other_refuted"
   ],
   "note": "REFUTED: words that are no command are obeyed if they begin with a, r, wr or op (C152_other_refuted). Every real command runs its function (C152_commands) and comments run nothing (C152_comment)."
  },
  {
   "property": "C153",
   "status": "partial",
   "theorems": [
    "C153_once_partial",
    "C153_twice_refuted",
    "C153_blank_refuted",
    "C153_empty_refuted",
    "C153_long_refuted"
   ],
   "note": "REFUTED: the last line is run twice if it ends with a newline (C153_twice_refuted), a blank last line and an empty file are undefined (C153_blank_refuted, C153_empty_refuted), lines above 255 characters are split (C153_long_refuted). Proved for files of shorter lines without a newline at the end (C153_once_partial)."
  },
  {
   "property": "C154",
   "status": "partial",
   "theorems": [
    "C154_values_partial",
    "C154_text",
    "C154_skip_refuted",
    "C154_compound_refuted"
   ],
   "note": "REFUTED: ~ does not leave a BOOL unchanged (C154_skip_refuted) and writing a compound tag sets it to zero (C154_compound_refuted). Proved for the integer types (C154_values_partial) and for texts (C154_text)."
  },
  {
   "property": "C155",
   "status": "partial",
   "theorems": [
    "C155_values_partial",
    "C155_inc_refuted",
    "C155_xnor_refuted"
   ],
   "note": "REFUTED: INC and DEC without a value report success and do nothing (C155_inc_refuted), XNOR is done as XOR (C155_xnor_refuted). For integer types and all other operations, the message sent is the operation with the values given (C155_values_partial)."
  },
  {
   "property": "C156",
   "status": "partial",
   "theorems": [
    "C156_deleted",
    "C156_absent",
    "C156_override_partial",
    "C156_none_refuted",
    "C156_long_refuted",
    "C156_unknown_refuted"
   ],
   "note": "REFUTED: SET, CLEAR and DEL OVERRIDE of an unknown tag use a handle never set (C156_unknown_refuted), DEL TAG without a name reads NULL and with a long name uses an unset structure (C156_none_refuted, C156_long_refuted). Deleting by name (C156_deleted, C156_absent) and overrides of integer tags (C156_override_partial) are proved."
  },
  {
   "property": "C157",
   "status": "partial",
   "theorems": [
    "C157_all",
    "C157_page_partial",
    "C157_last_refuted"
   ],
   "note": "REFUTED: paging never shows the last tag when a page ends just before it (C157_last_refuted). LIST TAGS without a count shows all tags (C157_all), a page shows the tags from where it starts (C157_page_partial). Assumes that _lastindex holds the last index."
  },
  {
   "property": "C158",
   "status": "partial",
   "theorems": [
    "C158_added_partial",
    "C158_type",
    "C158_attribute_refuted",
    "C158_name_refuted",
    "C158_word"
   ],
   "note": "REFUTED: a word that is no attribute after a count is ignored and the tag is made without attributes (C158_attribute_refuted); names of 29 to 32 characters overrun a buffer of the library (C158_name_refuted). Proved for names of at most 28 characters and attributes that exist (C158_added_partial); an unknown type is refused by the server (C158_type). A third word that is neither count nor attribute is refused (C158_word)."
  },
  {
   "property": "C159",
   "status": "partial",
   "theorems": [
    "C159_registered_partial",
    "C159_unknown",
    "C159_time_refuted",
    "C159_range_refuted"
   ],
   "note": "REFUTED: for TIME half of the reference value is uninitialised memory (C159_time_refuted) and numbers out of range are cut to their low bits (C159_range_refuted). Proved for the other integer types and numbers in range (C159_registered_partial); unknown kinds are refused (C159_unknown). The reference values of REAL and LREAL are not covered."
  },
  {
   "property": "C160",
   "status": "partial",
   "theorems": [
    "C160_numbered",
    "C160_full_refuted",
    "C160_last_refuted",
    "C160_modulo_refuted"
   ],
   "note": "REFUTED: a place is never free again, after 64 events no more can be added (C160_full_refuted); DEL EVENT 65 reads past the table (C160_last_refuted); numbers are taken modulo 2^32 (C160_modulo_refuted). Numbering, printing and deleting are proved for all sessions (C160_numbered), as long as there are fewer than 2^31 tags and events per tag."
  },
  {
   "property": "C161",
   "status": "partial",
   "theorems": [
    "C161_values",
    "C161_bits",
    "C161_text_partial",
    "C161_written",
    "C161_unknown",
    "C161_zero_refuted"
   ],
   "note": "REFUTED for CHAR tags that hold zeros: a space and the zero itself are printed for each (C161_zero_refuted). Proved for all integer types (C161_values), for bits (C161_bits), for texts without zeros (C161_text_partial), for reading after writing (C161_written) and for names that cannot be resolved (C161_unknown). REAL, LREAL, TIME and compound tags are not covered."
  },
  {
   "property": "C162",
   "status": "partial",
   "theorems": [
    "C162_made_partial",
    "C162_words",
    "C162_left_out_refuted",
    "C162_result_refuted"
   ],
   "note": "REFUTED: a member that cannot be made is left out and the type is made without it (C162_left_out_refuted); a refusal of the server is reported as success (C162_result_refuted). Proved for well-formed descriptions (C162_made_partial) and for wrong numbers of words (C162_words)."
  },
  {
   "property": "C163",
   "status": "partial",
   "theorems": [
    "C163_mapped",
    "C163_agreed",
    "C163_refused",
    "C163_result_refuted",
    "C163_count_refuted"
   ],
   "note": "REFUTED: a refusal of the server is reported as success (C163_result_refuted) and counts are taken modulo 2^32 (C163_count_refuted). Proved: the mapping made is the one described (C163_mapped), it is made when the server agrees (C163_agreed), bad counts and names are refused (C163_refused)."
  },
  {
   "property": "C164",
   "status": "partial",
   "theorems": [
    "C164_all",
    "C164_members",
    "C164_base",
    "C164_unknown_refuted",
    "C164_again_refuted"
   ],
   "note": "REFUTED: a name that is no type lists all types, each as if it were a member of its own type (C164_unknown_refuted); after the second such question the first type of the server shows every member twice (C164_again_refuted). Proved in full: all types; the members of a type; nothing for a base type."
  },
  {
   "property": "C165",
   "status": "proved",
   "theorems": [
    "C165_places",
    "C165_types"
   ],
   "note": "For types with a layout in the sense of C37, which excludes those whose size does not fit the 32 bit counter of the server."
  },
  {
   "property": "C166",
   "status": "partial",
   "theorems": [
    "C166_lines_partial",
    "C166_elements_partial",
    "C166_data",
    "C166_array_refuted"
   ],
   "note": "REFUTED: of a member that is an array of a compound type only the first element is printed (C166_array_refuted). Proved for any nesting of single compound members, whole numbers, bits and texts without zeros (C166_lines_partial, C166_elements_partial); the data are those stored (C166_data). Missing: REAL, LREAL and TIME values, whose texts are left open in the model, and texts with zeros, which are printed as a space and a zero (C161)."
  },
  {
   "property": "C167",
   "status": "partial",
   "theorems": [
    "C167_tag",
    "C167_bit_partial",
    "C167_member_partial",
    "C167_member_bit_partial",
    "C167_back_partial",
    "C167_index_refuted",
    "C167_element_refuted",
    "C167_first_refuted",
    "C167_bit0_refuted",
    "C167_carry_refuted"
   ],
   "note": "REFUTED: bits or members in the first byte of the first element get a name without index when their number equals the number of elements of the tag (C167_index_refuted, C167_element_refuted); the first member of a compound member gets the name of the compound (C167_first_refuted), bit 0 of a member that of the member (C167_bit0_refuted); after two BOOL members that leave more than 8 bits over, the next member gets the name of one of its bits (C167_carry_refuted). Proved in full for tags and their elements (C167_tag), and outside of these cases for bits of tags (C167_bit_partial), members of any depth (C167_member_partial, C167_back_partial) and bits of them (C167_member_bit_partial). Missing: handles whose bit number is above 7, names of 1024 characters and more."
  },
  {
   "property": "C168",
   "status": "proved",
   "theorems": [
    "C168_count",
    "C168_none",
    "C168_base"
   ],
   "note": ""
  },
  {
   "property": "C169",
   "status": "partial",
   "theorems": [
    "C169_looked_at",
    "C169_run_partial",
    "C169_fatal",
    "C169_group_refuted",
    "C169_exchange_refuted"
   ],
   "note": "REFUTED: a file that the members of group 0 may write is run, and the file is looked at and opened by name, so the owner of the directory can exchange it in between. Proved: the file looked at is root's and not writable by others; if the name stands for the same file both times and the group may not write it, nobody but root can write the file that is run; a file that fails is fatal."
  },
  {
   "property": "C170",
   "status": "partial",
   "theorems": [
    "C170_pidfile",
    "C170_daemonize",
    "C170_spelling_refuted"
   ],
   "note": "REFUTED in one point: the long option is spelt --deamonize, so --daemonize is ignored. The precedence is proved in full."
  },
  {
   "property": "C171",
   "status": "partial",
   "theorems": [
    "C171_processes",
    "C171_noenv",
    "C171_fatal_refuted",
    "C171_user_refuted",
    "C171_range_refuted",
    "C171_env_refuted"
   ],
   "note": "REFUTED: an entry without name or path is left out silently; a user or group of another type is strdup(NULL); limits out of the range of int are undefined; the string of env is kept in the Lua state and read by _print_process_list after lua_close. Proved: the processes are the complete entries in order, each with all the fields of its table."
  },
  {
   "property": "C172",
   "status": "partial",
   "theorems": [
    "C172_kept",
    "C172_rotate",
    "C172_safe",
    "C172_parse_partial",
    "C172_char_refuted",
    "C172_open_refuted",
    "C172_compound_refuted",
    "C172_name_refuted"
   ],
   "note": "REFUTED: a file that cannot be opened is not noticed and the first record goes to fprintf(NULL); a compound value prints an uninitialised buffer; a character that is a line feed breaks the line; with a directory of 255 characters or more a rotation opens the same name again. Proved: no record is lost or reordered over any sequence of calls; a rotation opens the file of its time; with files that open and values that have a text nothing is undefined; lines whose value has no line feed tell the record."
  },
  {
   "property": "C173",
   "status": "partial",
   "theorems": [
    "C173_daemon",
    "C173_result",
    "C173_pidfile_refuted",
    "C173_fork_refuted",
    "C173_null_refuted"
   ],
   "note": "REFUTED: the file for the process id is unlinked as soon as it is written and its name is fixed, so the configured file is never written; when fork fails main does not look at the result and goes on in the foreground; if /dev/null cannot be opened nothing stands in for the standard descriptors. Proved: with new process ids, room for three descriptors and /dev/null, whatever was open before and whether or not the file for the process id can be opened, the result is a daemon and its id was told to standard error."
  },
  {
   "property": "C174",
   "status": "partial",
   "theorems": [
    "C174_due_partial",
    "C174_signal",
    "C174_errno_refuted"
   ],
   "note": "REFUTED: errno is tested although nanosleep succeeded, so EINVAL left by an earlier call makes the assertion fail and the master abort. Proved: if errno is not EINVAL when the sleep begins, the times are exact for any sequence of interruptions."
  }
 ]
}
