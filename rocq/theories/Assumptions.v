(** * Assumptions: what the claimed theorems depend on *)
(** One definition per property collects the theorems the manifest names for it; the last line lists every
    axiom any of them uses.  It prints "Closed under the global context": there is none. *)
From Verif Require Prop_Tags Prop_Data Prop_Override Prop_Modules Prop_Events Prop_Queue Prop_Maps Prop_Groups Prop_Atomic Prop_Types Prop_Wire Prop_Encode Prop_ClientData Prop_Path Prop_Cache Prop_ClientRx Prop_Text Prop_Crc Prop_Modbus Prop_ModbusWrite Prop_ModbusSafe Prop_ModbusMaster Prop_Retain Prop_ModbusPoll Prop_Master Prop_Hist Prop_Script Prop_LuaConv Prop_Safe Prop_Plctag Prop_PlcQueue Prop_MqttTopic Prop_MqttLoop Prop_MqttData Prop_Answer Prop_Deliver Prop_Opt Prop_ServerOpt Prop_Concur Prop_MbPort Prop_MbScan Prop_MbStart Prop_MbTags Prop_ClientOvr Prop_LuaApi Prop_ScriptRun Prop_Util Prop_Log Prop_CdtNew Prop_LuaEvent Prop_ClientMap Prop_Daxc Prop_DaxcCmd Prop_DaxcTags Prop_DaxcEvent Prop_DaxcRead Prop_DaxcType Prop_CdtIter Prop_DaxcCompound Prop_Fqn Prop_MstrConf Prop_DhlFile Prop_Daemon Prop_StartDelay.

Definition all_C01 := (@Prop_Tags.C01_lookup_live,
  @Prop_Tags.C01_lookup_absent,
  @Prop_Tags.C01_unique_names,
  @Prop_Tags.C01_quiet,
  @Prop_Tags.C01_add,
  @Prop_Tags.C01_del,
  @Prop_Tags.C01_disconnect,
  @Prop_Tags.C01_register,
  @Prop_Tags.C01_history_keep,
  @Prop_Tags.C01_history_origin).
Definition all_C02 := (@Prop_Tags.C02_index_permanent,
  @Prop_Tags.C02_gone_forever,
  @Prop_Tags.C02_new_tag_new_index,
  @Prop_Tags.C02_refuted_gone_accepts).
Definition all_C03 := (@Prop_Tags.C03_count,
  @Prop_Tags.C03_next_index).
Definition all_C04 := (@Prop_Data.C04_read_stored,
  @Prop_Data.C04_write_stores,
  @Prop_Data.C04_mask_stores,
  @Prop_Data.C04_read_after_write).
Definition all_C05 := (@Prop_Data.C05_write_exact,
  @Prop_Data.C05_other_tags).
Definition all_C06 := @Prop_Data.C06_mask_bits.
Definition all_C07 := @Prop_Data.C07_refused_unchanged.
Definition all_C08 := (@Prop_Data.C08_past_end_refused,
  @Prop_Data.C08_unknown_index_refused,
  @Prop_Data.C08_inside_not_too_big,
  @Prop_Data.C08_refuted_write_wild_index).
Definition all_C09 := (@Prop_Data.C09_refuted,
  @Prop_Data.C09_nonneg_read_partial,
  @Prop_Data.C09_accepted_inside_partial).
Definition all_C10 := (@Prop_Tags.C10_gone_refused,
  @Prop_Tags.C10_deleted_stays_deleted).
Definition all_C11 := @Prop_Tags.C11_readd_idempotent.
Definition all_C12 := (@Prop_Data.C12_refuted_garbage,
  @Prop_Data.C12_refuted_shrink,
  @Prop_Data.C12_prefix_kept_partial).
Definition all_C13 := (@Prop_Override.C13_read_mixes,
  @Prop_Override.C13_write_under,
  @Prop_Override.C13_clear,
  @Prop_Override.C13_install,
  @Prop_Override.C13_set,
  @Prop_Override.C13_cycle,
  @Prop_Override.C13_delete).
Definition all_C14 := (@Prop_Override.C14_installs_partial,
  @Prop_Override.C14_defined_partial,
  @Prop_Override.C14_outside_partial,
  @Prop_Override.C14_bool_refuted,
  @Prop_Override.C14_outside_refuted).
Definition all_C15 := (@Prop_Override.C15_truthful_partial,
  @Prop_Override.C15_history_partial,
  @Prop_Override.C15_refuted).
Definition all_C16 := (@Prop_Data.C16_write,
  @Prop_Data.C16_mask,
  @Prop_Data.C16_atomic,
  @Prop_Data.C16_owner).
Definition all_C17 := (@Prop_Data.C17_refuted_group,
  @Prop_Data.C17_refuted_delete,
  @Prop_Data.C17_refuted_mapping,
  @Prop_Data.C17_protected_partial).
Definition all_C18 := (@Prop_Modules.C18_status_protected,
  @Prop_Modules.C18_permitted).
Definition all_C19 := (@Prop_Tags.C19_add_refused,
  @Prop_Tags.C19_del_refused,
  @Prop_Tags.C19_reserved_names_stable).
Definition all_C20 := (@Prop_Modules.C20_disconnect,
  @Prop_Modules.C20_nothing_new).
Definition all_C21 := (@Prop_Modules.C21_server_tags_partial,
  @Prop_Modules.C21_excluded_only_partial,
  @Prop_Modules.C21_refuted).
Definition all_C22 := (@Prop_Modules.C22_own_tag_partial,
  @Prop_Modules.C22_shared_refuted,
  @Prop_Modules.C22_undefined_refuted).
Definition all_C23 := (@Prop_Events.C23_write_event_partial,
  @Prop_Events.C23_registered,
  @Prop_Events.C23_refuted,
  @Prop_Events.C23_empty_write_refuted).
Definition all_C24 := (@Prop_Events.C24_change_event,
  @Prop_Events.C24_repeat_silent,
  @Prop_Events.C24_always_saw,
  @Prop_Events.C23_registered).
Definition all_C25 := (@Prop_Events.C25_edge_event,
  @Prop_Events.C25_refuted).
Definition all_C26 := (@Prop_Events.C26_compare_event_partial,
  @Prop_Events.C26_time_refuted).
Definition all_C27 := (@Prop_Events.C27_deadband_event_partial,
  @Prop_Events.C27_refuted).
Definition all_C28 := (@Prop_Events.C28_ids_distinct,
  @Prop_Events.C28_never_reused,
  @Prop_Events.C28_only_owner,
  @Prop_Events.C28_foreign_no_effect).
Definition all_C29 := (@Prop_Queue.C29_fifo,
  @Prop_Queue.C29_read_works,
  @Prop_Queue.C29_write_works).
Definition all_C30 := (@Prop_Queue.C30_partial,
  @Prop_Queue.C30_refuted,
  @Prop_Queue.C30_heap_refuted,
  @Prop_Queue.C30_growth_partial).
Definition all_C31 := (@Prop_Maps.C31_write_copies,
  @Prop_Maps.C31_mask_copies,
  @Prop_Maps.C31_nothing_else).
Definition all_C32 := (@Prop_Maps.C32_partial,
  @Prop_Maps.C32_refuted,
  @Prop_Maps.C32_crash_refuted).
Definition all_C33 := (@Prop_Maps.C33_registered,
  @Prop_Maps.C33_distinct,
  @Prop_Maps.C33_same_twice,
  @Prop_Maps.C33_never_reused,
  @Prop_Maps.C33_query).
Definition all_C34 := (@Prop_Groups.C34_read,
  @Prop_Groups.C34_unknown,
  @Prop_Groups.C34_write_partial,
  @Prop_Groups.C34_readonly_refuted,
  @Prop_Groups.C34_mapping_refuted,
  @Prop_Groups.C34_outside_refuted).
Definition all_C35 := (@Prop_Groups.C35_partial,
  @Prop_Groups.C35_start,
  @Prop_Groups.C35_new_id,
  @Prop_Groups.C35_delete,
  @Prop_Groups.C35_refuted).
Definition all_C36 := (@Prop_Atomic.C36_bytes_partial,
  @Prop_Atomic.C36_bools_partial,
  @Prop_Atomic.C36_not,
  @Prop_Atomic.C36_count,
  @Prop_Atomic.C36_offset_refuted,
  @Prop_Atomic.C36_edge_refuted,
  @Prop_Atomic.C36_negated_refuted,
  @Prop_Atomic.C36_time_refuted,
  @Prop_Atomic.C36_bounds_refuted).
Definition all_C37 := (@Prop_Types.C37_partial,
  @Prop_Types.C37_defined,
  @Prop_Types.C37_wrap_refuted,
  @Prop_Types.C37_abort_refuted).
Definition all_C38 := (@Prop_Types.C38_partial,
  @Prop_Types.C38_empty_refuted,
  @Prop_Types.C38_count_refuted,
  @Prop_Types.C38_cache_refuted).
Definition all_C39 := (@Prop_Types.C39_roundtrip,
  @Prop_Types.C39_never_twice,
  @Prop_Types.C39_again_partial,
  @Prop_Types.C39_client_partial,
  @Prop_Types.C39_again_refuted,
  @Prop_Types.C39_spelling_refuted,
  @Prop_Types.C39_refetch_refuted).
Definition all_C40 := (@Prop_Types.C40_permanent,
  @Prop_Types.C40_one_definition,
  @Prop_Types.C40_names,
  @Prop_Types.C40_base_names,
  @Prop_Types.C40_answer).
Definition all_C41 := (@Prop_Wire.C41_partial,
  @Prop_Wire.C41_alone_partial,
  @Prop_Wire.C41_last_byte_refuted,
  @Prop_Wire.C41_stale_byte_refuted,
  @Prop_Wire.C41_length_cut_refuted,
  @Prop_Wire.C41_idle_refuted,
  @Prop_Wire.C41_error_refuted).
Definition all_C42 := (@Prop_Wire.C42_refuted,
  @Prop_Wire.C42_separate_partial).
Definition all_C43 := (@Prop_Wire.C43_framing_partial,
  @Prop_Wire.C43_small_refuted,
  @Prop_Wire.C43_4097_refuted).
Definition all_C44 := (@Prop_Encode.C44_tag_add,
  @Prop_Encode.C44_tag_del,
  @Prop_Encode.C44_read,
  @Prop_Encode.C44_write,
  @Prop_Encode.C44_mask,
  @Prop_Encode.C44_register,
  @Prop_Encode.C44_disconnect,
  @Prop_Encode.C44_byname,
  @Prop_Encode.C44_byindex,
  @Prop_Encode.C44_cdt_create,
  @Prop_Encode.C44_cdt_byname,
  @Prop_Encode.C44_cdt_bytype,
  @Prop_Encode.C44_event_del,
  @Prop_Encode.C44_event_options,
  @Prop_Encode.C44_map_del,
  @Prop_Encode.C44_map_get,
  @Prop_Encode.C44_group_read,
  @Prop_Encode.C44_group_del,
  @Prop_Encode.C44_group_write,
  @Prop_Encode.C44_get_override,
  @Prop_Encode.C44_set_override,
  @Prop_Encode.C44_map_add,
  @Prop_Encode.C44_group_add,
  @Prop_Encode.C44_atomic,
  @Prop_Encode.C44_event_add,
  @Prop_Encode.C44_event_add_data_partial,
  @Prop_Encode.C44_event_dword_refuted,
  @Prop_Encode.C44_long_name_refuted,
  @Prop_Encode.C44_atomic_wrap_refuted,
  @Prop_Encode.C44_offset_refuted).
Definition all_C45 := (@Prop_ClientData.C45_read,
  @Prop_ClientData.C45_read_succeeds,
  @Prop_ClientData.C45_write,
  @Prop_ClientData.C45_write_not_too_big,
  @Prop_ClientData.C45_type_refuted,
  @Prop_ClientData.C45_nested_refuted).
Definition all_C46 := @Prop_ClientData.C46_read_bits.
Definition all_C47 := (@Prop_ClientData.C47_write_bits_partial,
  @Prop_ClientData.C47_write_bytes,
  @Prop_ClientData.C47_refuted,
  @Prop_ClientData.C47_2040_refuted).
Definition all_C48 := (@Prop_ClientData.C48_mask_partial,
  @Prop_ClientData.C48_refuted).
Definition all_C49 := (@Prop_Path.C49_member_partial,
  @Prop_Path.C49_tag,
  @Prop_Path.C49_bit,
  @Prop_Path.C49_no_tag,
  @Prop_Path.C49_no_member_partial,
  @Prop_Path.C49_too_many,
  @Prop_Path.C49_align_refuted,
  @Prop_Path.C49_member_bit_refuted,
  @Prop_Path.C49_bits_wrap_refuted,
  @Prop_Path.C49_bit_number_refuted,
  @Prop_Path.C49_index_refuted,
  @Prop_Path.C49_bit_index_refuted,
  @Prop_Path.C49_element_bit_refuted,
  @Prop_Path.C49_count_refuted,
  @Prop_Path.C49_outside_refuted).
Definition all_C50 := (@Prop_Cache.C50_safe,
  @Prop_Cache.C50_by_name,
  @Prop_Cache.C50_by_index,
  @Prop_Cache.C50_added_found,
  @Prop_Cache.C50_limit_partial,
  @Prop_Cache.C50_limit_zero_refuted,
  @Prop_Cache.C50_duplicate_refuted,
  @Prop_Cache.C50_purged,
  @Prop_Cache.C50_answer,
  @Prop_Cache.C50_count_refuted).
Definition all_C51 := (@Prop_ClientRx.C51,
  @Prop_ClientRx.C51_order,
  @Prop_ClientRx.C51_all,
  @Prop_ClientRx.C51_newest).
Definition all_C52 := (@Prop_ClientRx.C52_partial,
  @Prop_ClientRx.C52_data,
  @Prop_ClientRx.C52_error,
  @Prop_ClientRx.C52_shift_refuted,
  @Prop_ClientRx.C52_late_refuted).
Definition all_C53 := (@Prop_Encode.C44_event_add_data_partial,
  @Prop_Encode.C53_truncated_partial,
  @Prop_Encode.C53_small).
Definition all_C54 := (@Prop_Text.C54_clamp_partial,
  @Prop_Text.C54_char,
  @Prop_Text.C54_bool,
  @Prop_Text.C54_roundtrip,
  @Prop_Text.C54_roundtrip_bool,
  @Prop_Text.C54_uint_refuted,
  @Prop_Text.C54_uint_minus_refuted,
  @Prop_Text.C54_ulint_refuted,
  @Prop_Text.C54_zero_refuted,
  @Prop_Text.C54_lint_refuted).
Definition all_C55 := (@Prop_Crc.C55_value,
  @Prop_Crc.C55_accepts,
  @Prop_Crc.C55_burst,
  @Prop_Crc.C55_byte,
  @Prop_Crc.C55_odd,
  @Prop_Crc.C55_two).
Definition all_C56 := (@Prop_Modbus.C56_words,
  @Prop_Modbus.C56_bits,
  @Prop_Modbus.C56_bad_address,
  @Prop_Modbus.C56_bad_function,
  @Prop_Modbus.C56_count_refuted,
  @Prop_Modbus.C56_padding_refuted,
  @Prop_Modbus.C56_zero_refuted,
  @Prop_Modbus.C56_uninit_refuted).
Definition all_C57 := (@Prop_ModbusWrite.C57_register,
  @Prop_ModbusWrite.C57_registers,
  @Prop_ModbusWrite.C57_coil,
  @Prop_ModbusWrite.C57_coils_partial,
  @Prop_ModbusWrite.C57_bad_address,
  @Prop_ModbusWrite.C57_bad_function,
  @Prop_ModbusWrite.C57_coils_refuted,
  @Prop_ModbusWrite.C57_readonly_refuted,
  @Prop_ModbusWrite.C57_short_frame_refuted,
  @Prop_ModbusWrite.C57_zero_refuted).
Definition all_C58 := (@Prop_ModbusSafe.C58_response_partial,
  @Prop_ModbusSafe.C58_stream_partial,
  @Prop_ModbusSafe.C58_serial_partial,
  @Prop_ModbusSafe.C58_read_refuted,
  @Prop_ModbusSafe.C58_write_refuted,
  @Prop_ModbusSafe.C58_checksum_refuted).
Definition all_C59 := (@Prop_ModbusMaster.C59_tcp,
  @Prop_ModbusMaster.C59_rtu_partial,
  @Prop_ModbusMaster.C59_accepted,
  @Prop_ModbusMaster.C59_tcp_coil_refuted,
  @Prop_ModbusMaster.C59_rtu_register_refuted,
  @Prop_ModbusMaster.C59_rtu_coils_refuted,
  @Prop_ModbusMaster.C59_rtu_long_refuted,
  @Prop_ModbusMaster.C59_limit_refuted).
Definition all_C60 := (@Prop_Retain.C60_registered,
  @Prop_Retain.C60_restart_partial,
  @Prop_Retain.C60_created_partial,
  @Prop_Retain.C60_second_refuted,
  @Prop_Retain.C60_rewritten_refuted,
  @Prop_Retain.C60_bool_refuted,
  @Prop_Retain.C60_deleted_refuted,
  @Prop_Retain.C60_recreated_refuted,
  @Prop_Retain.C60_resized_refuted,
  @Prop_Retain.C60_late_refuted).
Definition all_C61 := (@Prop_ClientRx.C61,
  @Prop_ClientRx.C61_data,
  @Prop_ClientRx.C61_outside).
Definition all_C62 := (@Prop_ClientRx.C62_partial,
  @Prop_ClientRx.C62_message,
  @Prop_ClientRx.C62_split_refuted,
  @Prop_ClientRx.C62_timeout_refuted).
Definition all_C63 := (@Prop_ClientRx.C63_when,
  @Prop_ClientRx.C63_partial,
  @Prop_ClientRx.C63_refuted).
Definition all_C64 := (@Prop_ModbusPoll.C64_words,
  @Prop_ModbusPoll.C64_bits,
  @Prop_ModbusPoll.C64_write).
Definition all_C65 := (@Prop_ModbusPoll.C65_rejected,
  @Prop_ModbusPoll.C65_safe_partial,
  @Prop_ModbusPoll.C65_stale_refuted,
  @Prop_ModbusPoll.C65_overflow_refuted,
  @Prop_ModbusPoll.C65_short_refuted,
  @Prop_ModbusPoll.C65_pieces_refuted).
Definition all_C66 := (@Prop_Master.C66_due,
  @Prop_Master.C66_not_early,
  @Prop_Master.C66_wakeup,
  @Prop_Master.C66_delays).
Definition all_C67 := (@Prop_Master.C67_recorded_partial,
  @Prop_Master.C67_ten_partial,
  @Prop_Master.C67_overflow,
  @Prop_Master.C67_overflow_refuted,
  @Prop_Master.C67_noticed_partial,
  @Prop_Master.C67_one_instance_partial,
  @Prop_Master.C67_reuse_refuted).
Definition all_C68 := (@Prop_Master.C68_own_children_partial,
  @Prop_Master.C68_group_refuted,
  @Prop_Master.C68_enforced,
  @Prop_Master.C68_turns).
Definition all_C69 := (@Prop_Master.C69_args_partial,
  @Prop_Master.C69_no_args_refuted,
  @Prop_Master.C69_listing_partial,
  @Prop_Master.C69_listing_refuted).
Definition all_C70 := (@Prop_Master.C70_user_partial,
  @Prop_Master.C70_group_refuted,
  @Prop_Master.C70_unknown_refuted).
Definition all_C71 := (@Prop_Hist.C71_tracks_partial,
  @Prop_Hist.C71_only_partial,
  @Prop_Hist.C71_before_partial,
  @Prop_Hist.C71_write,
  @Prop_Hist.C71_bool_refuted,
  @Prop_Hist.C71_uint_refuted,
  @Prop_Hist.C71_udint_refuted,
  @Prop_Hist.C71_time_refuted,
  @Prop_Hist.C71_overflow_refuted).
Definition all_C72 := (@Prop_Hist.C72_gap,
  @Prop_Hist.C72_no_gap,
  @Prop_Hist.C72_order_partial,
  @Prop_Hist.C72_first_refuted,
  @Prop_Hist.C72_lost_refuted).
Definition all_C73 := (@Prop_Script.C73_fifo_partial,
  @Prop_Script.C73_refused_partial,
  @Prop_Script.C73_overwrite_refuted,
  @Prop_Script.C73_start_refuted).
Definition all_C74 := (@Prop_Script.C74_runs_partial,
  @Prop_Script.C74_lost_wakeup_refuted,
  @Prop_Script.C74_deadlock_refuted).
Definition all_C75 := (@Prop_Script.C75_whole_partial,
  @Prop_Script.C75_period_refuted,
  @Prop_Script.C75_overrun_refuted).
Definition all_C76 := (@Prop_Script.C76_stored_partial,
  @Prop_Script.C76_seventeen_refuted).
Definition all_C77 := (@Prop_Script.C77_data_partial,
  @Prop_Script.C77_data_refuted).
Definition all_C78 := (@Prop_LuaConv.C78_read_total,
  @Prop_LuaConv.C78_store_partial,
  @Prop_LuaConv.C78_unchanged_partial,
  @Prop_LuaConv.C78_real_refuted,
  @Prop_LuaConv.C78_ulint_refuted,
  @Prop_LuaConv.C78_time_refuted,
  @Prop_LuaConv.C78_lint_refuted,
  @Prop_LuaConv.C78_string_refuted).
Definition all_C79 := (@Prop_LuaConv.C79_absent_partial,
  @Prop_LuaConv.C79_refused_partial,
  @Prop_LuaConv.C79_absent_refuted,
  @Prop_LuaConv.C79_array_refuted,
  @Prop_LuaConv.C79_nested_refuted,
  @Prop_LuaConv.C79_bool_refuted,
  @Prop_LuaConv.C79_range_refuted).
Definition all_C80 := (@Prop_Safe.C80_start_defined,
  @Prop_Safe.C80_run_defined,
  @Prop_Safe.C80_request_defined).
Definition all_C81 := (@Prop_Plctag.C81_read_partial,
  @Prop_Plctag.C81_bool_partial,
  @Prop_Plctag.C81_lreal_refuted,
  @Prop_Plctag.C81_short_refuted).
Definition all_C82 := (@Prop_Plctag.C82_write,
  @Prop_Plctag.C82_write_bool,
  @Prop_Plctag.C82_round_partial,
  @Prop_Plctag.C82_round_refuted).
Definition all_C83 := (@Prop_Plctag.C83_read_map_partial,
  @Prop_Plctag.C83_write_map_partial,
  @Prop_Plctag.C83_raw_partial,
  @Prop_Plctag.C83_map_refuted,
  @Prop_Plctag.C83_big_refuted).
Definition all_C84 := (@Prop_Plctag.C84_defined_partial,
  @Prop_Plctag.C84_early_change_refuted,
  @Prop_Plctag.C84_early_read_refuted,
  @Prop_Plctag.C84_overrun_refuted).
Definition all_C85 := (@Prop_PlcQueue.C85_written_partial,
  @Prop_PlcQueue.C85_deadlock_refuted,
  @Prop_PlcQueue.C85_overwrite_refuted,
  @Prop_PlcQueue.C85_lost_wakeup_refuted).
Definition all_C86 := (@Prop_PlcQueue.C86_echo_refuted,
  @Prop_PlcQueue.C86_out_partial).
Definition all_C87 := (@Prop_MqttTopic.C87_match_partial,
  @Prop_MqttTopic.C87_hash_partial,
  @Prop_MqttTopic.C87_plain,
  @Prop_MqttTopic.C87_plus_last_refuted,
  @Prop_MqttTopic.C87_plus_short_refuted,
  @Prop_MqttTopic.C87_plus_hash_refuted,
  @Prop_MqttTopic.C87_hash_refuted,
  @Prop_MqttTopic.C87_parent_refuted).
Definition all_C88 := (@Prop_MqttTopic.C88_found,
  @Prop_MqttTopic.C88_only_partial,
  @Prop_MqttTopic.C88_none,
  @Prop_MqttTopic.C88_shadow_refuted,
  @Prop_MqttTopic.C88_search_refuted).
Definition all_C89 := (@Prop_MqttTopic.C89_partial,
  @Prop_MqttTopic.C89_refuted,
  @Prop_MqttTopic.C89_index).
Definition all_C90 := (@Prop_MqttLoop.C90_retries,
  @Prop_MqttLoop.C90_pause,
  @Prop_MqttLoop.C90_reset).
Definition all_C91 := (@Prop_MqttLoop.C91_held_partial,
  @Prop_MqttLoop.C91_retried_partial,
  @Prop_MqttLoop.C91_lost_refuted,
  @Prop_MqttLoop.C91_reconnect_refuted,
  @Prop_MqttLoop.C91_group_refuted).
Definition all_C92 := (@Prop_MqttLoop.C92_active_partial,
  @Prop_MqttLoop.C92_never_refuted,
  @Prop_MqttLoop.C92_missing_refuted).
Definition all_C93 := (@Prop_MqttData.C93_raw_partial,
  @Prop_MqttData.C93_stored_partial,
  @Prop_MqttData.C93_short_refuted).
Definition all_C94 := (@Prop_MqttData.C94_value_partial,
  @Prop_MqttData.C94_round_partial,
  @Prop_MqttData.C94_nil_refuted,
  @Prop_MqttData.C94_failed_refuted,
  @Prop_MqttData.C94_table_refuted,
  @Prop_MqttData.C94_notags_refuted).
Definition all_C95 := (@Prop_MqttData.C95_raw_partial,
  @Prop_MqttData.C95_stored_partial,
  @Prop_MqttData.C95_round_partial,
  @Prop_MqttData.C95_filter_partial,
  @Prop_MqttData.C95_stale_refuted,
  @Prop_MqttData.C95_stale_group_refuted,
  @Prop_MqttData.C95_small_refuted,
  @Prop_MqttData.C95_notags_refuted,
  @Prop_MqttData.C95_error_refuted).
Definition all_C96 := (@Prop_Answer.C96_answer_partial,
  @Prop_Answer.C96_silent,
  @Prop_Answer.C96_history_partial,
  @Prop_Answer.C96_client_partial,
  @Prop_Answer.C96_decoded,
  @Prop_Answer.C96_unsupported_refuted,
  @Prop_Answer.C96_queue_refuted).
Definition all_C97 := (@Prop_Deliver.C97_fits,
  @Prop_Deliver.C97_delivered_partial,
  @Prop_Deliver.C97_change_partial,
  @Prop_Deliver.C97_race_refuted).
Definition all_C98 := (@Prop_Deliver.C98_calls_partial,
  @Prop_Deliver.C98_late_refuted).
Definition all_C99 := @Prop_Opt.C99_precedence.
Definition all_C100 := (@Prop_Opt.C100_unique,
  @Prop_Opt.C100_accepted,
  @Prop_Opt.C100_added,
  @Prop_Opt.C100_noletter_refuted,
  @Prop_Opt.C100_longname_refuted).
Definition all_C101 := (@Prop_Opt.C101_callback_refuted,
  @Prop_Opt.C101_callback_partial,
  @Prop_Opt.C101_calls).
Definition all_C102 := (@Prop_Opt.C102_file,
  @Prop_Opt.C102_freed_refuted).
Definition all_C103 := (@Prop_Opt.C103_name_partial,
  @Prop_Opt.C103_file_refuted).
Definition all_C104 := (@Prop_Opt.C104_timeout,
  @Prop_Opt.C104_value).
Definition all_C105 := (@Prop_Opt.C105_defined_partial,
  @Prop_Opt.C105_uninit_refuted,
  @Prop_Opt.C105_optional_refuted,
  @Prop_Opt.C105_longonly_refuted).
Definition all_C106 := (@Prop_Opt.C106_file_refuted,
  @Prop_Opt.C106_unmentioned).
Definition all_C107 := (@Prop_Opt.C107_set_get,
  @Prop_Opt.C107_defined_partial,
  @Prop_Opt.C107_default_refuted,
  @Prop_Opt.C107_literal_refuted).
Definition all_C108 := (@Prop_ServerOpt.C108_precedence_partial,
  @Prop_ServerOpt.C108_zero_refuted,
  @Prop_ServerOpt.C108_topics_refuted,
  @Prop_ServerOpt.C108_port_refuted).
Definition all_C109 := (@Prop_Concur.C109_read_atomic,
  @Prop_Concur.C109_read_elements,
  @Prop_Concur.C109_write,
  @Prop_Concur.C109_torn_refuted,
  @Prop_Concur.C109_mixed_refuted).
Definition all_C110 := (@Prop_MbPort.C110_routed_partial,
  @Prop_MbPort.C110_reused_partial,
  @Prop_MbPort.C110_defined_partial,
  @Prop_MbPort.C110_stale_refuted,
  @Prop_MbPort.C110_foreign_refuted,
  @Prop_MbPort.C110_full_refuted).
Definition all_C111 := (@Prop_MbPort.C111_lost_refuted,
  @Prop_MbPort.C111_reconnect_partial,
  @Prop_MbPort.C111_leak_refuted,
  @Prop_MbPort.C111_leak_kept_refuted).
Definition all_C112 := (@Prop_MbScan.C112_tries,
  @Prop_MbScan.C112_counters).
Definition all_C113 := @Prop_MbScan.C113_due.
Definition all_C114 := (@Prop_MbScan.C114_inhibit_partial,
  @Prop_MbScan.C114_lasting_partial,
  @Prop_MbScan.C114_again_refuted,
  @Prop_MbScan.C114_stdin_refuted,
  @Prop_MbScan.C114_ended_refuted,
  @Prop_MbScan.C114_nonpersistent_refuted).
Definition all_C115 := (@Prop_MbStart.C115_same_partial,
  @Prop_MbStart.C115_set,
  @Prop_MbStart.C115_mixed_refuted).
Definition all_C116 := (@Prop_MbStart.C116_once,
  @Prop_MbStart.C116_retried_partial,
  @Prop_MbStart.C116_port_refuted,
  @Prop_MbStart.C116_command_refuted,
  @Prop_MbStart.C116_late_refuted).
Definition all_C117 := (@Prop_MbStart.C117_initial,
  @Prop_MbStart.C117_change,
  @Prop_MbStart.C117_type_refuted,
  @Prop_MbStart.C117_type_partial).
Definition all_C118 := (@Prop_MbStart.C118_start_partial,
  @Prop_MbStart.C118_first_refuted,
  @Prop_MbStart.C118_again_refuted,
  @Prop_MbStart.C118_missing_refuted).
Definition all_C119 := (@Prop_MbTags.C119_sent_partial,
  @Prop_MbTags.C119_read_refuted,
  @Prop_MbTags.C119_write_refuted,
  @Prop_MbTags.C119_function_refuted,
  @Prop_MbTags.C119_written_back,
  @Prop_MbTags.C119_response_partial,
  @Prop_MbTags.C119_stale_refuted).
Definition all_C120 := (@Prop_MbTags.C120_parity_refuted,
  @Prop_MbTags.C120_serial_partial,
  @Prop_MbTags.C120_timeout_refuted,
  @Prop_MbTags.C120_timeout_partial,
  @Prop_MbTags.C120_address_partial,
  @Prop_MbTags.C120_address_refuted).
Definition all_C121 := (@Prop_MbTags.C121_result_partial,
  @Prop_MbTags.C121_group_refuted,
  @Prop_MbTags.C121_unknown_refuted,
  @Prop_MbTags.C121_alone_refuted).
Definition all_C122 := (@Prop_MbTags.C122_buffers_partial,
  @Prop_MbTags.C122_leak_refuted,
  @Prop_MbTags.C122_many_refuted).
Definition all_C123 := (@Prop_ClientOvr.C123_add_partial,
  @Prop_ClientOvr.C123_del_partial,
  @Prop_ClientOvr.C123_seen_partial,
  @Prop_ClientOvr.C123_size_refuted,
  @Prop_ClientOvr.C123_del_size_refuted,
  @Prop_ClientOvr.C123_edge_refuted,
  @Prop_ClientOvr.C123_bool_refuted).
Definition all_C124 := (@Prop_ClientOvr.C124_get_partial,
  @Prop_ClientOvr.C124_offset_refuted,
  @Prop_ClientOvr.C124_bits_refuted,
  @Prop_ClientOvr.C124_none_refuted,
  @Prop_ClientOvr.C124_size_refuted).
Definition all_C125 := (@Prop_LuaApi.C125_roundtrip_partial,
  @Prop_LuaApi.C125_bits_partial,
  @Prop_LuaApi.C125_string_refuted).
Definition all_C126 := (@Prop_LuaApi.C126_absent_partial,
  @Prop_LuaApi.C126_array_partial,
  @Prop_LuaApi.C126_time_refuted,
  @Prop_LuaApi.C126_slice_refuted).
Definition all_C127 := (@Prop_LuaApi.C127_override_partial,
  @Prop_LuaApi.C127_atomic_partial,
  @Prop_LuaApi.C127_override_refuted,
  @Prop_LuaApi.C127_atomic_refuted).
Definition all_C128 := (@Prop_LuaApi.C128_del_partial,
  @Prop_LuaApi.C128_absent_refuted,
  @Prop_LuaApi.C128_other_refuted).
Definition all_C129 := (@Prop_ScriptRun.C129_read_partial,
  @Prop_ScriptRun.C129_static,
  @Prop_ScriptRun.C129_write_partial,
  @Prop_ScriptRun.C129_stop_refuted,
  @Prop_ScriptRun.C129_deleted_refuted).
Definition all_C130 := (@Prop_ScriptRun.C130_count,
  @Prop_ScriptRun.C130_disabled,
  @Prop_ScriptRun.C130_failed_partial,
  @Prop_ScriptRun.C130_failed_refuted,
  @Prop_ScriptRun.C130_self_refuted,
  @Prop_ScriptRun.C130_order_refuted,
  @Prop_ScriptRun.C130_stack_refuted).
Definition all_C131 := (@Prop_ScriptRun.C131_run,
  @Prop_ScriptRun.C131_user_partial,
  @Prop_ScriptRun.C131_stale_refuted,
  @Prop_ScriptRun.C131_livelock_refuted).
Definition all_C132 := (@Prop_ScriptRun.C132_found_partial,
  @Prop_ScriptRun.C132_unknown_partial,
  @Prop_ScriptRun.C132_negative_refuted,
  @Prop_ScriptRun.C132_wrap_refuted).
Definition all_C133 := (@Prop_ScriptRun.C133_stored_partial,
  @Prop_ScriptRun.C133_names,
  @Prop_ScriptRun.C133_auto_refuted,
  @Prop_ScriptRun.C133_trigger_refuted,
  @Prop_ScriptRun.C133_refused_refuted).
Definition all_C134 := (@Prop_ScriptRun.C134_scripts,
  @Prop_ScriptRun.C134_period_partial,
  @Prop_ScriptRun.C134_period_refuted,
  @Prop_ScriptRun.C134_overrun_refuted).
Definition all_C135 := (@Prop_ScriptRun.C135_once_partial,
  @Prop_ScriptRun.C135_lost_refuted).
Definition all_C136 := (@Prop_Util.C136_running,
  @Prop_Util.C136_faulted).
Definition all_C137 := @Prop_Util.C137_status.
Definition all_C138 := (@Prop_Util.C138_run,
  @Prop_Util.C138_stop,
  @Prop_Util.C138_kill).
Definition all_C139 := (@Prop_Util.C139_registered,
  @Prop_Util.C139_told,
  @Prop_Util.C139_commands).
Definition all_C140 := (@Prop_Util.C140_finds,
  @Prop_Util.C140_no_tag,
  @Prop_Util.C140_stays,
  @Prop_Util.C140_asked).
Definition all_C141 := (@Prop_Log.C141_delivered,
  @Prop_Log.C141_safe_partial,
  @Prop_Log.C141_file_refuted).
Definition all_C142 := (@Prop_Log.C142_topics,
  @Prop_Log.C142_names_partial,
  @Prop_Log.C142_logic_refuted,
  @Prop_Log.C142_space_refuted).
Definition all_C143 := (@Prop_Log.C143_added,
  @Prop_Log.C143_all_or_nothing,
  @Prop_Log.C143_end_to_end,
  @Prop_Log.C143_missing_refuted,
  @Prop_Log.C143_ignored_refuted).
Definition all_C144 := (@Prop_CdtNew.C144_made_partial,
  @Prop_CdtNew.C144_inject_refuted,
  @Prop_CdtNew.C144_again_refuted).
Definition all_C145 := (@Prop_CdtNew.C145_made_partial,
  @Prop_CdtNew.C145_count_refuted,
  @Prop_CdtNew.C145_shape_refuted,
  @Prop_CdtNew.C145_untyped).
Definition all_C146 := (@Prop_LuaEvent.C146_registered,
  @Prop_LuaEvent.C146_unknown,
  @Prop_LuaEvent.C146_time_refuted,
  @Prop_LuaEvent.C146_range_refuted).
Definition all_C147 := (@Prop_LuaEvent.C147_called,
  @Prop_LuaEvent.C147_nothing_refuted).
Definition all_C148 := (@Prop_LuaEvent.C148_logged_partial,
  @Prop_LuaEvent.C148_safe_partial,
  @Prop_LuaEvent.C148_format_refuted,
  @Prop_LuaEvent.C148_doubled).
Definition all_C149 := (@Prop_ClientMap.C149_added,
  @Prop_ClientMap.C149_found,
  @Prop_ClientMap.C149_unknown,
  @Prop_ClientMap.C149_roundtrip,
  @Prop_ClientMap.C149_script,
  @Prop_ClientMap.C149_deleted_partial,
  @Prop_ClientMap.C149_lost_refuted,
  @Prop_ClientMap.C149_crash_refuted).
Definition all_C150 := (@Prop_ClientMap.C150_added_partial,
  @Prop_ClientMap.C150_read_partial,
  @Prop_ClientMap.C150_safe_partial,
  @Prop_ClientMap.C150_written_partial,
  @Prop_ClientMap.C150_deleted,
  @Prop_ClientMap.C150_small_refuted,
  @Prop_ClientMap.C150_bits_refuted,
  @Prop_ClientMap.C150_count_refuted).
Definition all_C151 := (@Prop_Daxc.C151_words,
  @Prop_Daxc.C151_lossless,
  @Prop_Daxc.C151_safe_partial,
  @Prop_Daxc.C151_overflow_refuted).
Definition all_C152 := (@Prop_Daxc.C152_commands,
  @Prop_Daxc.C152_comment,
  @Prop_Daxc.C152_other_refuted).
Definition all_C153 := (@Prop_Daxc.C153_once_partial,
  @Prop_Daxc.C153_twice_refuted,
  @Prop_Daxc.C153_blank_refuted,
  @Prop_Daxc.C153_empty_refuted,
  @Prop_Daxc.C153_long_refuted).
Definition all_C154 := (@Prop_DaxcCmd.C154_values_partial,
  @Prop_DaxcCmd.C154_text,
  @Prop_DaxcCmd.C154_skip_refuted,
  @Prop_DaxcCmd.C154_compound_refuted).
Definition all_C155 := (@Prop_DaxcCmd.C155_values_partial,
  @Prop_DaxcCmd.C155_inc_refuted,
  @Prop_DaxcCmd.C155_xnor_refuted).
Definition all_C156 := (@Prop_DaxcCmd.C156_deleted,
  @Prop_DaxcCmd.C156_absent,
  @Prop_DaxcCmd.C156_override_partial,
  @Prop_DaxcCmd.C156_none_refuted,
  @Prop_DaxcCmd.C156_long_refuted,
  @Prop_DaxcCmd.C156_unknown_refuted).
Definition all_C157 := (@Prop_DaxcTags.C157_all,
  @Prop_DaxcTags.C157_page_partial,
  @Prop_DaxcTags.C157_last_refuted).
Definition all_C158 := (@Prop_DaxcTags.C158_added_partial,
  @Prop_DaxcTags.C158_type,
  @Prop_DaxcTags.C158_attribute_refuted,
  @Prop_DaxcTags.C158_name_refuted,
  @Prop_DaxcTags.C158_word).
Definition all_C159 := (@Prop_DaxcEvent.C159_registered_partial,
  @Prop_DaxcEvent.C159_unknown,
  @Prop_DaxcEvent.C159_time_refuted,
  @Prop_DaxcEvent.C159_range_refuted).
Definition all_C160 := (@Prop_DaxcEvent.C160_numbered,
  @Prop_DaxcEvent.C160_full_refuted,
  @Prop_DaxcEvent.C160_last_refuted,
  @Prop_DaxcEvent.C160_modulo_refuted).
Definition all_C161 := (@Prop_DaxcRead.C161_values,
  @Prop_DaxcRead.C161_bits,
  @Prop_DaxcRead.C161_text_partial,
  @Prop_DaxcRead.C161_written,
  @Prop_DaxcRead.C161_unknown,
  @Prop_DaxcRead.C161_zero_refuted).
Definition all_C162 := (@Prop_DaxcType.C162_made_partial,
  @Prop_DaxcType.C162_words,
  @Prop_DaxcType.C162_left_out_refuted,
  @Prop_DaxcType.C162_result_refuted).
Definition all_C163 := (@Prop_DaxcRead.C163_mapped,
  @Prop_DaxcRead.C163_agreed,
  @Prop_DaxcRead.C163_refused,
  @Prop_DaxcRead.C163_result_refuted,
  @Prop_DaxcRead.C163_count_refuted).
Definition all_C164 := (@Prop_CdtIter.C164_all,
  @Prop_CdtIter.C164_members,
  @Prop_CdtIter.C164_base,
  @Prop_CdtIter.C164_unknown_refuted,
  @Prop_CdtIter.C164_again_refuted).
Definition all_C165 := (@Prop_CdtIter.C165_places,
  @Prop_CdtIter.C165_types).
Definition all_C166 := (@Prop_DaxcCompound.C166_lines_partial,
  @Prop_DaxcCompound.C166_elements_partial,
  @Prop_DaxcCompound.C166_data,
  @Prop_DaxcCompound.C166_array_refuted).
Definition all_C167 := (@Prop_Fqn.C167_tag,
  @Prop_Fqn.C167_bit_partial,
  @Prop_Fqn.C167_member_partial,
  @Prop_Fqn.C167_member_bit_partial,
  @Prop_Fqn.C167_back_partial,
  @Prop_Fqn.C167_index_refuted,
  @Prop_Fqn.C167_element_refuted,
  @Prop_Fqn.C167_first_refuted,
  @Prop_Fqn.C167_bit0_refuted,
  @Prop_Fqn.C167_carry_refuted).
Definition all_C168 := (@Prop_Fqn.C168_count,
  @Prop_Fqn.C168_none,
  @Prop_Fqn.C168_base).
Definition all_C169 := (@Prop_MstrConf.C169_looked_at,
  @Prop_MstrConf.C169_run_partial,
  @Prop_MstrConf.C169_fatal,
  @Prop_MstrConf.C169_group_refuted,
  @Prop_MstrConf.C169_exchange_refuted).
Definition all_C170 := (@Prop_MstrConf.C170_pidfile,
  @Prop_MstrConf.C170_daemonize,
  @Prop_MstrConf.C170_spelling_refuted).
Definition all_C171 := (@Prop_MstrConf.C171_processes,
  @Prop_MstrConf.C171_noenv,
  @Prop_MstrConf.C171_fatal_refuted,
  @Prop_MstrConf.C171_user_refuted,
  @Prop_MstrConf.C171_range_refuted,
  @Prop_MstrConf.C171_env_refuted).
Definition all_C172 := (@Prop_DhlFile.C172_kept,
  @Prop_DhlFile.C172_rotate,
  @Prop_DhlFile.C172_safe,
  @Prop_DhlFile.C172_parse_partial,
  @Prop_DhlFile.C172_char_refuted,
  @Prop_DhlFile.C172_open_refuted,
  @Prop_DhlFile.C172_compound_refuted,
  @Prop_DhlFile.C172_name_refuted).
Definition all_C173 := (@Prop_Daemon.C173_daemon,
  @Prop_Daemon.C173_result,
  @Prop_Daemon.C173_pidfile_refuted,
  @Prop_Daemon.C173_fork_refuted,
  @Prop_Daemon.C173_null_refuted).
Definition all_C174 := (@Prop_StartDelay.C174_due_partial,
  @Prop_StartDelay.C174_signal,
  @Prop_StartDelay.C174_errno_refuted).

Definition all_claims := (all_C01,
  all_C02,
  all_C03,
  all_C04,
  all_C05,
  all_C06,
  all_C07,
  all_C08,
  all_C09,
  all_C10,
  all_C11,
  all_C12,
  all_C13,
  all_C14,
  all_C15,
  all_C16,
  all_C17,
  all_C18,
  all_C19,
  all_C20,
  all_C21,
  all_C22,
  all_C23,
  all_C24,
  all_C25,
  all_C26,
  all_C27,
  all_C28,
  all_C29,
  all_C30,
  all_C31,
  all_C32,
  all_C33,
  all_C34,
  all_C35,
  all_C36,
  all_C37,
  all_C38,
  all_C39,
  all_C40,
  all_C41,
  all_C42,
  all_C43,
  all_C44,
  all_C45,
  all_C46,
  all_C47,
  all_C48,
  all_C49,
  all_C50,
  all_C51,
  all_C52,
  all_C53,
  all_C54,
  all_C55,
  all_C56,
  all_C57,
  all_C58,
  all_C59,
  all_C60,
  all_C61,
  all_C62,
  all_C63,
  all_C64,
  all_C65,
  all_C66,
  all_C67,
  all_C68,
  all_C69,
  all_C70,
  all_C71,
  all_C72,
  all_C73,
  all_C74,
  all_C75,
  all_C76,
  all_C77,
  all_C78,
  all_C79,
  all_C80,
  all_C81,
  all_C82,
  all_C83,
  all_C84,
  all_C85,
  all_C86,
  all_C87,
  all_C88,
  all_C89,
  all_C90,
  all_C91,
  all_C92,
  all_C93,
  all_C94,
  all_C95,
  all_C96,
  all_C97,
  all_C98,
  all_C99,
  all_C100,
  all_C101,
  all_C102,
  all_C103,
  all_C104,
  all_C105,
  all_C106,
  all_C107,
  all_C108,
  all_C109,
  all_C110,
  all_C111,
  all_C112,
  all_C113,
  all_C114,
  all_C115,
  all_C116,
  all_C117,
  all_C118,
  all_C119,
  all_C120,
  all_C121,
  all_C122,
  all_C123,
  all_C124,
  all_C125,
  all_C126,
  all_C127,
  all_C128,
  all_C129,
  all_C130,
  all_C131,
  all_C132,
  all_C133,
  all_C134,
  all_C135,
  all_C136,
  all_C137,
  all_C138,
  all_C139,
  all_C140,
  all_C141,
  all_C142,
  all_C143,
  all_C144,
  all_C145,
  all_C146,
  all_C147,
  all_C148,
  all_C149,
  all_C150,
  all_C151,
  all_C152,
  all_C153,
  all_C154,
  all_C155,
  all_C156,
  all_C157,
  all_C158,
  all_C159,
  all_C160,
  all_C161,
  all_C162,
  all_C163,
  all_C164,
  all_C165,
  all_C166,
  all_C167,
  all_C168,
  all_C169,
  all_C170,
  all_C171,
  all_C172,
  all_C173,
  all_C174).
Print Assumptions all_claims.
