{
 "claims": [
  {
   "property": "C01",
   "status": "proved",
   "theorems": [
    "C01_number_roundtrip"
   ],
   "note": ""
  },
  {
   "property": "C02",
   "status": "proved",
   "theorems": [
    "C02_string_roundtrip"
   ],
   "note": ""
  },
  {
   "property": "C03",
   "status": "proved",
   "theorems": [
    "C03_string_faithful_iff"
   ],
   "note": "Exact characterization; success does not imply a decodable text."
  },
  {
   "property": "C04",
   "status": "proved",
   "theorems": [
    "C04_commit_wellformed"
   ],
   "note": ""
  },
  {
   "property": "C05",
   "status": "proved",
   "theorems": [
    "C05_commit_arbitrary"
   ],
   "note": ""
  },
  {
   "property": "C06",
   "status": "proved",
   "theorems": [
    "C06_leak_iff_overrun",
    "C06_isolation_refuted"
   ],
   "note": "Exact characterization plus a witness that the ideal isolation claim is false (C06_isolation_refuted)."
  },
  {
   "property": "C07",
   "status": "proved",
   "theorems": [
    "C07_integer_accessors"
   ],
   "note": ""
  },
  {
   "property": "C08",
   "status": "proved",
   "theorems": [
    "C08_type_classification",
    "C08_tiny_disagrees_with_GetUint64"
   ],
   "note": "Tiny atoms are classified with the sign inverted; stated as such."
  },
  {
   "property": "C09",
   "status": "proved",
   "theorems": [
    "C09_string_accessors",
    "C09_string_of_atom"
   ],
   "note": ""
  },
  {
   "property": "C10",
   "status": "proved",
   "theorems": [
    "C10_builder_appends"
   ],
   "note": ""
  },
  {
   "property": "C11",
   "status": "proved",
   "theorems": [
    "C11_complete_lengths",
    "C11_complete_near_full"
   ],
   "note": ""
  },
  {
   "property": "C12",
   "status": "proved",
   "theorems": [
    "C12_transmitted_slice"
   ],
   "note": ""
  },
  {
   "property": "C13",
   "status": "proved",
   "theorems": [
    "C13_header_setters"
   ],
   "note": ""
  },
  {
   "property": "C14",
   "status": "proved",
   "theorems": [
    "C14_loopback"
   ],
   "note": ""
  },
  {
   "property": "C15",
   "status": "proved",
   "theorems": [
    "C15_hash_password"
   ],
   "note": ""
  },
  {
   "property": "C16",
   "status": "proved",
   "theorems": [
    "C16_device_selection"
   ],
   "note": ""
  },
  {
   "property": "C17",
   "status": "proved",
   "theorems": [
    "C17_locking_status"
   ],
   "note": ""
  },
  {
   "property": "C18",
   "status": "proved",
   "theorems": [
    "C18_com_ids"
   ],
   "note": ""
  },
  {
   "property": "C19",
   "status": "proved",
   "theorems": [
    "C19_exec_without_ssc",
    "C19_exec_protocol"
   ],
   "note": ""
  },
  {
   "property": "C20",
   "status": "proved",
   "theorems": [
    "C20_exec_terminates",
    "C20_needs_a_clock"
   ],
   "note": ""
  },
  {
   "property": "C21",
   "status": "proved",
   "theorems": [
    "C21_enterprise_never_works"
   ],
   "note": ""
  },
  {
   "property": "C22",
   "status": "proved",
   "theorems": [
    "C22_success_means_accepted",
    "C22_exec_error_is_returned",
    "C22_status_256_accepted"
   ],
   "note": ""
  },
  {
   "property": "C23",
   "status": "proved",
   "theorems": [
    "C23_short_response_panics"
   ],
   "note": ""
  },
  {
   "property": "C24",
   "status": "proved",
   "theorems": [
    "C24_status_reported"
   ],
   "note": ""
  },
  {
   "property": "C25",
   "status": "proved",
   "theorems": [
    "C25_close_does_nothing"
   ],
   "note": ""
  },
  {
   "property": "C26",
   "status": "proved",
   "theorems": [
    "C26_start_stores_numbers",
    "C26_numbers_on_the_wire",
    "C26_zero_before_start"
   ],
   "note": ""
  },
  {
   "property": "C27",
   "status": "proved",
   "theorems": [
    "C27_one_determined_startsession"
   ],
   "note": ""
  },
  {
   "property": "C28",
   "status": "proved",
   "theorems": [
    "C28_only_the_derived_key_matters"
   ],
   "note": ""
  },
  {
   "property": "C29",
   "status": "proved",
   "theorems": [
    "C29_revert_only_after_start"
   ],
   "note": ""
  },
  {
   "property": "C30",
   "status": "proved",
   "theorems": [
    "C30_boolean_backwards"
   ],
   "note": ""
  },
  {
   "property": "C31",
   "status": "proved",
   "theorems": [
    "C31_default_password"
   ],
   "note": ""
  },
  {
   "property": "C32",
   "status": "proved",
   "theorems": [
    "C32_discovery_reports_features"
   ],
   "note": ""
  },
  {
   "property": "C33",
   "status": "proved",
   "theorems": [
    "C33_conforming_header",
    "C33_header_size_refuted"
   ],
   "note": ""
  },
  {
   "property": "C34",
   "status": "proved",
   "theorems": [
    "C34_discovery_total"
   ],
   "note": ""
  },
  {
   "property": "C35",
   "status": "proved",
   "theorems": [
    "C35_support_flag"
   ],
   "note": ""
  },
  {
   "property": "C36",
   "status": "proved",
   "theorems": [
    "C36_ata_identity",
    "C36_trimmed_unique"
   ],
   "note": ""
  },
  {
   "property": "C37",
   "status": "proved",
   "theorems": [
    "C37_ssd_decision"
   ],
   "note": ""
  },
  {
   "property": "C38",
   "status": "proved",
   "theorems": [
    "C38_nvme_identity",
    "C38_short_identity"
   ],
   "note": ""
  },
  {
   "property": "C39",
   "status": "proved",
   "theorems": [
    "C39_close_once",
    "C39_never_closed"
   ],
   "note": ""
  },
  {
   "property": "C40",
   "status": "proved",
   "theorems": [
    "C40_security_fallback"
   ],
   "note": ""
  },
  {
   "property": "C41",
   "status": "proved",
   "theorems": [
    "C41_transfer_length"
   ],
   "note": ""
  },
  {
   "property": "C42",
   "status": "proved",
   "theorems": [
    "C42_log_page_retry",
    "C42_log_page_calls"
   ],
   "note": ""
  },
  {
   "property": "C43",
   "status": "proved",
   "theorems": [
    "C43_log_page_encoding",
    "C43_tiny_sizes"
   ],
   "note": ""
  },
  {
   "property": "C44",
   "status": "proved",
   "theorems": [
    "C44_aligned_buffer"
   ],
   "note": ""
  },
  {
   "property": "C45",
   "status": "proved",
   "theorems": [
    "C45_fifo",
    "C45_fifo_wrapped"
   ],
   "note": ""
  },
  {
   "property": "C46",
   "status": "proved",
   "theorems": [
    "C46_write_boundary"
   ],
   "note": ""
  },
  {
   "property": "C47",
   "status": "proved",
   "theorems": [
    "C47_byte_order_helpers"
   ],
   "note": ""
  },
  {
   "property": "C48",
   "status": "proved",
   "theorems": [
    "C48_ata_identify_fields",
    "C48_ata_identify_flags"
   ],
   "note": ""
  },
  {
   "property": "C49",
   "status": "proved",
   "theorems": [
    "C49_nvme_identify_fields",
    "C49_value_correct_iff_palindrome"
   ],
   "note": ""
  },
  {
   "property": "C50",
   "status": "proved",
   "theorems": [
    "C50_union_conversions",
    "C50_version_field"
   ],
   "note": ""
  },
  {
   "property": "C51",
   "status": "proved",
   "theorems": [
    "C51_init_then_device"
   ],
   "note": ""
  },
  {
   "property": "C52",
   "status": "proved",
   "theorems": [
    "C52_lba48_decision"
   ],
   "note": ""
  },
  {
   "property": "C53",
   "status": "proved",
   "theorems": [
    "C53_dma_commands"
   ],
   "note": ""
  },
  {
   "property": "C54",
   "status": "proved",
   "theorems": [
    "C54_computed_task_file",
    "C54_tfinit_no_effect"
   ],
   "note": ""
  },
  {
   "property": "C55",
   "status": "proved",
   "theorems": [
    "C55_ata_string"
   ],
   "note": ""
  },
  {
   "property": "C56",
   "status": "proved",
   "theorems": [
    "C56_read_smart",
    "C56_flags_correct_iff"
   ],
   "note": ""
  },
  {
   "property": "C57",
   "status": "proved",
   "theorems": [
    "C57_cdb_accessors",
    "C57_sense_fields",
    "C57_broken_accessors",
    "C57_set_multiple_count_refuted",
    "C57_set_extend_refuted"
   ],
   "note": ""
  },
  {
   "property": "C58",
   "status": "proved",
   "theorems": [
    "C58_task_file_requests",
    "C58_packet_id"
   ],
   "note": ""
  },
  {
   "property": "C59",
   "status": "proved",
   "theorems": [
    "C59_read_data"
   ],
   "note": ""
  },
  {
   "property": "C60",
   "status": "proved",
   "theorems": [
    "C60_writes_send_zeros",
    "C60_write_content_refuted"
   ],
   "note": ""
  },
  {
   "property": "C61",
   "status": "proved",
   "theorems": [
    "C61_attempts"
   ],
   "note": ""
  },
  {
   "property": "C62",
   "status": "proved",
   "theorems": [
    "C62_error_detection",
    "C62_sense_formats",
    "C62_all_failures_reported_refuted"
   ],
   "note": ""
  },
  {
   "property": "C63",
   "status": "proved",
   "theorems": [
    "C63_result_registers"
   ],
   "note": ""
  },
  {
   "property": "C64",
   "status": "proved",
   "theorems": [
    "C64_timeouts"
   ],
   "note": ""
  },
  {
   "property": "C65",
   "status": "proved",
   "theorems": [
    "C65_security_command",
    "C65_empty_panics"
   ],
   "note": ""
  },
  {
   "property": "C66",
   "status": "proved",
   "theorems": [
    "C66_open"
   ],
   "note": ""
  },
  {
   "property": "C67",
   "status": "proved",
   "theorems": [
    "C67_ioctl_numbers",
    "C67_ior_refuted"
   ],
   "note": ""
  },
  {
   "property": "C68",
   "status": "proved",
   "theorems": [
    "C68_admin_passthru"
   ],
   "note": ""
  },
  {
   "property": "C69",
   "status": "proved",
   "theorems": [
    "C69_io_passthru",
    "C69_io_read_refuted"
   ],
   "note": ""
  },
  {
   "property": "C70",
   "status": "proved",
   "theorems": [
    "C70_user_io"
   ],
   "note": ""
  },
  {
   "property": "C71",
   "status": "proved",
   "theorems": [
    "C71_open"
   ],
   "note": ""
  },
  {
   "property": "C72",
   "status": "proved",
   "theorems": [
    "C72_security_over_nvme"
   ],
   "note": ""
  },
  {
   "property": "C73",
   "status": "proved",
   "theorems": [
    "C73_log_page_over_nvme"
   ],
   "note": ""
  },
  {
   "property": "C74",
   "status": "proved",
   "theorems": [
    "C74_security_over_sg"
   ],
   "note": ""
  },
  {
   "property": "C75",
   "status": "proved",
   "theorems": [
    "C75_open_by_fd",
    "C75_identification"
   ],
   "note": ""
  },
  {
   "property": "C76",
   "status": "proved",
   "theorems": [
    "C76_open_path",
    "C76_close",
    "C76_closed_refuted"
   ],
   "note": ""
  },
  {
   "property": "C77",
   "status": "proved",
   "theorems": [
    "C77_enum_drives",
    "C77_enumeration_survives_refuted"
   ],
   "note": ""
  },
  {
   "property": "C78",
   "status": "proved",
   "theorems": [
    "C78_id_info",
    "C78_text_unique",
    "C78_any_match"
   ],
   "note": ""
  },
  {
   "property": "C79",
   "status": "proved",
   "theorems": [
    "C79_basic_info",
    "C79_handle"
   ],
   "note": ""
  },
  {
   "property": "C80",
   "status": "proved",
   "theorems": [
    "C80_volumes"
   ],
   "note": ""
  },
  {
   "property": "C81",
   "status": "proved",
   "theorems": [
    "C81_partitions",
    "C81_reported",
    "C81_sd_names_have_none",
    "C81_panics_only",
    "C81_zero_panics"
   ],
   "note": ""
  },
  {
   "property": "C82",
   "status": "proved",
   "theorems": [
    "C82_errors",
    "C82_midline",
    "C82_unnoticed"
   ],
   "note": ""
  },
  {
   "property": "C83",
   "status": "proved",
   "theorems": [
    "C83_list",
    "C83_by_drive",
    "C83_by_volume_path",
    "C83_volume_lost",
    "C83_by_partition"
   ],
   "note": ""
  },
  {
   "property": "C84",
   "status": "proved",
   "theorems": [
    "C84_descriptors"
   ],
   "note": ""
  },
  {
   "property": "C85",
   "status": "proved",
   "theorems": [
    "C85_ata_requests",
    "C85_ata_panics"
   ],
   "note": ""
  },
  {
   "property": "C86",
   "status": "proved",
   "theorems": [
    "C86_ata_reads",
    "C86_ata_writes_send_zeros"
   ],
   "note": ""
  },
  {
   "property": "C87",
   "status": "proved",
   "theorems": [
    "C87_ata_result",
    "C87_fallback_useless"
   ],
   "note": ""
  },
  {
   "property": "C88",
   "status": "proved",
   "theorems": [
    "C88_scsi_task_file"
   ],
   "note": ""
  },
  {
   "property": "C89",
   "status": "proved",
   "theorems": [
    "C89_win_security",
    "C89_payload_never_sent"
   ],
   "note": ""
  },
  {
   "property": "C90",
   "status": "proved",
   "theorems": [
    "C90_ata_open",
    "C90_scsi_open"
   ],
   "note": ""
  },
  {
   "property": "C91",
   "status": "proved",
   "theorems": [
    "C91_miniport_admin",
    "C91_direction_refuted"
   ],
   "note": ""
  },
  {
   "property": "C92",
   "status": "proved",
   "theorems": [
    "C92_nvmewin_open"
   ],
   "note": ""
  },
  {
   "property": "C93",
   "status": "proved",
   "theorems": [
    "C93_handles",
    "C93_leak_refuted"
   ],
   "note": ""
  },
  {
   "property": "C94",
   "status": "proved",
   "theorems": [
    "C94_winnvme_open"
   ],
   "note": ""
  },
  {
   "property": "C95",
   "status": "proved",
   "theorems": [
    "C95_winnvme_log_page"
   ],
   "note": ""
  },
  {
   "property": "C96",
   "status": "proved",
   "theorems": [
    "C96_security_over_miniport"
   ],
   "note": ""
  },
  {
   "property": "C97",
   "status": "proved",
   "theorems": [
    "C97_security_over_scsi",
    "C97_security_over_ata"
   ],
   "note": ""
  },
  {
   "property": "C98",
   "status": "proved",
   "theorems": [
    "C98_sends_zeros_refuted"
   ],
   "note": ""
  },
  {
   "property": "C99",
   "status": "proved",
   "theorems": [
    "C99_fuse"
   ],
   "note": ""
  },
  {
   "property": "C100",
   "status": "proved",
   "theorems": [
    "C100_size_negotiation"
   ],
   "note": ""
  },
  {
   "property": "C101",
   "status": "proved",
   "theorems": [
    "C101_basic_info",
    "C101_guid_text_injective"
   ],
   "note": ""
  },
  {
   "property": "C102",
   "status": "proved",
   "theorems": [
    "C102_basic_info_panics"
   ],
   "note": ""
  },
  {
   "property": "C103",
   "status": "proved",
   "theorems": [
    "C103_storage_query"
   ],
   "note": ""
  },
  {
   "property": "C104",
   "status": "proved",
   "theorems": [
    "C104_open_by_handle",
    "C104_first_wins"
   ],
   "note": ""
  },
  {
   "property": "C105",
   "status": "proved",
   "theorems": [
    "C105_open_by_path"
   ],
   "note": ""
  },
  {
   "property": "C106",
   "status": "proved",
   "theorems": [
    "C106_close",
    "C106_closed_refuted"
   ],
   "note": ""
  },
  {
   "property": "C107",
   "status": "proved",
   "theorems": [
    "C107_fallback"
   ],
   "note": ""
  },
  {
   "property": "C108",
   "status": "proved",
   "theorems": [
    "C108_device_number"
   ],
   "note": ""
  },
  {
   "property": "C109",
   "status": "proved",
   "theorems": [
    "C109_enum_drives",
    "C109_enum_drives_complete"
   ],
   "note": ""
  },
  {
   "property": "C110",
   "status": "proved",
   "theorems": [
    "C110_enum_drives_closes",
    "C110_closed_refuted"
   ],
   "note": ""
  },
  {
   "property": "C111",
   "status": "proved",
   "theorems": [
    "C111_enum_volumes",
    "C111_enum_volumes_complete"
   ],
   "note": ""
  },
  {
   "property": "C112",
   "status": "proved",
   "theorems": [
    "C112_volume_facts",
    "C112_all_mounts_refuted"
   ],
   "note": ""
  },
  {
   "property": "C113",
   "status": "proved",
   "theorems": [
    "C113_enum_volumes_closes"
   ],
   "note": ""
  },
  {
   "property": "C114",
   "status": "proved",
   "theorems": [
    "C114_find_volumes",
    "C114_unknown_number",
    "C114_spanned_refuted"
   ],
   "note": ""
  },
  {
   "property": "C115",
   "status": "proved",
   "theorems": [
    "C115_open_by_volume",
    "C115_open_by_partition",
    "C115_paths_injective",
    "C115_round_trip"
   ],
   "note": ""
  },
  {
   "property": "C116",
   "status": "proved",
   "theorems": [
    "C116_volume_partition",
    "C116_drive_partition",
    "C116_bus_names"
   ],
   "note": ""
  },
  {
   "property": "C117",
   "status": "proved",
   "theorems": [
    "C117_tcg_over_nvme",
    "C117_answers_over_nvme",
    "C117_revert_over_nvme",
    "C117_password_over_nvme"
   ],
   "note": ""
  },
  {
   "property": "C118",
   "status": "proved",
   "theorems": [
    "C118_success_on_zeros_refuted",
    "C118_tcg_over_sg",
    "C118_revert_over_sg",
    "C118_ata_only_sends_zeros"
   ],
   "note": ""
  },
  {
   "property": "C119",
   "status": "proved",
   "theorems": [
    "C119_tcg_sends_zeros_refuted",
    "C119_password_unused_refuted"
   ],
   "note": ""
  },
  {
   "property": "C120",
   "status": "proved",
   "theorems": [
    "C120_tcg_over_miniport",
    "C120_answers_over_miniport",
    "C120_revert_over_miniport"
   ],
   "note": ""
  },
  {
   "property": "C121",
   "status": "proved",
   "theorems": [
    "C121_driver_name"
   ],
   "note": ""
  },
  {
   "property": "C122",
   "status": "proved",
   "theorems": [
    "C122_nvme_information"
   ],
   "note": ""
  },
  {
   "property": "C123",
   "status": "proved",
   "theorems": [
    "C123_sata_information"
   ],
   "note": ""
  },
  {
   "property": "C124",
   "status": "proved",
   "theorems": [
    "C124_open_panics_iff",
    "C124_open_outcomes"
   ],
   "note": ""
  },
  {
   "property": "C125",
   "status": "proved",
   "theorems": [
    "C125_revert_opened_drive"
   ],
   "note": ""
  },
  {
   "property": "C126",
   "status": "proved",
   "theorems": [
    "C126_generic_device"
   ],
   "note": ""
  },
  {
   "property": "C127",
   "status": "proved",
   "theorems": [
    "C127_get_table",
    "C127_get_table_by_name",
    "C127_wrong_receiver"
   ],
   "note": ""
  },
  {
   "property": "C128",
   "status": "proved",
   "theorems": [
    "C128_addressing_ignored"
   ],
   "note": ""
  },
  {
   "property": "C129",
   "status": "proved",
   "theorems": [
    "C129_level0_over_miniport",
    "C129_identify_over_miniport"
   ],
   "note": ""
  },
  {
   "property": "C130",
   "status": "proved",
   "theorems": [
    "C130_level0_over_storage_query",
    "C130_level0_over_scsi",
    "C130_level0_over_ata"
   ],
   "note": ""
  },
  {
   "property": "C131",
   "status": "proved",
   "theorems": [
    "C131_revert_on_windows"
   ],
   "note": ""
  },
  {
   "property": "C132",
   "status": "proved",
   "theorems": [
    "C132_isolation",
    "C132_no_crash",
    "C132_closed_once"
   ],
   "note": ""
  },
  {
   "property": "C133",
   "status": "proved",
   "theorems": [
    "C133_close_isolation_refuted",
    "C133_closed_once_refuted",
    "C133_command_isolation_refuted",
    "C133_no_crash_refuted",
    "C133_after_close",
    "C133_close_bounds",
    "C133_crash_needs_close"
   ],
   "note": ""
  },
  {
   "property": "C134",
   "status": "proved",
   "theorems": [
    "C134_left_alone_needed_refuted",
    "C134_own_answer",
    "C134_revert",
    "C134_default_password"
   ],
   "note": ""
  },
  {
   "property": "C135",
   "status": "proved",
   "theorems": [
    "C135_clock_needed_refuted",
    "C135_operations_end"
   ],
   "note": ""
  },
  {
   "property": "C136",
   "status": "proved",
   "theorems": [
    "C136_when_a_drive_crashes_it"
   ],
   "note": ""
  },
  {
   "property": "C137",
   "status": "proved",
   "theorems": [
    "C137_forgets_refuted",
    "C137_what_a_handle_has_learned"
   ],
   "note": ""
  },
  {
   "property": "C138",
   "status": "proved",
   "theorems": [
    "C138_types_follow_refuted",
    "C138_device_after_rediscovery"
   ],
   "note": ""
  },
  {
   "property": "C139",
   "status": "proved",
   "theorems": [
    "C139_listed_as_opened",
    "C139_what_is_listed"
   ],
   "note": ""
  },
  {
   "property": "C140",
   "status": "proved",
   "theorems": [
    "C140_one_discovery",
    "C140_when_open_crashes"
   ],
   "note": ""
  },
  {
   "property": "C141",
   "status": "proved",
   "theorems": [
    "C141_what_is_known",
    "C141_what_is_listed",
    "C141_enum_crashes"
   ],
   "note": ""
  },
  {
   "property": "C142",
   "status": "proved",
   "theorems": [
    "C142_linux_sata",
    "C142_linux_nvme"
   ],
   "note": ""
  },
  {
   "property": "C143",
   "status": "proved",
   "theorems": [
    "C143_windows",
    "C143_enum_drives",
    "C143_no_reset_refuted"
   ],
   "note": ""
  },
  {
   "property": "C144",
   "status": "proved",
   "theorems": [
    "C144_success_means_reverted_refuted",
    "C144_revert_opened_sata",
    "C144_refusing_sata_gets_zeros"
   ],
   "note": ""
  },
  {
   "property": "C145",
   "status": "proved",
   "theorems": [
    "C145_open_again",
    "C145_enum_again",
    "C145_other_drives",
    "C145_enum_is_open",
    "C145_volumes_again"
   ],
   "note": ""
  },
  {
   "property": "C146",
   "status": "proved",
   "theorems": [
    "C146_open_again",
    "C146_open_same",
    "C146_enum_again",
    "C146_enum_is_open",
    "C146_other_drives",
    "C146_volumes_again"
   ],
   "note": ""
  },
  {
   "property": "C147",
   "status": "proved",
   "theorems": [
    "C147_thresholds_come_from_the_drive_refuted",
    "C147_nvme_log_page",
    "C147_read_smart"
   ],
   "note": ""
  },
  {
   "property": "C148",
   "status": "proved",
   "theorems": [
    "C148_how_it_ends",
    "C148_needs_nvme",
    "C148_full_run",
    "C148_smart_page"
   ],
   "note": ""
  },
  {
   "property": "C149",
   "status": "proved",
   "theorems": [
    "C149_whole_run",
    "C149_crashes",
    "C149_only_asks"
   ],
   "note": ""
  },
  {
   "property": "C150",
   "status": "proved",
   "theorems": [
    "C150_smart_error_reported_refuted",
    "C150_read_smart",
    "C150_no_smart",
    "C150_log_page"
   ],
   "note": ""
  },
  {
   "property": "C151",
   "status": "proved",
   "theorems": [
    "C151_linux_programs"
   ],
   "note": ""
  },
  {
   "property": "C152",
   "status": "proved",
   "theorems": [
    "C152_all_released_refuted",
    "C152_own_drive",
    "C152_handle_paths",
    "C152_one_path"
   ],
   "note": ""
  },
  {
   "property": "C153",
   "status": "proved",
   "theorems": [
    "C153_windows_programs"
   ],
   "note": ""
  },
  {
   "property": "C154",
   "status": "proved",
   "theorems": [
    "C154_all_released_refuted",
    "C154_own_drive",
    "C154_handle_paths",
    "C154_one_object"
   ],
   "note": ""
  },
  {
   "property": "C155",
   "status": "proved",
   "theorems": [
    "C155_same_machine_refuted",
    "C155_as_if_alone",
    "C155_refused_as_if_alone"
   ],
   "note": ""
  },
  {
   "property": "C156",
   "status": "proved",
   "theorems": [
    "C156_listing_as_if_alone"
   ],
   "note": ""
  },
  {
   "property": "C157",
   "status": "proved",
   "theorems": [
    "C157_same_machine_refuted",
    "C157_as_if_alone",
    "C157_refused_as_if_alone"
   ],
   "note": ""
  },
  {
   "property": "C158",
   "status": "proved",
   "theorems": [
    "C158_listing_as_if_alone"
   ],
   "note": ""
  },
  {
   "property": "C159",
   "status": "proved",
   "theorems": [
    "C159_descriptor_sense_refuted",
    "C159_message_states_the_numbers",
    "C159_message_determines_the_numbers"
   ],
   "note": ""
  },
  {
   "property": "C160",
   "status": "proved",
   "theorems": [
    "C160_verdict_is_the_text",
    "C160_no_driver"
   ],
   "note": ""
  },
  {
   "property": "C161",
   "status": "proved",
   "theorems": [
    "C161_nested",
    "C161_chain",
    "C161_basic_info",
    "C161_enum_drives",
    "C161_id_info"
   ],
   "note": ""
  },
  {
   "property": "C162",
   "status": "proved",
   "theorems": [
    "C162_tcg_status",
    "C162_distinct",
    "C162_fixed",
    "C162_one_number",
    "C162_log_header",
    "C162_mbr"
   ],
   "note": ""
  },
  {
   "property": "C163",
   "status": "proved",
   "theorems": [
    "C163_one_call",
    "C163_program"
   ],
   "note": ""
  },
  {
   "property": "C164",
   "status": "proved",
   "theorems": [
    "C164_one_call"
   ],
   "note": ""
  },
  {
   "property": "C165",
   "status": "proved",
   "theorems": [
    "C165_endless",
    "C165_drives",
    "C165_volumes"
   ],
   "note": ""
  },
  {
   "property": "C166",
   "status": "proved",
   "theorems": [
    "C166_unpaired_refuted",
    "C166_unpaired_distinct_refuted",
    "C166_any_path_refuted",
    "C166_read",
    "C166_read_to_nul",
    "C166_pass",
    "C166_round_trip",
    "C166_distinct",
    "C166_nul",
    "C166_ascii",
    "C166_ascii_parts"
   ],
   "note": ""
  },
  {
   "property": "C167",
   "status": "proved",
   "theorems": [
    "C167_exact_paths"
   ],
   "note": ""
  },
  {
   "property": "C168",
   "status": "proved",
   "theorems": [
    "C168_volume_paths",
    "C168_open_by_reported_path"
   ],
   "note": ""
  },
  {
   "property": "C169",
   "status": "proved",
   "theorems": [
    "C169_default_options_read_the_page_refuted",
    "C169_smart_page",
    "C169_sanitize_page",
    "C169_default_order",
    "C169_from_drive",
    "C169_memory_size"
   ],
   "note": ""
  },
  {
   "property": "C170",
   "status": "proved",
   "theorems": [
    "C170_standard_descriptors_decode_refuted",
    "C170_descriptor_fields",
    "C170_from_drive",
    "C170_opened_nvme"
   ],
   "note": ""
  },
  {
   "property": "C171",
   "status": "proved",
   "theorems": [
    "C171_all_given_back_refuted",
    "C171_calls",
    "C171_step",
    "C171_programs",
    "C171_leak",
    "C171_out_of_reach"
   ],
   "note": ""
  },
  {
   "property": "C172",
   "status": "proved",
   "theorems": [
    "C172_all_given_back_refuted",
    "C172_step",
    "C172_programs",
    "C172_balanced",
    "C172_out_of_reach"
   ],
   "note": ""
  },
  {
   "property": "C173",
   "status": "proved",
   "theorems": [
    "C173_revert_of_opened_nvme",
    "C173_revert_of_opened_sata",
    "C173_revert_on_windows",
    "C173_sha1_in_pieces",
    "C173_hmac_in_pieces",
    "C173_key",
    "C173_hash_password",
    "C173_env_ok",
    "C173_session_uses_it",
    "C173_start_session",
    "C173_authenticate",
    "C173_revert"
   ],
   "note": ""
  },
  {
   "property": "C174",
   "status": "proved",
   "theorems": [
    "C174_trailing_nul"
   ],
   "note": ""
  },
  {
   "property": "C175",
   "status": "proved",
   "theorems": [
    "C175_password_of_opened_nvme",
    "C175_password_of_opened_sata"
   ],
   "note": ""
  },
  {
   "property": "C176",
   "status": "proved",
   "theorems": [
    "C176_password_over_miniport"
   ],
   "note": ""
  },
  {
   "property": "C177",
   "status": "proved",
   "theorems": [
    "C177_one_reading",
    "C177_hashed_challenge",
    "C177_plain_challenge",
    "C177_no_session",
    "C177_no_revert",
    "C177_psid_is_plain",
    "C177_authenticate"
   ],
   "note": ""
  },
  {
   "property": "C178",
   "status": "proved",
   "theorems": [
    "C178_no_second_session",
    "C178_start_opens",
    "C178_password_leaves_session",
    "C178_refused_revert_leaves_session",
    "C178_password_then_revert"
   ],
   "note": ""
  },
  {
   "property": "C179",
   "status": "proved",
   "theorems": [
    "C179_start",
    "C179_start_refused",
    "C179_revert",
    "C179_revert_refused",
    "C179_password",
    "C179_plain_session",
    "C179_psid_iff"
   ],
   "note": ""
  },
  {
   "property": "C180",
   "status": "proved",
   "theorems": [
    "C180_psid_over_nvme",
    "C180_password_over_nvme",
    "C180_psid_from_path",
    "C180_password_from_path"
   ],
   "note": ""
  },
  {
   "property": "C181",
   "status": "proved",
   "theorems": [
    "C181_psid_over_sata",
    "C181_password_over_sata",
    "C181_psid_from_path",
    "C181_password_from_path"
   ],
   "note": ""
  },
  {
   "property": "C182",
   "status": "proved",
   "theorems": [
    "C182_psid_over_miniport",
    "C182_password_over_miniport",
    "C182_psid_from_handle",
    "C182_password_from_handle"
   ],
   "note": ""
  },
  {
   "property": "C183",
   "status": "proved",
   "theorems": [
    "C183_one_reading",
    "C183_authenticate",
    "C183_authenticate_refused",
    "C183_backwards",
    "C183_hashed_always",
    "C183_from_path",
    "C183_sata_from_path",
    "C183_windows_from_handle"
   ],
   "note": ""
  },
  {
   "property": "C184",
   "status": "proved",
   "theorems": [
    "C184_outcome",
    "C184_owner_refused",
    "C184_standard",
    "C184_nvme_from_path",
    "C184_sata_from_path",
    "C184_windows_from_handle"
   ],
   "note": ""
  },
  {
   "property": "C185",
   "status": "proved",
   "theorems": [
    "C185_one_read",
    "C185_reads",
    "C185_open_and_read",
    "C185_nvme_from_path",
    "C185_sata_from_path",
    "C185_windows_from_handle"
   ],
   "note": ""
  },
  {
   "property": "C186",
   "status": "proved",
   "theorems": [
    "C186_nothing_succeeds",
    "C186_from_handle",
    "C186_errors"
   ],
   "note": ""
  },
  {
   "property": "C187",
   "status": "proved",
   "theorems": [
    "C187_linux",
    "C187_windows"
   ],
   "note": ""
  },
  {
   "property": "C188",
   "status": "proved",
   "theorems": [
    "C188_same_machine",
    "C188_own_descriptor",
    "C188_client",
    "C188_psid"
   ],
   "note": ""
  }
 ]
}