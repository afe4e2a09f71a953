{
 "claims": [
  {
   "property": "C01",
   "status": "proved",
   "theorems": [
    "C01_read_is_chain_bytes",
    "C01_position_unique",
    "C01_large_short_sectors_refuted",
    "C01_unused_container_refuted"
   ],
   "note": "The two refuted theorems show that the two conditions in the statement are needed."
  },
  {
   "property": "C02",
   "status": "proved",
   "theorems": [
    "C02_intact_chain_is_readable",
    "C02_acyclic_chain_is_short"
   ],
   "note": ""
  },
  {
   "property": "C03",
   "status": "proved",
   "theorems": [
    "C03_pieces_equal_whole",
    "C03_pieces_succeed",
    "C03_cyclic_pieces_refuted"
   ],
   "note": "C03_pieces_succeed is the converse: when the whole can be read so can the pieces; the refuted theorem shows its condition is needed."
  },
  {
   "property": "C04",
   "status": "proved",
   "theorems": [
    "C04_read_at_is_history_free"
   ],
   "note": ""
  },
  {
   "property": "C05",
   "status": "proved",
   "theorems": [
    "C05_cursor_accounting"
   ],
   "note": ""
  },
  {
   "property": "C06",
   "status": "proved",
   "theorems": [
    "C06_read_at_end",
    "C06_read_before_end"
   ],
   "note": ""
  },
  {
   "property": "C07",
   "status": "proved",
   "theorems": [
    "C07_only_streams"
   ],
   "note": ""
  },
  {
   "property": "C08",
   "status": "proved",
   "theorems": [
    "C08_seek"
   ],
   "note": ""
  },
  {
   "property": "C09",
   "status": "proved",
   "theorems": [
    "C09_threshold_only",
    "C09_large_streams_ignore_short_sectors",
    "C09_small_streams_use_short_sectors"
   ],
   "note": ""
  },
  {
   "property": "C10",
   "status": "proved",
   "theorems": [
    "C10_open_defined",
    "C10_session_defined",
    "C10_reads_defined",
    "C10_large_read_condition"
   ],
   "note": "The last theorem spells out when the size condition fails."
  },
  {
   "property": "C100",
   "status": "proved",
   "theorems": [
    "C100_memory",
    "C100_output",
    "C100_head",
    "C100_granted",
    "C100_refused",
    "C100_success_is_right_refuted"
   ],
   "note": "The requests of libfvalue, libfguid and libfdatetime are one block each for the objects that the tool makes; those inside of conversions are not counted. The last theorem is a finding."
  },
  {
   "property": "C101",
   "status": "proved",
   "theorems": [
    "C101_run",
    "C101_runs",
    "C101_file_calls",
    "C101_item_calls",
    "C101_refused"
   ],
   "note": "The stack is unbounded in the model: see C49. The handle of libbfio is one block, and libbfio_memory_range_set and the calls on the handle answer as they like."
  },
  {
   "property": "C102",
   "status": "proved",
   "theorems": [
    "C102_memory",
    "C102_defined",
    "C102_granted",
    "C102_refused",
    "C102_keeps",
    "C102_log",
    "C102_success_is_right_refuted"
   ],
   "note": "The last theorem is a finding: one refused request for the short allocation table, exit status 0, no line of the log tells of it, wrong bytes in an exported file. The hypotheses on names and on closing the log are those of C75_defined (see the findings of C43 and C75)."
  },
  {
   "property": "C11",
   "status": "proved",
   "theorems": [
    "C11_open_work",
    "C11_open_size"
   ],
   "note": ""
  },
  {
   "property": "C12",
   "status": "proved",
   "theorems": [
    "C12_read_work"
   ],
   "note": ""
  },
  {
   "property": "C13",
   "status": "proved",
   "theorems": [
    "C13_header_acceptance"
   ],
   "note": ""
  },
  {
   "property": "C14",
   "status": "proved",
   "theorems": [
    "C14_header_round_trip",
    "C14_byte_orders_agree"
   ],
   "note": ""
  },
  {
   "property": "C15",
   "status": "proved",
   "theorems": [
    "C15_sector_sizes",
    "C15_getters"
   ],
   "note": ""
  },
  {
   "property": "C16",
   "status": "proved",
   "theorems": [
    "C16_signature_check",
    "C16_open_implies_check",
    "C16_on_handle"
   ],
   "note": ""
  },
  {
   "property": "C17",
   "status": "proved",
   "theorems": [
    "C17_table_size",
    "C17_table_entries",
    "C17_large_table_empty"
   ],
   "note": ""
  },
  {
   "property": "C18",
   "status": "proved",
   "theorems": [
    "C18_master_table"
   ],
   "note": ""
  },
  {
   "property": "C19",
   "status": "proved",
   "theorems": [
    "C19_tables_always_accepted",
    "C19_zero_after_unreadable",
    "C17_table_entries"
   ],
   "note": ""
  },
  {
   "property": "C20",
   "status": "proved",
   "theorems": [
    "C20_identifiers_are_slots"
   ],
   "note": ""
  },
  {
   "property": "C21",
   "status": "proved",
   "theorems": [
    "C21_cyclic_directory"
   ],
   "note": ""
  },
  {
   "property": "C22",
   "status": "proved",
   "theorems": [
    "C22_entries_once"
   ],
   "note": ""
  },
  {
   "property": "C23",
   "status": "proved",
   "theorems": [
    "C23_sub_items",
    "C23_root",
    "C23_root_elsewhere"
   ],
   "note": "C23_root_elsewhere is the case of a root entry in another slot (finding): the tree then has no other item."
  },
  {
   "property": "C24",
   "status": "proved",
   "theorems": [
    "C24_sub_item_order"
   ],
   "note": ""
  },
  {
   "property": "C25",
   "status": "proved",
   "theorems": [
    "C25_released_once"
   ],
   "note": "All runs of open and close, whatever fails: every directory entry allocated while the directory is read is released at most once, never before it is allocated, and after close exactly once. The model records allocation and release of entries only; the tables and the header are not tracked."
  },
  {
   "property": "C26",
   "status": "proved",
   "theorems": [
    "C26_named_twice",
    "C26_root_named",
    "C26_links_exact"
   ],
   "note": ""
  },
  {
   "property": "C27",
   "status": "proved",
   "theorems": [
    "C27_dangling_next",
    "C27_dangling_ignored"
   ],
   "note": ""
  },
  {
   "property": "C28",
   "status": "proved",
   "theorems": [
    "C28_path_is_names",
    "C28_path_is_names_utf16",
    "C28_paths_defined"
   ],
   "note": "The character functions of libuna are a parameter; is_char states what is needed of them."
  },
  {
   "property": "C29",
   "status": "proved",
   "theorems": [
    "C29_one_character"
   ],
   "note": ""
  },
  {
   "property": "C30",
   "status": "proved",
   "theorems": [
    "C30_first_match",
    "C30_encodings_agree"
   ],
   "note": "The comparison functions of libuna are a parameter."
  },
  {
   "property": "C31",
   "status": "proved",
   "theorems": [
    "C31_two_states",
    "C31_close_resets"
   ],
   "note": ""
  },
  {
   "property": "C32",
   "status": "proved",
   "theorems": [
    "C32_stale_header",
    "C32_stale_header_refuted",
    "C32_next_open"
   ],
   "note": ""
  },
  {
   "property": "C33",
   "status": "proved",
   "theorems": [
    "C33_handles",
    "C33_free",
    "C33_signature_check"
   ],
   "note": ""
  },
  {
   "property": "C34",
   "status": "proved",
   "theorems": [
    "C34_set_codepage",
    "C34_get_codepage"
   ],
   "note": ""
  },
  {
   "property": "C35",
   "status": "proved",
   "theorems": [
    "C35_slot_decoded",
    "C35_short_slot",
    "C35_name_overlaps_fields_refuted"
   ],
   "note": ""
  },
  {
   "property": "C36",
   "status": "proved",
   "theorems": [
    "C36_round_trip",
    "C36_file_name",
    "C36_exact",
    "C36_lookup",
    "C36_backslash"
   ],
   "note": "The UTF-8 functions of libuna are a parameter with the contract codec_ok; X_Mount.v has an instance."
  },
  {
   "property": "C37",
   "status": "proved",
   "theorems": [
    "C37_from_item_path",
    "C37_to_item_path"
   ],
   "note": "The UTF-8 functions of libuna are a parameter with the contract codec_ok; X_Mount.v has an instance."
  },
  {
   "property": "C38",
   "status": "proved",
   "theorems": [
    "C38_filetime",
    "C38_end_of_1699_refuted",
    "C38_python"
   ],
   "note": ""
  },
  {
   "property": "C39",
   "status": "proved",
   "theorems": [
    "C39_hfs_time",
    "C39_posix_time",
    "C39_posix_time_in_micro_seconds",
    "C39_days",
    "C39_year_wraps_refuted",
    "C39_before_1970"
   ],
   "note": ""
  },
  {
   "property": "C40",
   "status": "proved",
   "theorems": [
    "C40_fat_date_time"
   ],
   "note": ""
  },
  {
   "property": "C41",
   "status": "proved",
   "theorems": [
    "C41_mount_time",
    "C41_overflow_refuted"
   ],
   "note": ""
  },
  {
   "property": "C42",
   "status": "proved",
   "theorems": [
    "C42_item_success",
    "C42_not_a_stream",
    "C42_keeps",
    "C42_only_streams",
    "C42_export_exact",
    "C42_opened_shape",
    "C42_success_refuted",
    "C42_short_file_refuted"
   ],
   "note": "libcpath, libcfile and the decoding of names are parameters (a host with an arbitrary failure for every call)."
  },
  {
   "property": "C43",
   "status": "proved",
   "theorems": [
    "C43_name_write",
    "C43_only_if_taken",
    "C43_long_names",
    "C43_own_names",
    "C43_siblings_refuted",
    "C43_dots_refuted",
    "C43_cut_text_refuted"
   ],
   "note": "The refuted statements are the finding."
  },
  {
   "property": "C44",
   "status": "proved",
   "theorems": [
    "C44_set_is_in_the_stream",
    "C44_set_exact",
    "C44_set_is_unique",
    "C44_defined",
    "C44_number_of_sections",
    "C44_section_by_index",
    "C44_big_endian_count_refuted"
   ],
   "note": "Values of libfvalue (not in the repository) are a parameter; C44_set_exact assumes that it accepts values of their size (lib_accepts)."
  },
  {
   "property": "C45",
   "status": "proved",
   "theorems": [
    "C45_section_lists_its_properties",
    "C45_every_entry",
    "C45_property_by_index",
    "C45_small_offset_rejected",
    "C45_offset_past_the_end_refuted"
   ],
   "note": ""
  },
  {
   "property": "C46",
   "status": "proved",
   "theorems": [
    "C46_stored_bytes",
    "C46_cut_is_the_first_end",
    "C46_character_count_refuted"
   ],
   "note": ""
  },
  {
   "property": "C47",
   "status": "proved",
   "theorems": [
    "C47_getters_are_gated",
    "C47_getters_decode",
    "C47_strings"
   ],
   "note": "Values of libfvalue (not in the repository) are a parameter; C47_getters_decode assumes that it reads integers in the byte order it is given (lib_decodes)."
  },
  {
   "property": "C48",
   "status": "proved",
   "theorems": [
    "C48_short_table_is_cut",
    "C48_long_short_table_refuted"
   ],
   "note": ""
  },
  {
   "property": "C49",
   "status": "proved",
   "theorems": [
    "C49_depth_at_most",
    "C49_depth_reached"
   ],
   "note": ""
  },
  {
   "property": "C50",
   "status": "proved",
   "theorems": [
    "C50_open_exact",
    "C50_open_deterministic"
   ],
   "note": ""
  },
  {
   "property": "C51",
   "status": "proved",
   "theorems": [
    "C51_answers"
   ],
   "note": ""
  },
  {
   "property": "C52",
   "status": "proved",
   "theorems": [
    "C52_memory_bound",
    "C52_amplification_refuted"
   ],
   "note": ""
  },
  {
   "property": "C53",
   "status": "proved",
   "theorems": [
    "C53_path",
    "C53_trailing_slash",
    "C53_trailing_slash_refuted",
    "C53_defined"
   ],
   "note": "Item names with a backslash are the subject of C36_backslash."
  },
  {
   "property": "C54",
   "status": "proved",
   "theorems": [
    "C54_getattr",
    "C54_unique",
    "C54_opened",
    "C54_nanoseconds_refuted"
   ],
   "note": ""
  },
  {
   "property": "C55",
   "status": "proved",
   "theorems": [
    "C55_readdir",
    "C55_listed_is_found",
    "C55_hidden"
   ],
   "note": ""
  },
  {
   "property": "C56",
   "status": "proved",
   "theorems": [
    "C56_read",
    "C56_sound",
    "C56_errors",
    "C56_whole"
   ],
   "note": "The condition on sector sizes is that of C02: with sectors of less than 4 bytes and requests of more than 1 GiB the sector counter wraps."
  },
  {
   "property": "C57",
   "status": "proved",
   "theorems": [
    "C57_open",
    "C57_answers",
    "C57_defined",
    "C57_live",
    "C57_leak_refuted"
   ],
   "note": ""
  },
  {
   "property": "C58",
   "status": "proved",
   "theorems": [
    "C58_reader",
    "C58_reliable",
    "C58_open",
    "C58_streams",
    "C58_get_size",
    "C58_get_size_restores",
    "C58_overflow",
    "C58_overflow_refuted",
    "C58_get_size_refuted"
   ],
   "note": "libbfio_handle_read_buffer_at_offset (not in the repository) is modelled as a seek with SEEK_SET and a read."
  },
  {
   "property": "C59",
   "status": "proved",
   "theorems": [
    "C59_signed",
    "C59_unsigned",
    "C59_defined",
    "C59_new",
    "C59_round_trip_refuted"
   ],
   "note": ""
  },
  {
   "property": "C60",
   "status": "proved",
   "theorems": [
    "C60_history",
    "C60_failed",
    "C60_sound",
    "C60_whole",
    "C60_all",
    "C60_big_endian_refuted",
    "C60_other_items"
   ],
   "note": ""
  },
  {
   "property": "C61",
   "status": "proved",
   "theorems": [
    "C61_round_trip",
    "C61_read_back",
    "C61_injective"
   ],
   "note": "The writer (Spec_Write.v) is a specification; the library has none. It writes contiguous chains and links siblings by their next links, without further MSAT sectors. C61_read_back has the condition on sector sizes of C02: short sectors of at least 4 bytes or streams of at most 1 GiB."
  },
  {
   "property": "C62",
   "status": "proved",
   "theorems": [
    "C62_defined",
    "C62_after_close_refuted"
   ],
   "note": "type() on an object of a closed file is harmless but counts as a use. The contracts of libuna and of the text conversion are pyenv_ok."
  },
  {
   "property": "C63",
   "status": "proved",
   "theorems": [
    "C63_iteration",
    "C63_twice_refuted",
    "C63_blocked_refuted"
   ],
   "note": ""
  },
  {
   "property": "C64",
   "status": "proved",
   "theorems": [
    "C64_walk"
   ],
   "note": "On little-endian hosts (C60_big_endian_refuted); streams of at most 2^31-1 bytes, which is the limit of read()."
  },
  {
   "property": "C65",
   "status": "proved",
   "theorems": [
    "C65_format_version",
    "C65_documented",
    "C65_usual_refuted"
   ],
   "note": ""
  },
  {
   "property": "C66",
   "status": "proved",
   "theorems": [
    "C66_file_object",
    "C66_codepage",
    "C66_codepage_strings"
   ],
   "note": ""
  },
  {
   "property": "C67",
   "status": "proved",
   "theorems": [
    "C67_class",
    "C67_file_item",
    "C67_same_item_refuted"
   ],
   "note": ""
  },
  {
   "property": "C68",
   "status": "proved",
   "theorems": [
    "C68_apart"
   ],
   "note": "Calls that make an object give another number for it."
  },
  {
   "property": "C69",
   "status": "proved",
   "theorems": [
    "C69_closed"
   ],
   "note": ""
  },
  {
   "property": "C70",
   "status": "proved",
   "theorems": [
    "C70_same_result",
    "C70_set_lives_and_is_freed",
    "C70_failure",
    "C70_refused_set_leaks",
    "C70_leak_refuted"
   ],
   "note": "Memory allocation itself does not fail."
  },
  {
   "property": "C71",
   "status": "proved",
   "theorems": [
    "C71_safe",
    "C71_kept",
    "C71_no_leak",
    "C71_released",
    "C71_item_after_close_refuted"
   ],
   "note": "Making a Python object and closing a file do not fail; __init__ is not called again on an existing object."
  },
  {
   "property": "C72",
   "status": "proved",
   "theorems": [
    "C72_programs",
    "C72_values",
    "C72_parts_by_index",
    "C72_walk"
   ],
   "note": "Strings that are empty: only that the answer is defined. Contracts of libfvalue, libfguid and the UTF-8 decoder of Python are hypotheses (proplib_ok)."
  },
  {
   "property": "C73",
   "status": "proved",
   "theorems": [
    "C73_run",
    "C73_items",
    "C73_lines",
    "C73_listing",
    "C73_listing_tells",
    "C73_numbers",
    "C73_information_sound",
    "C73_information",
    "C73_backslash_refuted",
    "C73_space_refuted",
    "C73_values_refuted"
   ],
   "note": "The command line is C74. The texts of value types, dates, GUIDs and strings come from libraries outside the repository (infolib_ok)."
  },
  {
   "property": "C74",
   "status": "proved",
   "theorems": [
    "C74_getopt",
    "C74_info",
    "C74_export",
    "C74_name",
    "C74_mount",
    "C74_decides",
    "C74_dash_refuted",
    "C74_no_words_refuted",
    "C74_long_refuted",
    "C74_invalid_refuted",
    "C74_again_refuted"
   ],
   "note": "With the getopt of the repository, which is used on systems without one. Which word the message calls invalid is left out of the theorems (it is a finding)."
  },
  {
   "property": "C75",
   "status": "proved",
   "theorems": [
    "C75_main",
    "C75_same",
    "C75_keeps",
    "C75_new",
    "C75_log",
    "C75_occupied",
    "C75_no_target",
    "C75_unreadable",
    "C75_success",
    "C75_exact",
    "C75_defined",
    "C75_defined_own",
    "C75_status_refuted",
    "C75_log_close_refuted",
    "C75_log_in_the_way_refuted",
    "C75_source_refuted"
   ],
   "note": "That all items are stored is shown for logs outside the new directory (where they always are on a real file system). Dots in the target path are not resolved."
  },
  {
   "property": "C76",
   "status": "proved",
   "theorems": [
    "C76_safe",
    "C76_reads_an_object",
    "C76_moves_over_the_chain",
    "C76_an_object_is_read",
    "C76_standard_formats_are_refused",
    "C76_remainder_ignored_refuted",
    "C76_stays_in_the_stream_refuted",
    "C76_failure_keeps_the_offset_refuted"
   ],
   "note": "Build without debug output. The offset is below 2^32: beyond that the sector index, an int, wraps."
  },
  {
   "property": "C77",
   "status": "proved",
   "theorems": [
    "C77_check",
    "C77_check_object",
    "C77_check_fails",
    "C77_open",
    "C77_open_checks",
    "C77_open_object",
    "C77_nul_refuted",
    "C77_wrong_object_refuted"
   ],
   "note": "On systems without wide file names. The UTF-8 encoder of Python is a parameter."
  },
  {
   "property": "C78",
   "status": "proved",
   "theorems": [
    "C78_round_trip",
    "C78_file_name",
    "C78_exact",
    "C78_lookup",
    "C78_backslash",
    "C78_buffers"
   ],
   "note": "Build with wide characters for Windows. The UTF-16 decoder and encoder of libuna are a parameter with the contract codec_ok, which the codec in X_WMount meets."
  },
  {
   "property": "C79",
   "status": "proved",
   "theorems": [
    "C79_path",
    "C79_trailing_backslash",
    "C79_information",
    "C79_unique",
    "C79_opened",
    "C79_open_old",
    "C79_open",
    "C79_read",
    "C79_sound",
    "C79_errors",
    "C79_answers",
    "C79_live",
    "C79_defined",
    "C79_volume",
    "C79_volume_exact_refuted",
    "C79_stale_size_refuted"
   ],
   "note": "Build with wide characters for Windows; the names in UTF-16 and the UTF-16 coder of libuna are parameters. One call after the other."
  },
  {
   "property": "C80",
   "status": "proved",
   "theorems": [
    "C80_find",
    "C80_path",
    "C80_unique",
    "C80_listed_is_found",
    "C80_hidden",
    "C80_document_summary_refuted",
    "C80_parent_refuted"
   ],
   "note": "As C79. The comparison of names is a parameter; that it tells the names apart is a hypothesis of C80_listed_is_found."
  },
  {
   "property": "C81",
   "status": "proved",
   "theorems": [
    "C81_round_trip",
    "C81_values",
    "C81_injective",
    "C81_big_endian_sections_are_lost",
    "C81_document",
    "C81_python",
    "C81_dictionary_refuted"
   ],
   "note": "The writer is Spec_SetWrite. A boolean is compared by its first byte, which is all that is stored. lib_accepts, lib_decodes and lib_copies are the contracts of libfvalue."
  },
  {
   "property": "C82",
   "status": "proved",
   "theorems": [
    "C82_path",
    "C82_path_utf16",
    "C82_stream",
    "C82_property_set",
    "C82_no_items"
   ],
   "note": "For files that hold a document in the sense of C85. The comparison of names is a parameter (libuna); where it answers, the answer is a hypothesis (compares)."
  },
  {
   "property": "C83",
   "status": "proved",
   "theorems": [
    "C83_getattr",
    "C83_read",
    "C83_readdir",
    "C83_unique"
   ],
   "note": "The characters of names and the UTF-8 coder are parameters; that names with other characters are told apart is a hypothesis (mounts). Times are those the tool can convert (timely)."
  },
  {
   "property": "C84",
   "status": "proved",
   "theorems": [
    "C84_export",
    "C84_no_items",
    "C84_stream",
    "C84_tool"
   ],
   "note": "The names for directories are those that the host gives (libuna and libcpath are parameters); that siblings have different ones is a hypothesis (own_names)."
  },
  {
   "property": "C85",
   "status": "proved",
   "theorems": [
    "C85_open",
    "C85_exact",
    "C85_read_back",
    "C85_unique",
    "C85_written"
   ],
   "note": "stores (Spec_Stores) says what the bytes of the file are, by file_says and links_ok of C50 and contents of C02. Documents have streams and storages below a root in slot 0, storages have the size 0; C85_exact is for documents with items, and headers within the limit moderate of C50. C85_read_back has the condition on sector sizes of C02."
  },
  {
   "property": "C86",
   "status": "proved",
   "theorems": [
    "C86_nothing_leaks",
    "C86_all_granted",
    "C86_success_with_refusals",
    "C86_success_is_right_refuted"
   ],
   "note": "The containers of libcdata are one block each plus requests for what they keep inside; their own error paths are taken to leave the container as it was. The last theorem refutes that success means that the file was read: read_sat and read_ssat return 1 on their error path."
  },
  {
   "property": "C87",
   "status": "proved",
   "theorems": [
    "C87_information",
    "C87_read",
    "C87_nothing",
    "C87_find",
    "C87_unique"
   ],
   "note": "The characters of names and the UTF-16 coder are parameters, as in C83. Directories with a name of more than 25 units are the subject of C80_hidden."
  },
  {
   "property": "C88",
   "status": "proved",
   "theorems": [
    "C88_same",
    "C88_opens",
    "C88_streams",
    "C88_read",
    "C88_read_back",
    "C88_cut_same",
    "C88_cut_opens",
    "C88_cut_stream",
    "C88_written_exact",
    "C88_written_same",
    "C88_cut_refuted"
   ],
   "note": "libolecf_io_handle_read_sat and libolecf_io_handle_read_ssat return 1 after a failed read (C19), hence the condition on the tables; C88_cut_refuted is a cut off file that is opened and shows other bytes."
  },
  {
   "property": "C89",
   "status": "proved",
   "theorems": [
    "C89_opens",
    "C89_stream",
    "C89_stores",
    "C89_overwrite",
    "C89_appended",
    "C89_cut"
   ],
   "note": "moderate (C50) bounds the tables declared in the header."
  },
  {
   "property": "C90",
   "status": "proved",
   "theorems": [
    "C90_safe",
    "C90_success",
    "C90_failure",
    "C90_set_or_nothing",
    "C90_left",
    "C90_left_damaged",
    "C90_nothing_leaks_refuted"
   ],
   "note": "libfvalue_value_set_data is taken not to own the buffer if it fails. The last theorem is a finding: the section that is being read is never released."
  },
  {
   "property": "C91",
   "status": "proved",
   "theorems": [
    "C91_defined",
    "C91_stale",
    "C91_owned",
    "C91_no_leak",
    "C91_freed"
   ],
   "note": "The program does not copy pointers between its variables. What was freed is not used again, so that following a pointer to it shows. Lookups by path through an item that is gone may end before the first name and are not in C91_stale."
  },
  {
   "property": "C92",
   "status": "proved",
   "theorems": [
    "C92_apart",
    "C92_shared_refuted"
   ],
   "note": "The second theorem is a finding: a handle of the caller that is given to two files."
  },
  {
   "property": "C93",
   "status": "proved",
   "theorems": [
    "C93_info",
    "C93_no_items",
    "C93_tells"
   ],
   "note": "Streams are shorter than 2^32 - 1 bytes."
  },
  {
   "property": "C94",
   "status": "proved",
   "theorems": [
    "C94_salvage",
    "C94_faults",
    "C94_medium",
    "C94_cut",
    "C94_written"
   ],
   "note": "That the tables could be read is needed: C88_cut_refuted."
  },
  {
   "property": "C95",
   "status": "proved",
   "theorems": [
    "C95_asks",
    "C95_local",
    "C95_delivered",
    "C95_never",
    "C95_bad_medium"
   ],
   "note": ""
  },
  {
   "property": "C96",
   "status": "proved",
   "theorems": [
    "C96_beginning",
    "C96_info",
    "C96_written",
    "C96_medium"
   ],
   "note": "That the tables could be read is needed: C88_cut_refuted."
  },
  {
   "property": "C97",
   "status": "proved",
   "theorems": [
    "C97_fuse",
    "C97_dokan",
    "C97_fuse_delivered",
    "C97_dokan_delivered",
    "C97_mounts",
    "C97_file",
    "C97_wfile",
    "C97_medium"
   ],
   "note": "That the tables could be read when the file was opened is needed: C88_cut_refuted."
  },
  {
   "property": "C98",
   "status": "proved",
   "theorems": [
    "C98_exit",
    "C98_actions",
    "C98_released",
    "C98_dokan",
    "C98_none",
    "C98_codepage",
    "C98_mounts",
    "C98_getattr",
    "C98_read",
    "C98_main"
   ],
   "note": "Findings: C98_source_refuted (the source is never closed), C98_dokan_refuted (success when DokanMain fails)."
  },
  {
   "property": "C99",
   "status": "proved",
   "theorems": [
    "C99_c",
    "C99_python",
    "C99_kept"
   ],
   "note": "Reads at an offset, opens, closes and reading a property set are not among the calls that can be left out: C99_read_at_refuted, C32."
  }
 ]
}