{
 "claims": [
  {
   "property": "C01",
   "status": "proved",
   "theorems": [
    "C01_ipnets_exact",
    "C01_ipnets_sets"
   ],
   "note": ""
  },
  {
   "property": "C02",
   "status": "proved",
   "theorems": [
    "C02_ipnets_shortest",
    "C02_ipnets_coarsest",
    "C02_at_most",
    "C02_network_kept"
   ],
   "note": ""
  },
  {
   "property": "C03",
   "status": "proved",
   "theorems": [
    "C03_nextip",
    "C03_argument_kept"
   ],
   "note": "C03_argument_kept (model with memory, Share.v) is the part about the argument."
  },
  {
   "property": "C04",
   "status": "proved",
   "theorems": [
    "C04_lastip_nextstart",
    "C04_new_range"
   ],
   "note": ""
  },
  {
   "property": "C05",
   "status": "proved",
   "theorems": [
    "C05_ipless",
    "C05_ipless_total"
   ],
   "note": ""
  },
  {
   "property": "C06",
   "status": "proved",
   "theorems": [
    "C06_contains",
    "C06_contains_allones",
    "C06_refuted",
    "C06_range_method"
   ],
   "note": "C06_refuted and C06_contains_allones are the finding (NextIP of the all-ones end wraps to zero)."
  },
  {
   "property": "C07",
   "status": "proved",
   "theorems": [
    "C07_join",
    "C07_join_ipnet",
    "C07_join_allones_refuted"
   ],
   "note": "C07_join_allones_refuted shows the proviso is needed."
  },
  {
   "property": "C08",
   "status": "proved",
   "theorems": [
    "C08_common_range",
    "C08_second_allones",
    "C08_receiver_allones"
   ],
   "note": ""
  },
  {
   "property": "C09",
   "status": "proved",
   "theorems": [
    "C09_u32_roundtrip",
    "C09_ip_roundtrip",
    "C09_not_v4_panics",
    "C09_u64"
   ],
   "note": ""
  },
  {
   "property": "C10",
   "status": "proved",
   "theorems": [
    "C10_prefix_same_length",
    "C10_suffix_zero_length"
   ],
   "note": ""
  },
  {
   "property": "C11",
   "status": "proved",
   "theorems": [
    "C11_pack_query_disjoint"
   ],
   "note": "json_ok says encoding/json reads back the metadata written; C54_json_ok proves it for the modelled encoding/json and UTF-8 names (C54_pack_query has no JSON premise). File below 4 GiB; rows in row_ok (no ::/0, no tabs, record < 64 KiB); columns not spelled Continent/CONTINENT. Rows shorter than the column list give an error (see C12_pack_query / answer)."
  },
  {
   "property": "C12",
   "status": "proved",
   "theorems": [
    "C12_pack_query",
    "C12_nested_dropped",
    "C12_replaces_and_keeps_others",
    "C12_insert_rejected"
   ],
   "note": "Same premises as C11; C12_pack_query is the full refinement to the prefix-free map, for any rows."
  },
  {
   "property": "C13",
   "status": "proved",
   "theorems": [
    "C13_no_record"
   ],
   "note": "The one-field case is a finding."
  },
  {
   "property": "C14",
   "status": "proved",
   "theorems": [
    "C14_prefix_cache"
   ],
   "note": ""
  },
  {
   "property": "C15",
   "status": "proved",
   "theorems": [
    "C15_build_cache_transparent"
   ],
   "note": ""
  },
  {
   "property": "C16",
   "status": "proved",
   "theorems": [
    "C16_ipnet_contains",
    "C16_prefix_is_right",
    "C16_findmap_network"
   ],
   "note": ""
  },
  {
   "property": "C17",
   "status": "proved",
   "theorems": [
    "C17_records_once",
    "C17_record_read_back",
    "C17_exactly_the_accepted"
   ],
   "note": "Truncation of records >= 65536 bytes is a finding."
  },
  {
   "property": "C18",
   "status": "proved",
   "theorems": [
    "C18_open_checks_sizes",
    "C18_short_file_crashes",
    "C18_truncated_or_extended"
   ],
   "note": "C18_short_file_crashes is a finding."
  },
  {
   "property": "C19",
   "status": "proved",
   "theorems": [
    "C19_dump_covers",
    "C19_success_covers"
   ],
   "note": ""
  },
  {
   "property": "C20",
   "status": "proved",
   "theorems": [
    "C20_error_is_returned",
    "C20_rows_only_without_error"
   ],
   "note": ""
  },
  {
   "property": "C21",
   "status": "proved",
   "theorems": [
    "C21_pack_dump",
    "C21_pack_dump_partition"
   ],
   "note": ""
  },
  {
   "property": "C22",
   "status": "proved",
   "theorems": [
    "C22_one_value_per_field",
    "C22_rules_deterministic"
   ],
   "note": ""
  },
  {
   "property": "C23",
   "status": "proved",
   "theorems": [
    "C23_documented_syntax",
    "C23_empty_rule",
    "C23_line_rule"
   ],
   "note": ""
  },
  {
   "property": "C24",
   "status": "proved",
   "theorems": [
    "C24_merge_partition",
    "C24_merge_preserves"
   ],
   "note": "C24_merge_partition: the merged networks are the coarsest aligned blocks of each run (with C02_ipnets_coarsest)."
  },
  {
   "property": "C25",
   "status": "proved",
   "theorems": [
    "C25_merge_only_grows",
    "C25_merge_never_longer"
   ],
   "note": "Statements over the modelled heap: rows that share a slice are covered."
  },
  {
   "property": "C26",
   "status": "proved",
   "theorems": [
    "C26_memip_crashes_iff_empty",
    "C26_merge_crashes_iff_empty"
   ],
   "note": "MergeNearNetwork and memip pack; for memip the precondition (one value per column, IPv4 networks in a dataset declared IPv4) is needed: the code indexes values and calls IPv4ToUint32, both of which panic otherwise."
  },
  {
   "property": "C27",
   "status": "proved",
   "theorems": [
    "C27_replace_is_lookup",
    "C27_shipped_names",
    "C27_normal_name_unique",
    "C27_twice"
   ],
   "note": "Offset 0 counts as a missing column (finding)."
  },
  {
   "property": "C28",
   "status": "proved",
   "theorems": [
    "C28_trim",
    "C28_unique_operator",
    "C28_order_matters_refuted",
    "C28_first_column",
    "C28_short_row"
   ],
   "note": "Over every iteration order of the Go map (the order is a parameter)."
  },
  {
   "property": "C29",
   "status": "proved",
   "theorems": [
    "C29_district_added",
    "C29_district_set",
    "C29_no_province",
    "C29_no_province_pack",
    "C29_short_row"
   ],
   "note": "Over every growth policy of append (the policy is a parameter)."
  },
  {
   "property": "C30",
   "status": "proved",
   "theorems": [
    "C30_attach_line_added",
    "C30_attach_line_set",
    "C30_replace_line",
    "C30_own_line",
    "C30_merged_rows_refuted",
    "C30_short_row",
    "C30_short_isp"
   ],
   "note": "Over every line database; C30 in the converter is C63."
  },
  {
   "property": "C31",
   "status": "proved",
   "theorems": [
    "C31_roundtrip",
    "C31_empty_rule_drops_values",
    "C31_long_line_truncates",
    "C31_short_file_crashes",
    "C31_header"
   ],
   "note": "encoding/json enters as a pair of functions whose round trip on the version is a hypothesis (sc_json), discharged by C54_scannable. C31_empty_rule_drops_values, C31_long_line_truncates and C31_short_file_crashes are findings."
  },
  {
   "property": "C32",
   "status": "proved",
   "theorems": [
    "C32_pack_modifies",
    "C32_changed_iff_comma"
   ],
   "note": "Finding: packing is not read-only."
  },
  {
   "property": "C33",
   "status": "proved",
   "theorems": [
    "C33_roundtrip",
    "C33_city_refuted",
    "C33_colon_refuted"
   ],
   "note": "C33_city_refuted and C33_colon_refuted are the findings. The clock is an argument of the model."
  },
  {
   "property": "C34",
   "status": "proved",
   "theorems": [
    "C34_node_records",
    "C34_node_anywhere",
    "C34_open_table"
   ],
   "note": ""
  },
  {
   "property": "C35",
   "status": "proved",
   "theorems": [
    "C35_lookup_walk",
    "C35_walk_total",
    "C35_network_ipv4",
    "C35_network_ipv6",
    "C35_shallow_ipv4"
   ],
   "note": ""
  },
  {
   "property": "C36",
   "status": "proved",
   "theorems": [
    "C36_networks",
    "C36_lookups_listed",
    "C36_listed_lookups",
    "C36_within",
    "C36_within_ipv4"
   ],
   "note": "C36_within_ipv4 is a finding: NetworksWithin of an IPv4 network searches below ::ffff:0:0/96 while lookups use ::/96."
  },
  {
   "property": "C37",
   "status": "proved",
   "theorems": [
    "C37_decode_encoded",
    "C37_roundtrip",
    "C37_depth_limit"
   ],
   "note": ""
  },
  {
   "property": "C38",
   "status": "proved",
   "theorems": [
    "C38_no_crash",
    "C38_no_crash_metadata"
   ],
   "note": ""
  },
  {
   "property": "C39",
   "status": "proved",
   "theorems": [
    "C39_terminates",
    "C39_terminates_metadata",
    "C39_skip_terminates",
    "C39_cyclic_key_diverges",
    "C39_key_diverges_iff",
    "C39_points_followed"
   ],
   "note": ""
  },
  {
   "property": "C40",
   "status": "proved",
   "theorems": [
    "C40_no_data_crashes",
    "C40_crash_iff",
    "C40_fields",
    "C40_error"
   ],
   "note": "Crashes on empty records and on records that are not maps are findings."
  },
  {
   "property": "C41",
   "status": "proved",
   "theorems": [
    "C41_six_columns",
    "C41_asn"
   ],
   "note": "Finding: dump and Query read different keys for the AS number."
  },
  {
   "property": "C42",
   "status": "proved",
   "theorems": [
    "C42_last_registered",
    "C42_unsupported",
    "C42_programs",
    "C42_extension",
    "C42_no_extension"
   ],
   "note": "Registries are values: package init order is modelled as the order of the registrations."
  },
  {
   "property": "C43",
   "status": "proved",
   "theorems": [
    "C43_rust_answers",
    "C43_rust_agrees",
    "C43_rust_no_record"
   ],
   "note": "Rust transcription, 32-bit arithmetic, 12-bit cache. Premises as C12 plus files below 2 GiB and UTF-8 values; C43_C44_premises shows a dataset that satisfies them. The theorems about addresses without a record are findings."
  },
  {
   "property": "C44",
   "status": "proved",
   "theorems": [
    "C44_java_cache_transparent",
    "C44_java_answers",
    "C44_java_agrees",
    "C44_java_no_record",
    "C44_errors"
   ],
   "note": "Java transcription. The asn case falls through to line: finding, stated exactly by java_answer. Cache transparency is C44_java_cache_transparent."
  },
  {
   "property": "C45",
   "status": "proved",
   "theorems": [
    "C45_dump_covers_one_family"
   ],
   "note": "Finding: IpAll is dumped as IPv4 only."
  },
  {
   "property": "C46",
   "status": "proved",
   "theorems": [
    "C46_ipv6_dump"
   ],
   "note": "Finding: error at ::ffff:0:0."
  },
  {
   "property": "C47",
   "status": "proved",
   "theorems": [
    "C47_spelling",
    "C47_u32",
    "C47_str",
    "C47_dotted",
    "C47_not_an_address",
    "C47_error",
    "C47_error_str",
    "C47_check_v4",
    "C47_check_v6",
    "C47_server",
    "C47_packed"
   ],
   "note": "All spellings net.ParseIP accepts; ParseIP is modelled in NetText.v."
  },
  {
   "property": "C48",
   "status": "proved",
   "theorems": [
    "C48_no_asn",
    "C48_first_column_used",
    "C48_only_empty_written",
    "C48_then_by_network"
   ],
   "note": "Finding: AttachLineByAsn reads column 0 when there is no line column."
  },
  {
   "property": "C49",
   "status": "proved",
   "theorems": [
    "C49_dump_is_query",
    "C49_dump_total"
   ],
   "note": "Any search tree without cycles of an IPv4 database."
  },
  {
   "property": "C50",
   "status": "proved",
   "theorems": [
    "C50_covers",
    "C50_stops",
    "C50_loops"
   ],
   "note": "The IPv6 dump that reaches ::ffff:0:0 stops or loops (finding)."
  },
  {
   "property": "C51",
   "status": "proved",
   "theorems": [
    "C51_short",
    "C51_open",
    "C51_lookup"
   ],
   "note": "The crash of short files is a finding."
  },
  {
   "property": "C52",
   "status": "proved",
   "theorems": [
    "C52_outputs_independent",
    "C52_text_first_changes_the_next"
   ],
   "note": "Independence needs values without commas; C52_text_first_changes_the_next shows why."
  },
  {
   "property": "C53",
   "status": "proved",
   "theorems": [
    "C53_unchanged",
    "C53_only_codes",
    "C53_all_rows",
    "C53_again"
   ],
   "note": "Finding: a column spelled Continent is converted in place while packing."
  },
  {
   "property": "C54",
   "status": "proved",
   "theorems": [
    "C54_metadata_round_trip",
    "C54_version_round_trip",
    "C54_json_ok",
    "C54_pack_query",
    "C54_version_line",
    "C54_scannable",
    "C54_any_text",
    "C54_text_after",
    "C54_any_metadata",
    "C54_too_deep_refuted",
    "C54_repaired",
    "C54_any_bytes_metadata",
    "C54_any_bytes_version",
    "C54_accepts",
    "C54_number"
   ],
   "note": "encoding/json is modelled concretely (Json.v: string escapes as Go 1.19, number syntax, case-folded keys, nil slices as null). Not modelled: number targets other than integers. encoding/json is library code: its model is part of the trusted base. C54_any_metadata covers files written by other programs (JSON grammar in SpecJson.v; lone surrogates and bytes that are not UTF-8 are left out)."
  },
  {
   "property": "C55",
   "status": "proved",
   "theorems": [
    "C55_address",
    "C55_not_an_address",
    "C55_version",
    "C55_packed",
    "C55_any_bytes",
    "C55_any_bytes_exists"
   ],
   "note": "net/http itself is not modelled (path cleaning, methods, recovery from a handler panic)."
  },
  {
   "property": "C56",
   "status": "proved",
   "theorems": [
    "C56_first_ipv6",
    "C56_first_ipv4",
    "C56_first_refuted",
    "C56_mask_less",
    "C56_mask_less_order",
    "C56_str_to_u32",
    "C56_str_bad",
    "C56_ranges",
    "C56_all_mask"
   ],
   "note": "C56_first_refuted is a finding; the functions have no caller in the repository outside tests."
  },
  {
   "property": "C57",
   "status": "proved",
   "theorems": [
    "C57_copy",
    "C57_other_family_lost",
    "C57_default",
    "C57_whole_ipv6_crashes"
   ],
   "note": "C57_copy and C57_default are the two halves; premises on the dumped columns: no duplicates; for the default operations province, isp and asn present and isp, asn not first (the operations take column 0 for missing: C28, C29). C57_other_family_lost and C57_whole_ipv6_crashes are findings. The --line and --asn options of the converter are not in C57 (see C30, C48)."
  },
  {
   "property": "C58",
   "status": "proved",
   "theorems": [
    "C58_ipdb",
    "C58_awdb",
    "C58_operator_abroad",
    "C58_awdb_operator_abroad",
    "C58_awdb6"
   ],
   "note": "ipdb files, IPv4 awdb files, IPv6 awdb files whose dump never asks for an IPv4 address (the others stop or loop, C50); empty rule and default rule."
  },
  {
   "property": "C59",
   "status": "proved",
   "theorems": [
    "C59_done",
    "C59_failed",
    "C59_awdb_output_lost",
    "C59_in_order",
    "C59_last_turn"
   ],
   "note": "Moments inside a run and full disks are C70; the exit status is always 0 (read off main.go)."
  },
  {
   "property": "C60",
   "status": "proved",
   "theorems": [
    "C60_skip",
    "C60_open",
    "C60_ways",
    "C60_lookup",
    "C60_query"
   ],
   "note": "The writer of awdb files is not in the repository: the format is specified in SpecAw.v and SpecAwTree.v."
  },
  {
   "property": "C61",
   "status": "proved",
   "theorems": [
    "C61_calendar",
    "C61_date_text",
    "C61_packed"
   ],
   "note": "C61 covers version texts in Go, Rust and Java; the default texts differ (finding)."
  },
  {
   "property": "C62",
   "status": "proved",
   "theorems": [
    "C62_rust_number",
    "C62_rust",
    "C62_java",
    "C62_java_refuses",
    "C62_same_text"
   ],
   "note": "The Java facade; build:int overflows after 2038 and texts starting with ':' are rejected (findings)."
  },
  {
   "property": "C63",
   "status": "proved",
   "theorems": [
    "C63_ipdb",
    "C63_awdb",
    "C63_replace",
    "C63_ipdb_line",
    "C63_awdb_line",
    "C63_no_rule_refuted",
    "C63_awdb6"
   ],
   "note": "C63_no_rule_refuted: without a rule (and with -line-replace, C63_replace_shared_case) rows sharing a slice get the last row's line."
  },
  {
   "property": "C64",
   "status": "proved",
   "theorems": [
    "C64_answer",
    "C64_unique",
    "C64_no_family",
    "C64_opens",
    "C64_crash",
    "C64_safe",
    "C64_node_count"
   ],
   "note": "Go slices are bounded by capacity, and os.ReadFile leaves spare capacity: a crash of the model (capacity = length) may be ErrDatabaseError when the record ends inside the spare capacity."
  },
  {
   "property": "C65",
   "status": "proved",
   "theorems": [
    "C65_open",
    "C65_undisturbed",
    "C65_prefix",
    "C65_shared",
    "C65_listed",
    "C65_spoiled"
   ],
   "note": "Alias.v models pointers and string windows; C65_spoiled and C65_data_case are the findings that make the two premises necessary."
  },
  {
   "property": "C66",
   "status": "proved",
   "theorems": [
    "C66_run",
    "C66_address",
    "C66_readable",
    "C66_ambiguous_refuted",
    "C66_start",
    "C66_packed"
   ],
   "note": "fmt's %+v is modelled for this one structure; C66_ambiguous_refuted is a finding (texts with spaces)."
  },
  {
   "property": "C67",
   "status": "proved",
   "theorems": [
    "C67_text",
    "C67_copy"
   ],
   "note": ""
  },
  {
   "property": "C68",
   "status": "proved",
   "theorems": [
    "C68_memip",
    "C68_mixed_crashes"
   ],
   "note": ""
  },
  {
   "property": "C69",
   "status": "proved",
   "theorems": [
    "C69_answers",
    "C69_no_race",
    "C69_finishes"
   ],
   "note": ""
  },
  {
   "property": "C70",
   "status": "proved",
   "theorems": [
    "C70_enough_room",
    "C70_nothing",
    "C70_any_moment",
    "C70_no_error",
    "C70_memip_silent",
    "C70_ipdb_whole_or_none",
    "C70_scan_cut"
   ],
   "note": "C70_memip_silent and C70_scan_cut are findings. A file grows byte by byte in the order it is written (no reordering by the kernel after a power failure)."
  },
  {
   "property": "C71",
   "status": "proved",
   "theorems": [
    "C71_addresses",
    "C71_ranges",
    "C71_ipnets",
    "C71_ipnets_stores"
   ],
   "note": "C71_ipnets_stores, first part, is a finding."
  },
  {
   "property": "C72",
   "status": "proved",
   "theorems": [
    "C72_same_decoder",
    "C72_requests_bounded",
    "C72_decoded",
    "C72_sizes_not_checked",
    "C72_exponential"
   ],
   "note": "C72_sizes_not_checked and C72_exponential are findings. Requests are counted in elements and bytes, not in the allocator's units."
  },
  {
   "property": "C73",
   "status": "proved",
   "theorems": [
    "C73_plain_operations",
    "C73_merge",
    "C73_line_operations",
    "C73_run",
    "C73_source",
    "C73_written"
   ],
   "note": "The count and build time shown by a packed output are a finding (C73_written, C73_case)."
  },
  {
   "property": "C74",
   "status": "proved",
   "theorems": [
    "C74_extension",
    "C74_read_all",
    "C74_java",
    "C74_rust",
    "C74_go",
    "C74_packed"
   ],
   "note": "The two crashes are findings. A dot is one byte in UTF-8 and one unit in UTF-16, so names are compared as bytes."
  },
  {
   "property": "C75",
   "status": "proved",
   "theorems": [
    "C75_rust_text",
    "C75_java_text",
    "C75_ambiguous_refuted",
    "C75_run",
    "C75_packed"
   ],
   "note": "The debug form of argument lists and of errors, and the Rust address parser (it reads the usual texts), are arguments. C75_ambiguous_refuted and the crash in C75_packed are findings."
  },
  {
   "property": "C76",
   "status": "proved",
   "theorems": [
    "C76_options",
    "C76_exit",
    "C76_mistakes",
    "C76_last",
    "C76_separate_truth",
    "C76_program"
   ],
   "note": "Package flag of Go is modelled from its source text as the standard library documents it; usage texts on stderr are not. C76_separate_truth is a finding."
  },
  {
   "property": "C77",
   "status": "proved",
   "theorems": [
    "C77_rust_answer",
    "C77_rust_opens",
    "C77_java_answer",
    "C77_java_walk",
    "C77_java_opens",
    "C77_unique"
   ],
   "note": "The JSON library and the text decoder are parameters."
  },
  {
   "property": "C78",
   "status": "proved",
   "theorems": [
    "C78_reserved",
    "C78_rows_do_not_count",
    "C78_bounded",
    "C78_packed",
    "C78_short_files"
   ],
   "note": "Counted in entries (16 bytes a line, 32 a row in 64-bit Go); the memory allocator is not modelled. C78_short_files is the finding. The reservation of export.BuildIPData, with the node count that an ipdb or awdb description claims, is not stated."
  }
 ]
}