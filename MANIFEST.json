{
 "claims": [
  {
   "property": "C01",
   "status": "proved",
   "theorems": [
    "C01_coordinate_roundtrip",
    "C01_position_roundtrip",
    "C01_setters_roundtrip"
   ],
   "note": "All int32 coordinates, both axes, constructor and setters."
  },
  {
   "property": "C02",
   "status": "proved",
   "theorems": [
    "C02_stored_to_nearest",
    "C02_monotone",
    "C02_out_of_range_is_ub"
   ],
   "note": "All finite doubles of magnitude at most 214; conversion outside int32 is UB."
  },
  {
   "property": "C03",
   "status": "proved",
   "theorems": [
    "C03_defined_iff",
    "C03_default_undefined",
    "C03_equality",
    "C03_order_is_lexicographic",
    "C03_order_strict_total"
   ],
   "note": ""
  },
  {
   "property": "C04",
   "status": "proved",
   "theorems": [
    "C04_bounds_tight",
    "C04_bounds_order_independent",
    "C04_bounds_stays_undefined",
    "C04_undefined_position_ignored_refuted"
   ],
   "note": "Proved for defined positions. The clause about undefined positions is false of the code: C04_undefined_position_ignored_refuted."
  },
  {
   "property": "C05",
   "status": "proved",
   "theorems": [
    "C05_symmetric",
    "C05_same_endpoints",
    "C05_first_not_greater",
    "C05_equality",
    "C05_order_strict_total"
   ],
   "note": ""
  },
  {
   "property": "C06",
   "status": "proved",
   "theorems": [
    "C06_order_strict_weak",
    "C06_order_meaning",
    "C06_no_ub",
    "C06_strict_weak_refuted",
    "C06_total_refuted"
   ],
   "note": "Holds when no id occurs together with its negative; without that condition refuted (C06_strict_weak_refuted, C06_total_refuted)."
  },
  {
   "property": "C07",
   "status": "proved",
   "theorems": [
    "C07_way_area",
    "C07_relation_area",
    "C07_way_area_exists",
    "C07_relation_area_exists",
    "C07_unique",
    "C07_relation_zero_refuted"
   ],
   "note": "Holds for all non-zero ids; relation id 0 refuted (C07_relation_zero_refuted)."
  },
  {
   "property": "C08",
   "status": "proved",
   "theorems": [
    "C08_tags_since_clear",
    "C08_tags_no_clear",
    "C08_lookup_first",
    "C08_lookup_missing"
   ],
   "note": ""
  },
  {
   "property": "C09",
   "status": "proved",
   "theorems": [
    "C09_id_text",
    "C09_version_text",
    "C09_changeset_text",
    "C09_uid_text",
    "C09_timestamp_text",
    "C09_timestamp_rejected",
    "C09_user_text",
    "C09_visible_text",
    "C09_frame",
    "C09_timestamp_strict_refuted",
    "C09_user_255_characters_refuted",
    "C09_overflow_rejected_refuted"
   ],
   "note": "Refuted side claims: the 255 character limit of user names, rejection of out of range numbers and of text after a timestamp."
  },
  {
   "property": "C10",
   "status": "proved",
   "theorems": [
    "C10_delta_lossless",
    "C10_unsigned_always_defined",
    "C10_signed_defined_iff",
    "C10_signed_defined_for_62_bit_values",
    "C10_wrapping_differences_refuted"
   ],
   "note": "Lossless whenever defined; int64 differences that overflow are UB (C10_wrapping_differences_refuted), so the wrapping clause only holds for the unsigned instantiation."
  },
  {
   "property": "C11",
   "status": "proved",
   "theorems": [
    "C11_string_table",
    "C11_too_many_strings_refuted",
    "C11_use_count_order_refuted",
    "C11_clear_is_new",
    "C11_order_exists"
   ],
   "note": "For at most 65535 different strings per table (and 65536 uses for the order); beyond that refuted. The order of strings with equal count is arbitrary (any order meeting by_count_desc)."
  },
  {
   "property": "C12",
   "status": "proved",
   "theorems": [
    "C12_to_iso_date",
    "C12_parse_iso",
    "C12_round_trip",
    "C12_order",
    "C12_zero",
    "C12_year_10000_refuted",
    "C12_defined"
   ],
   "note": "glibc gmtime/timegm/strptime/strftime modelled; the calendar is specified by counting days."
  },
  {
   "property": "C13",
   "status": "proved",
   "theorems": [
    "C13_key_filter",
    "C13_key_value_filter",
    "C13_regex_filter"
   ],
   "note": "Regex engine is abstract."
  },
  {
   "property": "C14",
   "status": "proved",
   "theorems": [
    "C14_filter_and_accumulate"
   ],
   "note": ""
  },
  {
   "property": "C15",
   "status": "proved",
   "theorems": [
    "C15_hstore_parses_back",
    "C15_hstore_injective",
    "C15_hstore_of_filtered_tags",
    "C15_nul",
    "C15_nul_refuted",
    "C15_key_equals_value_refuted"
   ],
   "note": "For all NUL-free byte strings; key=value text shown ambiguous."
  },
  {
   "property": "C16",
   "status": "proved",
   "theorems": [
    "C16_no_memory",
    "C16_fixed_array",
    "C16_mmap_anon",
    "C16_mmap_file",
    "C16_sparse_table",
    "C16_fixed_array_unset_refuted",
    "C16_mmap_default_refuted",
    "C16_set_after_clear_refuted",
    "C16_huge_id_refuted"
   ],
   "note": "Last value proved for all four stores. Refuted clauses: unset FixedArray cells, default value of never set mmap cells (zero bytes are not TValue()), use after clear(), ids near 2^64."
  },
  {
   "property": "C17",
   "status": "proved",
   "theorems": [
    "C17_found_after_reopen_and_growth",
    "C17_read_after_reopen_refuted"
   ],
   "note": "Values persist in the file for all histories; reading directly after reopening is outside the mapping (C17_read_after_reopen_refuted), reading after growth is proved."
  },
  {
   "property": "C18",
   "status": "proved",
   "theorems": [
    "C18_stl_map",
    "C18_vector",
    "C18_agree",
    "C18_stl_map_clear_refuted",
    "C18_repeated_set_refuted"
   ],
   "note": "Refuted: StlMap::clear, repeated ids in Vector."
  },
  {
   "property": "C19",
   "status": "proved",
   "theorems": [
    "C19_contents",
    "C19_feed_to",
    "C19_feed_stopped",
    "C19_opposite_ids_refuted",
    "C19_min_id_refuted"
   ],
   "note": "For id sets without n and -n of one type; otherwise refuted (C19_opposite_ids_refuted), the smallest id is UB (C19_min_id_refuted)."
  },
  {
   "property": "C20",
   "status": "proved",
   "theorems": [
    "C20_sorted_merge",
    "C20_absent_type_refuted"
   ],
   "note": "For every type present in the stream; stored objects of absent types are lost (C20_absent_type_refuted)."
  },
  {
   "property": "C21",
   "status": "proved",
   "theorems": [
    "C21_protocol",
    "C21_brackets_alternate",
    "C21_no_object_lost",
    "C21_objects_inside_brackets",
    "C21_init_first_final_last",
    "C21_prefix",
    "C21_empty_file_refuted"
   ],
   "note": "For streams with at least one object group; for empty files init is not called (C21_empty_file_refuted)."
  },
  {
   "property": "C22",
   "status": "proved",
   "theorems": [
    "C22_each_sees_all",
    "C22_first_before_second",
    "C22_first_fails",
    "C22_second_fails",
    "C22_forward",
    "C22_stop_refuted"
   ],
   "note": "Also what exceptions do; StopReading from the first handler refutes independence (C22_stop_refuted)."
  },
  {
   "property": "C23",
   "status": "proved",
   "theorems": [
    "C23_forwards_with_end",
    "C23_following_version",
    "C23_last_version"
   ],
   "note": ""
  },
  {
   "property": "C24",
   "status": "proved",
   "theorems": [
    "C24_forwards_selected",
    "C24_selected_is_intersection",
    "C24_instant",
    "C24_at_most_current_refuted"
   ],
   "note": "At the instant of an edit two versions are forwarded (C24_at_most_current_refuted); exact set proved in C24_instant."
  },
  {
   "property": "C25",
   "status": "proved",
   "theorems": [
    "C25_positions",
    "C25_sparse_table_works"
   ],
   "note": "For every pair of stores meeting store_works; the sparse table is proved to meet it."
  },
  {
   "property": "C26",
   "status": "proved",
   "theorems": [
    "C26_reads_nodes_only",
    "C26_smallest_box",
    "C26_undefined_refuted",
    "C26_unsorted_refuted"
   ],
   "note": "For files starting with nodes that all have positions; refuted otherwise (C26_undefined_refuted, C26_unsorted_refuted)."
  },
  {
   "property": "C27",
   "status": "proved",
   "theorems": [
    "C27_kept_objects_unchanged",
    "C27_pbf",
    "C27_xml",
    "C27_lonlat_on_way_refuted"
   ],
   "note": "Reference counts are modelled as the set of held pointers. Refuted for XML lon/lat on ways (C27_lonlat_on_way_refuted)."
  },
  {
   "property": "C28",
   "status": "proved",
   "theorems": [
    "C28_events",
    "C28_exactly_once",
    "C28_no_members_refuted",
    "C28_unknown_member_refuted",
    "C28_repeated_object_refuted",
    "C28_unsorted_refuted"
   ],
   "note": "For files in which each type comes in one run and no object twice. Refuted: relations without kept members, kept members of unknown type, repeated objects (null pointer or premature completion), unsorted files."
  },
  {
   "property": "C29",
   "status": "proved",
   "theorems": [
    "C29_slots"
   ],
   "note": ""
  },
  {
   "property": "C30",
   "status": "proved",
   "theorems": [
    "C30_decisions",
    "C30_selected",
    "C30_empty_way_refuted"
   ],
   "note": "The builder is an arbitrary total function here. Ways without nodes are UB (C30_empty_way_refuted)."
  },
  {
   "property": "C31",
   "status": "proved",
   "theorems": [
    "C31_rings",
    "C31_outcomes"
   ],
   "note": "GEOS (which chains are valid rings) is an arbitrary oracle."
  },
  {
   "property": "C32",
   "status": "proved",
   "theorems": [
    "C32_exhaustive",
    "C32_no_rings",
    "C32_all_closed",
    "C32_order_refuted"
   ],
   "note": "Order independence is refuted (C32_order_refuted)."
  },
  {
   "property": "C33",
   "status": "proved",
   "theorems": [
    "C33_holes",
    "C33_listed",
    "C33_direct",
    "C33_container",
    "C33_exact",
    "C33_exact_refuted"
   ],
   "note": "Exactness without the condition is refuted (C33_exact_refuted)."
  },
  {
   "property": "C34",
   "status": "proved",
   "theorems": [
    "C34_error",
    "C34_repaired",
    "C34_dangling_nodes",
    "C34_closest"
   ],
   "note": ""
  },
  {
   "property": "C35",
   "status": "proved",
   "theorems": [
    "C35_ignored",
    "C35_untagged",
    "C35_same_tags",
    "C35_symmetry_refuted",
    "C35_merge",
    "C35_merge_unique"
   ],
   "note": "Symmetry is refuted for empty values (C35_symmetry_refuted)."
  },
  {
   "property": "C36",
   "status": "proved",
   "theorems": [
    "C36_libraries",
    "C36_roundtrip",
    "C36_stored",
    "C36_truncated",
    "C36_sound",
    "C36_truncated_refuted",
    "C36_short_write_refuted"
   ],
   "note": "Protobuf and zlib are oracles meeting codec_ok (met by the protobuf wire format, C36_libraries). Refuted: truncation inside the four length bytes is silent (C36_truncated_refuted), a short ::write is silent (C36_short_write_refuted)."
  },
  {
   "property": "C37",
   "status": "proved",
   "theorems": [
    "C37_roundtrip",
    "C37_order",
    "C37_written",
    "C37_order_refuted"
   ],
   "note": "Under the codec contract, if every blob is within the limits of the format and 8000 objects in a row use at most 65535 texts. Order across types is refuted (C37_order_refuted)."
  },
  {
   "property": "C38",
   "status": "proved",
   "theorems": [
    "C38_dense"
   ],
   "note": "Same conditions as C37."
  },
  {
   "property": "C39",
   "status": "proved",
   "theorems": [
    "C39_blocks",
    "C39_final",
    "C39_mixed_refuted",
    "C39_refused_relation_refuted"
   ],
   "note": "Blocks may mix types (C39_mixed_refuted); a relation refused because of an unknown member type stays in the block (C39_refused_relation_refuted)."
  },
  {
   "property": "C40",
   "status": "proved",
   "theorems": [
    "C40_header",
    "C40_features",
    "C40_rejected",
    "C40_accepted",
    "C40_bounds_refuted"
   ],
   "note": "Bounds may shrink by one unit (C40_bounds_refuted)."
  },
  {
   "property": "C41",
   "status": "proved",
   "theorems": [
    "C41_granularity",
    "C41_coordinate_refuted",
    "C41_time_refuted",
    "C41_fraction_refuted",
    "C41_undefined_refuted"
   ],
   "note": "For times up to the year 4147. The documented precision is refuted for granularities that are no multiple of 100 resp. 1000 and for undefined positions (C41_*_refuted)."
  },
  {
   "property": "C42",
   "status": "proved",
   "theorems": [
    "C42_failed",
    "C42_member_types",
    "C42_libraries",
    "C42_document",
    "C42_roundtrip",
    "C42_bytes",
    "C42_errors",
    "C42_flush_refuted",
    "C42_all_attributes_refuted",
    "C42_year_10000_refuted",
    "C42_control_characters_refuted"
   ],
   "note": "proved for every writer/parser pair meeting xml_libraries, and for a concrete one at byte level; findings: errors of the final flush are lost, uid <= 0 and visibility in plain files are not kept, years above 9999 and control characters give unreadable files"
  },
  {
   "property": "C43",
   "status": "proved",
   "theorems": [
    "C43_sections",
    "C43_visibility"
   ],
   "note": "sections as a tree of elements; visibility read back"
  },
  {
   "property": "C44",
   "status": "proved",
   "theorems": [
    "C44_objects",
    "C44_callbacks",
    "C44_errors",
    "C44_version",
    "C44_nested_refuted",
    "C44_unknown_refuted",
    "C44_root_in_root_refuted",
    "C44_no_number"
   ],
   "note": "findings: nested elements in children of objects and a root inside of the root fail an assertion; unknown elements are not skipped with their content; any root element is accepted; nested delete sections"
  },
  {
   "property": "C45",
   "status": "proved",
   "theorems": [
    "C45_suffix",
    "C45_no_suffix",
    "C45_stdin_stdout",
    "C45_set_filename",
    "C45_url",
    "C45_default_suffix",
    "C45_default_suffix_refuted",
    "C45_no_suffix_refuted",
    "C45_local_file_refuted",
    "C45_directory_kept_refuted",
    "C45_type_names",
    "C45_enc_names",
    "C45_names_agree"
   ],
   "note": "Proved with the exceptions named as _refuted: osc.pbf, names equal to osm/osh/osc/http/https, dots in directory names."
  },
  {
   "property": "C46",
   "status": "proved",
   "theorems": [
    "C46_open",
    "C46_no_double_close",
    "C46_no_shared_fd",
    "C46_no_shared_child",
    "C46_close_reports",
    "C46_failed_open_unchanged",
    "C46_careful_no_leak",
    "C46_careful_waits",
    "C46_reopen_leak_refuted",
    "C46_assign_leak_refuted",
    "C46_fork_leak_refuted",
    "C46_double_wait_refuted",
    "C46_shared_child_refuted",
    "C46_stdin_closed_twice_refuted"
   ],
   "note": "Double close and sharing proved absent for all programs; leaks, double wait and process id sharing after failed helpers refuted; careful programs proved leak free."
  },
  {
   "property": "C47",
   "status": "proved",
   "theorems": [
    "C47_create",
    "C47_create_last",
    "C47_last_registered_refuted"
   ],
   "note": "The first registration since the last unregistration wins; \"last registered\" refuted in general and proved when nothing is registered twice."
  },
  {
   "property": "C48",
   "status": "proved",
   "theorems": [
    "C48_point",
    "C48_linestring",
    "C48_polygon",
    "C48_hex"
   ],
   "note": "For fewer than 2^32 nodes (the count is a uint32)."
  },
  {
   "property": "C49",
   "status": "proved",
   "theorems": [
    "C49_linestring",
    "C49_closed",
    "C49_shape",
    "C49_polygon_refuted",
    "C49_empty_refuted"
   ],
   "note": "Polygons are not reversed in WKT/WKB/hex (C49_polygon_refuted); empty lists are UB (C49_empty_refuted)."
  },
  {
   "property": "C50",
   "status": "proved",
   "theorems": [
    "C50_line",
    "C50_squeeze",
    "C50_parts",
    "C50_unknown",
    "C50_same_ref_refuted"
   ],
   "note": "For node lists in which equal refs have equal positions; refuted otherwise (C50_same_ref_refuted)."
  },
  {
   "property": "C51",
   "status": "proved",
   "theorems": [
    "C51_truncate",
    "C51_width_1",
    "C51_width_2",
    "C51_fitting",
    "C51_narrow_refuted",
    "C51_zero_refuted"
   ],
   "note": "Width 2 and 0 can be UB (C51_narrow_refuted, C51_zero_refuted)."
  },
  {
   "property": "C52",
   "status": "proved",
   "theorems": [
    "C52_fields",
    "C52_length",
    "C52_files",
    "C52_first",
    "C52_big_shape_refuted",
    "C52_overflow_refuted",
    "C52_failed_open_refuted",
    "C52_late_fields_refuted"
   ],
   "note": "shapelib calls are oracles (open, add field, write may fail). Refuted without the conditions: C52_big_shape_refuted, C52_overflow_refuted, C52_failed_open_refuted, C52_late_fields_refuted."
  },
  {
   "property": "C53",
   "status": "proved",
   "theorems": [
    "C53_great_circle",
    "C53_metric",
    "C53_way_sum",
    "C53_way_split",
    "C53_way_reverse",
    "C53_way_ends",
    "C53_constants",
    "C53_double_symmetric",
    "C53_double_zero",
    "C53_double_append",
    "C53_double_close",
    "C53_double_near",
    "C53_double_way",
    "C53_double_nan_refuted"
   ],
   "note": "Real-number model for the metric laws; double model (Flocq, libm as oracle) for symmetry and zero, and for the rounding error, which is bounded for every libm accurate to one unit in the last place. Finding: the argument of asin is not clamped (C53_double_nan_refuted)."
  },
  {
   "property": "C54",
   "status": "proved",
   "theorems": [
    "C54_stop_is_clean",
    "C54_other_exceptions_propagate",
    "C54_read_errors_propagate"
   ],
   "note": ""
  },
  {
   "property": "C55",
   "status": "proved",
   "theorems": [
    "C55_closed_ends",
    "C55_closed_single",
    "C55_empty_is_ub",
    "C55_has_position_uniform",
    "C55_has_position_refuted"
   ],
   "note": "is_closed proved, empty list is UB, has_position refuted for partially located lists (C55_has_position_refuted)."
  },
  {
   "property": "C56",
   "status": "proved",
   "theorems": [
    "C56_members_stored_in_order",
    "C56_long_role_rejected",
    "C56_role_limit",
    "C56_unchanged_on_failure_refuted",
    "C56_get_member"
   ],
   "note": "Storing and rejection proved; \"unchanged on failure\" is false of the code: C56_unchanged_on_failure_refuted."
  },
  {
   "property": "C57",
   "status": "proved",
   "theorems": [
    "C57_build",
    "C57_no_rings",
    "C57_success",
    "C57_own_areas",
    "C57_failed_build_refuted",
    "C57_area"
   ],
   "note": "A failed build may return areas of inner ways (C57_failed_build_refuted)."
  },
  {
   "property": "C58",
   "status": "proved",
   "theorems": [
    "C58_defined",
    "C58_bad_index_refuted",
    "C58_bad_dense_refuted"
   ],
   "note": "Refuted for blocks that are not well-formed (C58_bad_index_refuted, C58_bad_dense_refuted)."
  },
  {
   "property": "C59",
   "status": "proved",
   "theorems": [
    "C59_number",
    "C59_exact",
    "C59_read",
    "C59_injective",
    "C59_undefined_refuted"
   ],
   "note": "Stream in default notation (no std::fixed). Finding: undefined positions are written as 214.7483647."
  },
  {
   "property": "C60",
   "status": "proved",
   "theorems": [
    "C60_to_js",
    "C60_to_js_total",
    "C60_from_js",
    "C60_from_js_total",
    "C60_roundtrip",
    "C60_print",
    "C60_print_total",
    "C60_injective",
    "C60_tags",
    "C60_user_role",
    "C60_maximum_refuted",
    "C60_long_key_refuted",
    "C60_unusable_key_refuted",
    "C60_nul_refuted"
   ],
   "note": "ICU conversion modelled by its documentation: only well-formed text converts. Findings in C60_*_refuted."
  },
  {
   "property": "C61",
   "status": "proved",
   "theorems": [
    "C61_arrays",
    "C61_multipolygon",
    "C61_node",
    "C61_way",
    "C61_polygon",
    "C61_wkt",
    "C61_hex",
    "C61_id",
    "C61_length",
    "C61_version_uid",
    "C61_timestamp",
    "C61_nodes",
    "C61_members",
    "C61_enumeration",
    "C61_wkb",
    "C61_wkb_refuted",
    "C61_empty_refuted",
    "C61_id_refuted",
    "C61_version_refuted",
    "C61_unknown_refuted"
   ],
   "note": "v8 objects are values; garbage collection left out. Findings in C61_*_refuted."
  },
  {
   "property": "C62",
   "status": "proved",
   "theorems": [
    "C62_text",
    "C62_text_total",
    "C62_logical",
    "C62_add",
    "C62_order",
    "C62_table",
    "C62_text_refuted",
    "C62_logical_overflow",
    "C62_logical_refuted",
    "C62_illegal_refuted",
    "C62_double_refuted",
    "C62_table_refuted"
   ],
   "note": "ToString()/Int32Value() of attribute values are given with the value. Findings in C62_*_refuted."
  },
  {
   "property": "C63",
   "status": "proved",
   "theorems": [
    "C63_values",
    "C63_ownership",
    "C63_no_leak",
    "C63_copy_refuted",
    "C63_relation_refuted",
    "C63_leak_refuted"
   ],
   "note": "GEOS checks of rings are a parameter; memory lost inside GEOS on exceptions is left out. Findings in C63_*_refuted."
  },
  {
   "property": "C64",
   "status": "proved",
   "theorems": [
    "C64_geos_line",
    "C64_geos_polygon",
    "C64_ogr",
    "C64_ogr_multipolygon"
   ],
   "note": "GEOS and OGR checks are parameters."
  },
  {
   "property": "C65",
   "status": "proved",
   "theorems": [
    "C65_options",
    "C65_include",
    "C65_reads",
    "C65_defined",
    "C65_two_passes_refuted",
    "C65_home_refuted",
    "C65_debug_refuted"
   ],
   "note": "getopt_long itself is not modelled: the options come parsed. Findings: C65_two_passes_refuted, C65_home_refuted, C65_debug_refuted."
  },
  {
   "property": "C66",
   "status": "proved",
   "theorems": [
    "C66_load",
    "C66_plain",
    "C66_located",
    "C66_areas",
    "C66_first_pass",
    "C66_exception_refuted",
    "C66_kept_refuted"
   ],
   "note": "v8 is a parameter of the theorems. Findings: C66_exception_refuted, C66_kept_refuted."
  },
  {
   "property": "C67",
   "status": "proved",
   "theorems": [
    "C67_complete_pbf",
    "C67_complete_xml",
    "C67_to_xml",
    "C67_to_pbf",
    "C67_to_xml_succeeds",
    "C67_to_pbf_succeeds",
    "C67_ordinary_pbf",
    "C67_there_and_back",
    "C67_empty_refuted",
    "C67_close_refuted"
   ],
   "note": "The conditions on the objects are those of the writers (C37, C42). Findings: C67_empty_refuted, C67_close_refuted."
  },
  {
   "property": "C68",
   "status": "proved",
   "theorems": [
    "C68_dump_read",
    "C68_unambiguous",
    "C68_same_dump",
    "C68_forged_refuted",
    "C68_bar_refuted",
    "C68_bounds_refuted"
   ],
   "note": "Conditions on texts as in showable of Spec/DebugSpec.v. Findings: C68_forged_refuted, C68_bar_refuted, C68_bounds_refuted."
  },
  {
   "property": "C69",
   "status": "proved",
   "theorems": [
    "C69_display",
    "C69_number_of_updates",
    "C69_defined",
    "C69_speed",
    "C69_no_terminal",
    "C69_zero_step_refuted",
    "C69_same_microsecond_refuted",
    "C69_average_refuted",
    "C69_cursor_refuted",
    "C69_unsorted_refuted"
   ],
   "note": "float is IEEE binary32 with one rounding for every operation. Findings: C69_zero_step_refuted, C69_same_microsecond_refuted, C69_average_refuted, C69_cursor_refuted, C69_unsorted_refuted."
  },
  {
   "property": "C70",
   "status": "proved",
   "theorems": [
    "C70_rows",
    "C70_files",
    "C70_failing",
    "C70_completes",
    "C70_stopped",
    "C70_ids",
    "C70_missing_last_node_refuted",
    "C70_empty_way_refuted",
    "C70_missing_node_refuted",
    "C70_ids_refuted"
   ],
   "note": "Shapelib is an oracle that may fail at every call; the rows are what was given to it. Files: under the condition that all files can be created and no way has more than 134217718 nodes. Findings: C70_missing_last_node_refuted, C70_empty_way_refuted, C70_missing_node_refuted, C70_ids_refuted."
  },
  {
   "property": "C71",
   "status": "proved",
   "theorems": [
    "C71_image",
    "C71_no_nodes",
    "C71_border_refuted",
    "C71_small_refuted",
    "C71_unused_refuted",
    "C71_undefined_refuted",
    "C71_limits_refuted"
   ],
   "note": "For limits with MIN < MAX <= MIN + 8421504. gd draws what it is told. Findings: C71_border_refuted, C71_small_refuted, C71_unused_refuted, C71_undefined_refuted, C71_limits_refuted."
  },
  {
   "property": "C72",
   "status": "proved",
   "theorems": [
    "C72_toogr",
    "C72_postgis",
    "C72_postgis_all_or_nothing",
    "C72_empty_way_refuted",
    "C72_missing_node_refuted",
    "C72_undefined_refuted",
    "C72_partial_table_refuted"
   ],
   "note": "Creation of the layers and the commit are assumed to succeed. What OGR does with a feature is outside the model. Findings: C72_empty_way_refuted, C72_missing_node_refuted, C72_undefined_refuted, C72_partial_table_refuted."
  },
  {
   "property": "C73",
   "status": "proved",
   "theorems": [
    "C73_failed",
    "C73_report",
    "C73_empty_relation_refuted",
    "C73_missing_type_refuted",
    "C73_unsorted_refuted"
   ],
   "note": "The output of the second pass; memory statistics are left out. std::sort is any sort by id. Findings: C73_empty_relation_refuted, C73_missing_type_refuted, C73_unsorted_refuted."
  },
  {
   "property": "C74",
   "status": "proved",
   "theorems": [
    "C74_mpdump",
    "C74_toogr2",
    "C74_illegal_refuted",
    "C74_incomplete_refuted",
    "C74_same_id_refuted"
   ],
   "note": "The geometry of an area (GEOS, OGR) and the multipolygon builder are arbitrary functions; the builder is assumed to return. The library is built without OSMIUM_WITH_DEBUG. Findings: C74_illegal_refuted, C74_incomplete_refuted, C74_same_id_refuted."
  },
  {
   "property": "C75",
   "status": "proved",
   "theorems": [
    "C75_to_xml",
    "C75_to_pbf",
    "C75_instant",
    "C75_to_xml_succeeds",
    "C75_to_pbf_succeeds",
    "C75_deleted_refuted",
    "C75_two_versions_refuted"
   ],
   "note": "The conditions on the objects are those of the writers (C37, C42). Findings: C75_deleted_refuted, C75_two_versions_refuted."
  },
  {
   "property": "C76",
   "status": "proved",
   "theorems": [
    "C76_applied",
    "C76_failed",
    "C76_dropped_refuted",
    "C76_deleted_refuted"
   ],
   "note": "Within each type no id together with its negative, which the order of the code cannot tell apart (C06). Findings: C76_dropped_refuted, C76_deleted_refuted."
  },
  {
   "property": "C77",
   "status": "proved",
   "theorems": [
    "C77_counts",
    "C77_failed",
    "C77_bbox",
    "C77_outside_refuted",
    "C77_no_nodes_refuted"
   ],
   "note": "The elapsed time is a parameter; without REPORT_USER_AND_SYSTEM_TIME. Findings: C77_outside_refuted, C77_no_nodes_refuted."
  },
  {
   "property": "C78",
   "status": "proved",
   "theorems": [
    "C78_complete",
    "C78_untouched",
    "C78_no_output",
    "C78_no_input",
    "C78_to_xml",
    "C78_to_pbf",
    "C78_stdout_xml",
    "C78_stdout_pbf",
    "C78_xml_succeeds",
    "C78_pbf_succeeds",
    "C78_ordinary_pbf",
    "C78_stdin",
    "C78_bounds_xml",
    "C78_bounds_pbf",
    "C78_in_place_refuted",
    "C78_format_refuted",
    "C78_gz_stdin_refuted",
    "C78_gz_stdout_refuted",
    "C78_late_bounds_refuted",
    "C78_helper_status_refuted"
   ],
   "note": "Files are byte texts under names, without links, directories and other writers. C78_xml_succeeds is for the simple XML writer of Spec/XmlText.v. Findings: C78_in_place_refuted, C78_format_refuted, C78_gz_stdin_refuted, C78_gz_stdout_refuted, C78_late_bounds_refuted, C78_helper_status_refuted."
  },
  {
   "property": "C79",
   "status": "proved",
   "theorems": [
    "C79_read_back",
    "C79_moderate",
    "C79_too_much",
    "C79_always_refuted"
   ],
   "note": "The condition that blobs are small, which C37 and C38 leave to the caller, is proved here from the objects. Needs the protobuf wire format and the compressBound of zlib (wire_format), which the example codec has. Finding: C79_always_refuted."
  },
  {
   "property": "C80",
   "status": "proved",
   "theorems": [
    "C80_dump",
    "C80_ends",
    "C80_failed",
    "C80_same",
    "C80_ends_failed_refuted"
   ],
   "note": "The objects have to be showable as in C68. Finding: C80_ends_failed_refuted."
  },
  {
   "property": "C81",
   "status": "proved",
   "theorems": [
    "C81_config",
    "C81_match",
    "C81_rows",
    "C81_output_refuted",
    "C81_no_output_refuted",
    "C81_id_refuted",
    "C81_star_refuted",
    "C81_index_refuted"
   ],
   "note": "Configurations are chains of the calls the framework offers; the shapelib calls succeed. The values have to be usable for the columns as in C62. Findings: C81_output_refuted, C81_no_output_refuted, C81_id_refuted, C81_star_refuted, C81_index_refuted."
  },
  {
   "property": "C82",
   "status": "proved",
   "theorems": [
    "C82_count",
    "C82_table",
    "C82_inherited_refuted",
    "C82_undefined_refuted"
   ],
   "note": "Texts are as short as the wrappers of osmjs allow (512 characters). Keys of counted tags are no numbers, since the order of a loop over such keys depends on the version of v8. Findings: C82_inherited_refuted, C82_undefined_refuted."
  },
  {
   "property": "C83",
   "status": "proved",
   "theorems": [
    "C83_shape_export",
    "C83_area",
    "C83_speed",
    "C83_inherited_refuted",
    "C83_id_refuted"
   ],
   "note": "The shapelib calls succeed. Objects have no key twice, no keys or values from Object.prototype, and no character outside of the BMP just at the 256th unit (see C62). Findings: C83_inherited_refuted, C83_id_refuted."
  },
  {
   "property": "C84",
   "status": "proved",
   "theorems": [
    "C84_time",
    "C84_time_run",
    "C84_test",
    "C84_test_file",
    "C84_located",
    "C84_areas"
   ],
   "note": "The lines printed are kept as a list; print itself is outside of the model. The theorems about the whole program are for one pass with and without location store, and for two passes for callback_test.js."
  }
 ]
}
