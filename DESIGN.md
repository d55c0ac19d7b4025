# A Rocq (Coq 8.16) model of joto/osmium

Layout: `rocq/theories/`

* `Base/`  : small library lemmas (integers, lists, strings). No osmium content.
* `Model/` : the model. Every definition cites the file and lines of /repo it models.
* `Spec/`  : small, independent specifications the theorems are stated against.
* `Proofs/`: lemmas and proofs.
* `Props/` : the property theorems (each closed by `exact`), `Print Assumptions`, and `Example`s that
  show the hypotheses are satisfiable.

Conventions of the model

* C++ integers are `Z`; wherever the width matters the wrap (`mod 2^k`) is written out.
* `double` is Flocq's computable `binary64`; the C library functions `round`, casts, `printf("%.7f")` and
  `atof` are modelled by their IEEE / C99 meaning (correct rounding).
* C/C++ undefined behaviour and failed `assert`s are separate outcomes (`UB`, `AssertFail`), exceptions are
  outcomes as well (`Throw ...`). No theorem totalises them away.
* Strings are Coq `string`s (bytes).
* External libraries (libxml2/expat, protobuf, zlib, GEOS, shapelib, libc I/O) are not modelled below their
  API: protobuf messages and XML element events are data types, GEOS predicates are oracles
  (Section variables that become universally quantified arguments of the theorems), system calls return
  results chosen by an oracle. Where a theorem assumes something of a library (`codec_ok` for protobuf and
  zlib, the `lib` laws for expat and libxml2) there is an instance which meets the assumptions:
  `Spec/Protobuf.v` (the wire format of the OSM PBF messages, written from the format's description),
  `Spec/XmlText.v` (an XML printer and parser).
* Objects are values; sharing through `shared_ptr` is modelled only where a property depends on it (C27, C63, C66).

## Plan per property

* **C01** Model `double_to_fix`/`fix_to_double` over binary64; error analysis with Flocq (relative error of two roundings < 1/2 unit).
* **C02** Same model; bound the rounding error of the product and the half-away rounding; monotone because each step is monotone.
* **C03** Records over Z; case analysis.
* **C04** `extend` as a fold; spec: min/max characterisation; induction; permutation invariance. Undefined positions: expected refutation.
* **C05** Case analysis over the lexicographic order.
* **C06** Order laws under 'no id together with its negative'; refutation witness for the general claim.
* **C07** Arithmetic on `2*id+sgn(id)` with C division; refutation for relation id 0.
* **C08** Operation lists; refinement to the list of tags since the last clear; first-match spec as an `exists split`.
* **C09** Model of `atoll`/`atol` on decimal texts, `set_attribute` as a step with exception outcome.
* **C10** Fold with int64 wrap; induction.
* **C11** Assoc-list model with uint16 wraps; invariant over record operations; sort by count abstract over tie order; refutation past 65535 strings.
* **C12** `gmtime`/`timegm` modelled by the civil-calendar algorithms, `strftime`/`strptime` on the fixed format; round trip proved with a day-by-day calendar specification.
* **C13** List search; spec by list decomposition.
* **C14** Fold over filter.
* **C15** Escaping automaton and an independent hstore parser; parse(print)=id by induction.
* **C16** Array model (size + contents) with growth; refinement to a function id -> value; accesses outside the array are UB outcomes.
* **C17** File contents as the persistent state; reopen operations in the operation list; refinement.
* **C18** Assoc list / sorted vector with binary search; refinement.
* **C19** Sorted-set insertion model; sortedness, uniqueness, first-wins.
* **C20** Merge step model; refinement to sorted merge; refutation for types absent from the stream.
* **C21** Trace model of `call_after_and_before_on_handler`; regular-grammar spec of traces; refutation for empty input.
* **C22** Handlers as state machines; product simulation.
* **C23** One-object delay model; spec by looking at the next element of the stream.
* **C24** Filter model, composition with C23.
* **C25** Fold over stream with abstract store refined by C16/C18.
* **C26** Fold + C04, stop after nodes.
* **C27** Heap with reference counts; invariant: cells referenced by a handler are never written; refutation for the XML reader's lon/lat.
* **C28** Pass 1 / pass 2 as folds; invariant relating need counters to outstanding members; refutations for corner cases (no wanted member, unknown type, repeated object).
* **C29** Same invariant, member slots.
* **C30** Decision functions against declarative spec.
* **C31** Backtracking search with fuel = number of unused ways; invariant of the partial chain; GEOS validity is an oracle.
* **C32** Expected refutation (first failing way stops the loop) plus what does hold.
* **C33** Containment as an abstract strict order with the forest property; parity and direct-parent theorem; the in-place thinning is expected to fail for deep nestings: refutation, plus theorem for the depth at which it holds.
* **C34** Sorted-list scan; parity counting.
* **C35** Assoc-map model of std::map; spec on tag lists.
* **C36** 4-byte big-endian prefix and message parser; round trip and truncation by induction on the blob list.
* **C37** Writer and reader as functions between objects and protobuf message records; composition is the identity; block splitting by induction.
* **C38** Corollary of C37 for both node encodings.
* **C39** Invariant of the writer state.
* **C40** Header message model; feature check by induction on the feature list; bounding box computed in binary64 (refutation of exactness expected).
* **C41** binary64 and integer models of the conversions; refutation for date granularities below 1000.
* **C42** Writer to element events, reader on element events; composition is the identity under the stated conditions; refutations outside.
* **C43** State machine of the op tags; bracket invariant; reader composition.
* **C44** Reader state machine over event trees.
* **C45** String functions over file names; finite type/encoding sets; refutation for change+PBF.
* **C46** Model of fd/child ownership with an oracle for system calls; invariant over operation lists.
* **C47** Map model; last-registration spec.
* **C48** Byte level writer and an independent decoder.
* **C49** Same model, reversed lists; refutation for polygons in WKB/WKT.
* **C50** Dedup fold; spec by 'destutter' characterisation.
* **C51** Byte model of the truncation; independent UTF-8 segmentation spec; UB for width < 3 as separate outcome.
* **C52** State machine with uint32 counters; invariant under a per-shape size bound; refutation beyond.
* **C53** Over the real numbers (idealised libm); list lemmas for way length. The rounding error of the double version is bounded step by step (relative error under the root, a Hölder bound of asin near one), with pi bounded to 25 digits by the series of the standard library.
* **C54** Trace model with a stopping oracle.
* **C55** Outcome-typed functions; has_position refutation for partially located lists.
* **C56** Operation lists with exception outcomes; refutation of 'unchanged on failure'.
* **C57** Composition of ring search, nesting and the result lists of the builder; totality of `build` for every answer of GEOS; the loop over outer rings computes `shape` and `area_tags` of Spec/BuilderSpec.v (the written-back polygons of one outer ring do not touch those of another as holes are disjoint).
* **C58** Reader functions over arbitrary messages, undefined accesses as outcomes; defined for well-formed blocks and for any sequence of bytes.
* **C59** `%.10g` of stored coordinates printed and read back; the text names the exact coordinate.
* **C60** UTF-8/UTF-16 coding and ICU's return codes; independent decoder on code points.
* **C61** Wrapper getters as functions to Javascript values; compared with the objects.
* **C62** CSV and shapefile writers driven by Javascript values; independent readers of the result.
* **C63** Heap of geometries with owners; invariant over lists of operations on areas.
* **C64** Conversion loops against the list of positions.
* **C65** The option loop against a declarative meaning of the options; the ways to undefined behaviour enumerated.
* **C66** The script engine as a parameter; the calls it gets are the protocol (C21) with the positions of C25 and the areas of C30.
* **C67** The writers as handlers driven by the readers; composition of C36-C38 and C42-C44.
* **C68** An independent line reader of the dump; the dump of every showable file is read back.
* **C69** An invariant over the callbacks relates counts, first readings of the clock and the text printed so far; the float expression is compared with the exact quotient.
* **C70** The callbacks of the program as a fold over the objects (C21), located by C25; an invariant relates the rows, the shapes of all files and the counters of C52.
* **C71** Error analysis of the pixel computation; an invariant relates the counters and the nodes seen.
* **C72** The callbacks of toogr as a fold over the objects (C21), located by C25; for to_postgis an invariant over the trace of callbacks (what is pending, what is committed), and C15 for the texts.
* **C73** The invariant of C28 (what the assembler has stored after a prefix of the callbacks) along the text written so far; at the end the relations left after the clean-up are those with a missing member.
* **C74** From what the assembler does at each callback (C30), by induction over the callbacks: the completed relations so far, without repetition, and the areas of the ways so far; permuted into the order of the file at the end. The handler of the program stops at the first area it cannot write.
* **C75** The two handlers on top of each other: by induction over the objects of a run, what comes out is the selected versions so far and the one that waits for its successor. For the writers the program is the conversion (C67) of the selected versions. For sorted histories the end of a version is the beginning of its next version, so that living at an instant is being current.
* **C76** The store (C19) holds the first of each id and version, and the merge (C20) gives every run; the dump of the merged calls is read back as in C68.
* **C77** Counters by induction over the objects modulo 2^64; the box is C26, its text as in C68.
* **C78** The writer and the progress display run side by side: without a terminal the display changes nothing, with one it can only stop the run. So a run is the conversion (C67) of what is read, placed into the files. What the reader knows at the first group is followed through the callbacks, and for documents by induction over the tree.
* **C79** Sizes of the messages in the wire format bounded field by field, from the relation between objects and messages that the block invariant gives; the texts of a block are different, so their bytes are at most those of the objects. Lower bound from the string table for the finding.
* **C80** The dump of C68 behind the reader, and behind the end time handler (C21) for the second variant; on an error the calls made are those of C16 for an unfinished reading.
* **C81** Configurations as data; the accepted ones by an invariant over the statements, the rows by one over the objects; the specification only has characters and tags, the Javascript strings and the shapefile states are related to it.
* **C82** count.js and osm2csv.js: the counters as association lists of Javascript
  strings; invariant: the counters are the tally of the tags seen so far, whatever
  they are. The tab between key and value separates them, so no two tags share a
  counter. Findings about inherited names and missing values.
* **C83** shape_export.js and area.js: one theorem for scripts that open fixed files
  and add rows to them, used for both; the regular expression for speed limits
  against a declarative description of the texts it is for.
* **C84** time.js and callback_test.js as instances of the script parameter of
  Model/Osmjs.v: invariant over the callbacks so far, then C66 for the program.

## What is modelled

| code | model | remarks |
|---|---|---|
| osm/*.hpp (position, bounds, segment, tag, tag_list, object, node, way, way_node(_list), relation(_member(_list)), meta) | Osm, Attr, Float | objects are values |
| osm/area.hpp, geometry/multipolygon.hpp, geometry/geos.hpp, ogr.hpp, ogr_multipolygon.hpp | Area | heap of geometries; GEOS/OGR checks are parameters |
| geometry.hpp, geometry/{point,linestring,polygon,from_way,shplib,null}.hpp | Geom, Wkt | little endian; default notation flags of the stream |
| geometry/haversine.hpp | Haversine | doubles with libm as oracle, and real numbers |
| utils/{delta,stringtable,timestamp,filter_and_accumulate}.hpp | Utils, Time, Tags | C library functions by their ISO C/POSIX meaning |
| tags/*.hpp | Tags | regular expressions are a predicate |
| storage/byid/*.hpp, storage/objectstore.hpp | Store, Handler | page rounding of mappings ignored |
| handler.hpp, input.hpp, handler/{endtime,range_from_history,coordinates_for_ways,find_bbox}.hpp | Handler, Reuse | |
| handler/debug.hpp | Debug | numbers as the C++ stream prints them |
| handler/progress.hpp | Progress | gettimeofday is an arbitrary sequence of readings; float is binary32, rounded after every operation |
| osmfile.hpp, output.hpp | OsmFile | system calls answer from an oracle |
| input/pbf.hpp, output/pbf.hpp | Pbf | protobuf and zlib as `codec` |
| input/xml.hpp, output/xml.hpp | Xml, Decfloat | expat and libxml2 as `lib` |
| relations/*.hpp, multipolygon/assembler.hpp | Assembler | counters are unbounded |
| multipolygon/builder.hpp | Builder | GEOS as oracle |
| export/{shapefile,csv}.hpp | Shapefile, Js | shapelib as oracle |
| javascript/unicode.hpp, javascript/wrapper/*.hpp | Unicode, Js | v8 and ICU by their documentation; garbage collection left out |
| osmium.hpp (Input::read with an output file as handler, as in examples/osmium_convert.cpp) | Convert | |
| examples/osmium_convert.cpp | ConvertMain | options come parsed; files are byte texts under names; helpers are functions of their input |
| examples/osmium_range_from_history.cpp, osmium_store_and_debug.cpp, osmium_time.cpp, osmium_find_bbox.cpp, osmium_debug.cpp | Programs | times are parameters |
| examples/osmium_relation_members.cpp | Members | memory statistics left out |
| examples/osmium_mpdump.cpp, osmium_toogr2.cpp | Areas | without OSMIUM_WITH_DEBUG; geometries are oracles |
| examples/osmium_toogr.cpp, osmium_to_postgis.cpp | Ogr | OGR is an oracle, creating the layers and committing succeed |
| examples/nodedensity.cpp | Density | gd draws what it is told |
| examples/osmium_toshape.cpp | Toshape | rows as given to shapelib, which may fail at every call |
| osmjs/osmjs.cpp, javascript/handler.hpp | Osmjs | v8 as parameter, options come parsed |
| osmjs/js/osm2shape.js (with scripts like config.js) | Osm2shape | scripts are chains of the offered calls; names that are numbers or `__proto__` and messages left out |
| osmjs/js/count.js, osm2csv.js | Scripts | messages left out; keys counted are different and no numbers |
| osmjs/js/shape_export.js, area.js | Export | messages left out; regular expression as function; inherited properties of Javascript objects as parameter |
| osmjs/js/time.js, callback_test.js | Timing | printed lines as a list |

Simplifications are stated in the comment at the head of each model file and at the definitions.

Not modelled: messages on stdout and stderr other than the dump and the progress display;
osm/tag_ostream.hpp; the accessor tables of javascript/template.hpp; examples/osmium_sizeof.cpp;
the insides of GEOS, OGR, shapelib, zlib, protobuf, expat, libxml2, v8, ICU; what helper processes (curl, zcat,
bzip2, ...) do; exhaustion of memory; threads (the code has none).

## Trusted base

* Coq 8.16.1 kernel (and its `vm_compute`).
* Flocq's definitions of binary64 arithmetic (definitions only, it adds no axioms).
* The axioms of the standard library below, which come with its real numbers. No other axioms.
* The reading of the C++ code, cited per definition, and the reading of the C, POSIX and library documentation for what the code calls.
* Mutation tests of the theorems: `seeded/LOG.jsonl`.

### What `Print Assumptions` lists

The following theorems mention doubles or real numbers and list

* `ClassicalDedekindReals.sig_forall_dec`
* `ClassicalDedekindReals.sig_not_dec`
* `Classical_Prop.classic`
* `FunctionalExtensionality.functional_extensionality_dep`

* `C01_coordinate_roundtrip`, `C01_position_roundtrip`, `C01_setters_roundtrip`
* `C02_monotone`, `C02_out_of_range_is_ub`, `C02_stored_to_nearest`
* `C37_order`, `C37_order_refuted`, `C37_roundtrip`, `C37_written`
* `C38_dense`
* `C39_blocks`, `C39_mixed_refuted`, `C39_refused_relation_refuted`
* `C40_bounds_refuted`, `C40_features`, `C40_header`
* `C41_coordinate_refuted`, `C41_fraction_refuted`, `C41_granularity`, `C41_time_refuted`, `C41_undefined_refuted`
* `C42_all_attributes_refuted`, `C42_bytes`, `C42_control_characters_refuted`, `C42_document`, `C42_errors`, `C42_failed`, `C42_flush_refuted`, `C42_member_types`, `C42_roundtrip`, `C42_year_10000_refuted`
* `C43_sections`, `C43_visibility`
* `C44_errors`, `C44_nested_refuted`, `C44_no_number`, `C44_objects`, `C44_root_in_root_refuted`, `C44_unknown_refuted`, `C44_version`
* `C48_hex`, `C48_linestring`, `C48_point`, `C48_polygon`
* `C49_linestring`, `C49_polygon_refuted`, `C49_shape`
* `C50_line`, `C50_same_ref_refuted`
* `C53_constants`, `C53_double_append`, `C53_double_close`, `C53_double_nan_refuted`, `C53_double_near`, `C53_double_symmetric`, `C53_double_way`, `C53_double_zero`, `C53_great_circle`, `C53_metric`, `C53_way_ends`, `C53_way_reverse`, `C53_way_split`, `C53_way_sum`
* `C59_exact`, `C59_injective`, `C59_number`, `C59_read`, `C59_undefined_refuted`
* `C61_arrays`, `C61_empty_refuted`, `C61_hex`, `C61_id`, `C61_id_refuted`, `C61_length`, `C61_members`, `C61_node`, `C61_nodes`, `C61_polygon`, `C61_way`, `C61_wkb`, `C61_wkb_refuted`, `C61_wkt`
* `C63_copy_refuted`, `C63_leak_refuted`, `C63_no_leak`, `C63_ownership`, `C63_relation_refuted`, `C63_values`
* `C64_geos_line`, `C64_geos_polygon`, `C64_ogr`, `C64_ogr_multipolygon`
* `C67_close_refuted`, `C67_complete_pbf`, `C67_complete_xml`, `C67_empty_refuted`, `C67_ordinary_pbf`, `C67_there_and_back`, `C67_to_pbf`, `C67_to_pbf_succeeds`, `C67_to_xml`, `C67_to_xml_succeeds`
* `C68_bar_refuted`, `C68_bounds_refuted`, `C68_dump_read`, `C68_forged_refuted`, `C68_same_dump`
* `C69_average_refuted`, `C69_cursor_refuted`, `C69_defined`, `C69_display`, `C69_no_terminal`, `C69_same_microsecond_refuted`, `C69_speed`, `C69_unsorted_refuted`, `C69_zero_step_refuted`
* `C70_completes`, `C70_empty_way_refuted`, `C70_failing`, `C70_files`, `C70_ids`, `C70_ids_refuted`, `C70_missing_last_node_refuted`, `C70_missing_node_refuted`, `C70_rows`, `C70_stopped`
* `C71_border_refuted`, `C71_image`, `C71_limits_refuted`, `C71_no_nodes`, `C71_small_refuted`, `C71_undefined_refuted`
* `C72_empty_way_refuted`, `C72_missing_node_refuted`, `C72_partial_table_refuted`, `C72_postgis`, `C72_postgis_all_or_nothing`, `C72_toogr`, `C72_undefined_refuted`
* `C75_deleted_refuted`, `C75_instant`, `C75_to_pbf`, `C75_to_pbf_succeeds`, `C75_to_xml`, `C75_to_xml_succeeds`, `C75_two_versions_refuted`
* `C76_applied`, `C76_deleted_refuted`, `C76_dropped_refuted`, `C76_failed`
* `C77_bbox`, `C77_counts`, `C77_failed`, `C77_no_nodes_refuted`, `C77_outside_refuted`
* `C78_bounds_pbf`, `C78_bounds_xml`, `C78_complete`, `C78_format_refuted`, `C78_gz_stdin_refuted`, `C78_gz_stdout_refuted`, `C78_helper_status_refuted`, `C78_in_place_refuted`, `C78_late_bounds_refuted`, `C78_no_input`, `C78_no_output`, `C78_ordinary_pbf`, `C78_pbf_succeeds`, `C78_stdin`, `C78_stdout_pbf`, `C78_stdout_xml`, `C78_to_pbf`, `C78_to_xml`, `C78_untouched`, `C78_xml_succeeds`
* `C79_always_refuted`, `C79_read_back`, `C79_too_much`
* `C80_dump`, `C80_ends`, `C80_ends_failed_refuted`, `C80_failed`, `C80_same`

All other theorems in `Props/` are closed under the global context:

* `C03_default_undefined`, `C03_defined_iff`, `C03_equality`, `C03_order_is_lexicographic`, `C03_order_strict_total`
* `C04_bounds_order_independent`, `C04_bounds_stays_undefined`, `C04_bounds_tight`, `C04_undefined_position_ignored_refuted`
* `C05_equality`, `C05_first_not_greater`, `C05_order_strict_total`, `C05_same_endpoints`, `C05_symmetric`
* `C06_no_ub`, `C06_order_meaning`, `C06_order_strict_weak`, `C06_strict_weak_refuted`, `C06_total_refuted`
* `C07_relation_area`, `C07_relation_area_exists`, `C07_relation_zero_refuted`, `C07_unique`, `C07_way_area`, `C07_way_area_exists`
* `C08_lookup_first`, `C08_lookup_missing`, `C08_tags_no_clear`, `C08_tags_since_clear`
* `C09_changeset_text`, `C09_frame`, `C09_id_text`, `C09_overflow_rejected_refuted`, `C09_timestamp_rejected`, `C09_timestamp_strict_refuted`, `C09_timestamp_text`, `C09_uid_text`, `C09_user_255_characters_refuted`, `C09_user_text`, `C09_version_text`, `C09_visible_text`
* `C10_delta_lossless`, `C10_signed_defined_for_62_bit_values`, `C10_signed_defined_iff`, `C10_unsigned_always_defined`, `C10_wrapping_differences_refuted`
* `C11_clear_is_new`, `C11_order_exists`, `C11_string_table`, `C11_too_many_strings_refuted`, `C11_use_count_order_refuted`
* `C12_defined`, `C12_order`, `C12_parse_iso`, `C12_round_trip`, `C12_to_iso_date`, `C12_year_10000_refuted`, `C12_zero`
* `C13_key_filter`, `C13_key_value_filter`, `C13_regex_filter`
* `C14_filter_and_accumulate`
* `C15_hstore_injective`, `C15_hstore_of_filtered_tags`, `C15_hstore_parses_back`, `C15_key_equals_value_refuted`, `C15_nul`, `C15_nul_refuted`
* `C16_fixed_array`, `C16_fixed_array_unset_refuted`, `C16_huge_id_refuted`, `C16_mmap_anon`, `C16_mmap_default_refuted`, `C16_mmap_file`, `C16_no_memory`, `C16_set_after_clear_refuted`, `C16_sparse_table`
* `C17_found_after_reopen_and_growth`, `C17_read_after_reopen_refuted`
* `C18_agree`, `C18_repeated_set_refuted`, `C18_stl_map`, `C18_stl_map_clear_refuted`, `C18_vector`
* `C19_contents`, `C19_feed_stopped`, `C19_feed_to`, `C19_min_id_refuted`, `C19_opposite_ids_refuted`
* `C20_absent_type_refuted`, `C20_sorted_merge`
* `C21_brackets_alternate`, `C21_empty_file_refuted`, `C21_init_first_final_last`, `C21_no_object_lost`, `C21_objects_inside_brackets`, `C21_prefix`, `C21_protocol`
* `C22_each_sees_all`, `C22_first_before_second`, `C22_first_fails`, `C22_forward`, `C22_second_fails`, `C22_stop_refuted`
* `C23_following_version`, `C23_forwards_with_end`, `C23_last_version`
* `C24_at_most_current_refuted`, `C24_forwards_selected`, `C24_instant`, `C24_selected_is_intersection`
* `C25_positions`, `C25_sparse_table_works`
* `C26_reads_nodes_only`, `C26_smallest_box`, `C26_undefined_refuted`, `C26_unsorted_refuted`
* `C27_kept_objects_unchanged`, `C27_lonlat_on_way_refuted`, `C27_pbf`, `C27_xml`
* `C28_events`, `C28_exactly_once`, `C28_no_members_refuted`, `C28_repeated_object_refuted`, `C28_unknown_member_refuted`, `C28_unsorted_refuted`
* `C29_slots`
* `C30_decisions`, `C30_empty_way_refuted`, `C30_selected`
* `C31_outcomes`, `C31_rings`
* `C32_all_closed`, `C32_exhaustive`, `C32_no_rings`, `C32_order_refuted`
* `C33_container`, `C33_direct`, `C33_exact`, `C33_exact_refuted`, `C33_holes`, `C33_listed`
* `C34_closest`, `C34_dangling_nodes`, `C34_error`, `C34_repaired`
* `C35_ignored`, `C35_merge`, `C35_merge_unique`, `C35_same_tags`, `C35_symmetry_refuted`, `C35_untagged`
* `C36_libraries`, `C36_roundtrip`, `C36_short_write_refuted`, `C36_sound`, `C36_stored`, `C36_truncated`, `C36_truncated_refuted`
* `C39_final`
* `C40_accepted`, `C40_rejected`
* `C42_libraries`
* `C44_callbacks`
* `C45_default_suffix`, `C45_default_suffix_refuted`, `C45_directory_kept_refuted`, `C45_enc_names`, `C45_local_file_refuted`, `C45_names_agree`, `C45_no_suffix`, `C45_no_suffix_refuted`, `C45_set_filename`, `C45_stdin_stdout`, `C45_suffix`, `C45_type_names`, `C45_url`
* `C46_assign_leak_refuted`, `C46_careful_no_leak`, `C46_careful_waits`, `C46_close_reports`, `C46_double_wait_refuted`, `C46_failed_open_unchanged`, `C46_fork_leak_refuted`, `C46_no_double_close`, `C46_no_shared_child`, `C46_no_shared_fd`, `C46_open`, `C46_reopen_leak_refuted`, `C46_shared_child_refuted`, `C46_stdin_closed_twice_refuted`
* `C47_create`, `C47_create_last`, `C47_last_registered_refuted`
* `C49_closed`, `C49_empty_refuted`
* `C50_parts`, `C50_squeeze`, `C50_unknown`
* `C51_fitting`, `C51_narrow_refuted`, `C51_truncate`, `C51_width_1`, `C51_width_2`, `C51_zero_refuted`
* `C52_big_shape_refuted`, `C52_failed_open_refuted`, `C52_fields`, `C52_files`, `C52_first`, `C52_late_fields_refuted`, `C52_length`, `C52_overflow_refuted`
* `C54_other_exceptions_propagate`, `C54_read_errors_propagate`, `C54_stop_is_clean`
* `C55_closed_ends`, `C55_closed_single`, `C55_empty_is_ub`, `C55_has_position_refuted`, `C55_has_position_uniform`
* `C56_get_member`, `C56_long_role_rejected`, `C56_members_stored_in_order`, `C56_role_limit`, `C56_unchanged_on_failure_refuted`
* `C57_area`, `C57_build`, `C57_failed_build_refuted`, `C57_no_rings`, `C57_own_areas`, `C57_success`
* `C58_bad_dense_refuted`, `C58_bad_index_refuted`, `C58_defined`
* `C60_from_js`, `C60_from_js_total`, `C60_injective`, `C60_long_key_refuted`, `C60_maximum_refuted`, `C60_nul_refuted`, `C60_print`, `C60_print_total`, `C60_roundtrip`, `C60_tags`, `C60_to_js`, `C60_to_js_total`, `C60_unusable_key_refuted`, `C60_user_role`
* `C61_enumeration`, `C61_multipolygon`, `C61_timestamp`, `C61_unknown_refuted`, `C61_version_refuted`, `C61_version_uid`
* `C62_add`, `C62_double_refuted`, `C62_illegal_refuted`, `C62_logical`, `C62_logical_overflow`, `C62_logical_refuted`, `C62_order`, `C62_table`, `C62_table_refuted`, `C62_text`, `C62_text_refuted`, `C62_text_total`
* `C65_debug_refuted`, `C65_defined`, `C65_home_refuted`, `C65_include`, `C65_options`, `C65_reads`, `C65_two_passes_refuted`
* `C66_areas`, `C66_exception_refuted`, `C66_first_pass`, `C66_kept_refuted`, `C66_load`, `C66_located`, `C66_plain`
* `C68_unambiguous`
* `C69_number_of_updates`
* `C71_unused_refuted`
* `C73_empty_relation_refuted`, `C73_failed`, `C73_missing_type_refuted`, `C73_report`, `C73_unsorted_refuted`
* `C74_illegal_refuted`, `C74_incomplete_refuted`, `C74_mpdump`, `C74_same_id_refuted`, `C74_toogr2`
* `C79_moderate`
* `C81_config`, `C81_id_refuted`, `C81_index_refuted`, `C81_match`, `C81_no_output_refuted`, `C81_output_refuted`, `C81_rows`, `C81_star_refuted`
* `C82_count`, `C82_inherited_refuted`, `C82_table`, `C82_undefined_refuted`
* `C83_area`, `C83_id_refuted`, `C83_inherited_refuted`, `C83_shape_export`, `C83_speed`
* `C84_areas`, `C84_located`, `C84_test`, `C84_test_file`, `C84_time`, `C84_time_run`
