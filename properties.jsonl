{"id": "C01", "title": "Fixed-point coordinates survive the trip through double", "statement": "For every stored coordinate x (a 32-bit integer count of 1e-7 degrees) the double returned by Position::lon()/lat(), when handed back to Position(double,double) or to the lon()/lat() setters, gives exactly the same Position.", "quantifier": "all 2^32 coordinate values, for both axes", "why_tests_cant": "2^32 values per axis and IEEE rounding at every one of them; a test samples a handful", "anchors": ["include/osmium/osm/position.hpp: double_to_fix, fix_to_double, Position(double,double), lon(), lat()"]}
{"id": "C02", "title": "Coordinates given as doubles are stored to the nearest 1e-7 degree", "statement": "For every finite double in the legal longitude/latitude range, the stored Position differs from the argument by at most half of 1e-7 degree plus a rounding error below 1e-13 degree, and the conversion is monotone: a larger argument never gives a smaller stored coordinate.", "quantifier": "all finite doubles of magnitude at most 214 degrees", "why_tests_cant": "there are more than 2^60 such doubles", "anchors": ["include/osmium/osm/position.hpp: double_to_fix, Position(double,double)"]}
{"id": "C03", "title": "Undefined positions and the order on positions", "statement": "A default constructed Position is undefined and a Position is defined exactly if neither coordinate is the reserved value; operator== is equality of both coordinates and operator< is a strict total order (longitude first, then latitude) consistent with ==, so positions can be used as keys of sorted containers.", "quantifier": "all positions, pairs and triples of positions", "why_tests_cant": "the order laws range over all triples of 2^64 positions", "anchors": ["include/osmium/osm/position.hpp: Position, defined, operator==, operator<"]}
{"id": "C04", "title": "Bounds is the tightest box around the positions it was extended with", "statement": "After extending a new Bounds with any non-empty sequence of defined positions, every one of them lies inside [bottom_left, top_right], each side of the box is touched by one of them, and the result does not depend on their order; with no extension the Bounds stays undefined. Extending with an undefined position must leave the Bounds unchanged.", "quantifier": "all finite sequences of positions, in any order", "why_tests_cant": "unbounded sequences and all their permutations", "anchors": ["include/osmium/osm/bounds.hpp: Bounds::extend, defined", "include/osmium/handler/find_bbox.hpp"]}
{"id": "C05", "title": "Undirected segments do not depend on their direction", "statement": "UndirectedSegment(a,b) and UndirectedSegment(b,a) are equal and neither is less than the other; two undirected segments are equal only if they have the same two end points; first() is never greater than second(); and the order on segments is a strict total order consistent with equality.", "quantifier": "all pairs and triples of segments over all positions", "why_tests_cant": "universal over position quadruples; tests try a few", "anchors": ["include/osmium/osm/undirected_segment.hpp", "include/osmium/osm/segment.hpp"]}
{"id": "C06", "title": "Objects of one type are strictly weakly ordered by id and version", "statement": "operator< on nodes, ways, relations and areas is irreflexive, transitive and has transitive incomparability (what std::set and std::sort require), and sorts ids by absolute value and versions of one id ascending.", "quantifier": "all triples of objects with arbitrary ids (positive and negative) and versions", "why_tests_cant": "the failing combinations need an id, its negative and two versions; the space is all triples", "anchors": ["include/osmium/osm/node.hpp: operator<", "include/osmium/osm/way.hpp: operator<", "include/osmium/osm/relation.hpp: operator<", "include/osmium/osm/area.hpp: operator<"]}
{"id": "C07", "title": "Area ids identify their way or relation", "statement": "Areas created from different ways or relations have different ids; from_way() tells whether the area comes from a way or a relation and orig_id() gives back the id of that way or relation.", "quantifier": "all way and relation ids, positive and negative, for which the doubled id fits 64 bits", "why_tests_cant": "quantifies over all pairs of 64-bit ids including the sign and parity corner cases", "anchors": ["include/osmium/osm/area.hpp: Area(Relation), Area(Way), from_way, orig_id"]}
{"id": "C08", "title": "Tag lists keep order and look up the first matching key", "statement": "After any sequence of TagList::add and clear calls, iteration yields exactly the tags added since the last clear in order, and get_value_by_key(k) returns the value of the earliest of them with key k, or null if and only if there is none.", "quantifier": "all sequences of operations, all keys and values", "why_tests_cant": "unbounded operation sequences with duplicate keys", "anchors": ["include/osmium/osm/tag_list.hpp: add, clear, get_value_by_key", "include/osmium/osm/tag.hpp"]}
{"id": "C09", "title": "Object attributes set from text are parsed as documented and failures change nothing", "statement": "Setting id, version, changeset, uid, timestamp, visible or user of an object from text gives the number the text denotes (for every value representable in the attribute type), recognises visible=\"false\" only, rejects over-long user names and unparsable timestamps with an exception, and an exception leaves every attribute of the object as it was; attributes other than the named one never change.", "quantifier": "all attribute names, all strings, all prior object states", "why_tests_cant": "all strings and all prior states", "anchors": ["include/osmium/osm/object.hpp: set_attribute, user, visible, timestamp", "include/osmium/osm/types.hpp: string_to_*"]}
{"id": "C10", "title": "Delta coding is lossless", "statement": "For every sequence of 64-bit values, accumulating the outputs of Delta::update over the sequence gives back the sequence, also when the differences wrap, and a clear() in the middle restarts coding at zero.", "quantifier": "all finite sequences of 64-bit integers, all positions of clear()", "why_tests_cant": "unbounded sequences, wrap-around only at extreme pairs", "anchors": ["include/osmium/utils/delta.hpp: Delta::update, clear"]}
{"id": "C11", "title": "String table ids resolve to the recorded strings", "statement": "After recording any sequence of strings in a StringTable and storing it, entry 0 of the stored table is empty, the stored table contains every recorded string once, strings are stored in order of decreasing use count, and mapping the id record_string() returned for a string gives the index of that very string.", "quantifier": "all finite sequences of strings, including more than 65535 different ones and more than 65535 repetitions", "why_tests_cant": "needs more than 65535 distinct or repeated strings and every order of recording", "anchors": ["include/osmium/utils/stringtable.hpp: record_string, store_stringtable, map_string_id"]}
{"id": "C12", "title": "Timestamps survive conversion to ISO text and back", "statement": "For every timestamp from 1970-01-01T00:00:01Z to 9999-12-31T23:59:59Z, parse_iso(to_iso(t)) is t, to_iso gives the proleptic Gregorian date of t, texts sort like timestamps, and timestamp 0 gives the empty text. A time has no text at all (undefined behaviour) exactly if its year does not fit into an int.", "quantifier": "all 253402300799 second values", "why_tests_cant": "2.5e11 values including leap years and century rules", "anchors": ["include/osmium/utils/timestamp.hpp: to_iso, parse_iso"]}
{"id": "C13", "title": "Tag filters apply the first matching rule", "statement": "For every rule list built with add() on a key, key/value or regex filter and every tag, the filter answers with the result of the first rule that matches the tag (for key/value rules an empty value matches every value), and with the default if no rule matches.", "quantifier": "all rule lists, tags and defaults", "why_tests_cant": "unbounded rule lists; precedence between overlapping rules", "anchors": ["include/osmium/tags/key_filter.hpp", "include/osmium/tags/key_value_filter.hpp", "include/osmium/tags/regex_filter.hpp"]}
{"id": "C14", "title": "filter_and_accumulate folds exactly the accepted tags in order", "statement": "filter_and_accumulate over a tag list with a filter and an operation gives the left fold of the operation over exactly those tags the filter accepts, in list order.", "quantifier": "all tag lists, filters, operations and initial values", "why_tests_cant": "higher-order property over all operations", "anchors": ["include/osmium/utils/filter_and_accumulate.hpp"]}
{"id": "C15", "title": "Tag to string conversion is unambiguous where a parser relies on it", "statement": "The hstore text built from a tag list can be parsed back by the PostgreSQL hstore quoting rules to exactly the same list of keys and values, for all byte contents of keys and values; different tag lists therefore give different texts.", "quantifier": "all tag lists with arbitrary byte strings, including quotes, backslashes, commas and arrows", "why_tests_cant": "adversarial strings; injectivity quantifies over pairs of tag lists", "anchors": ["include/osmium/tags/to_string.hpp: TagToStringOp, TagToHStoreStringOp, TagToKeyEqualsValueStringOp"]}
{"id": "C16", "title": "Array-like id stores return the last value stored", "statement": "For FixedArray, MmapAnon, MmapFile and SparseTable and every sequence of set() calls with ids in the supported range, operator[](id) returns the value most recently set for id, or the default value if id was never set and lies inside the allocated size; growing the store never loses or changes values. If there is no memory the constructors throw.", "quantifier": "all sequences of set/get/clear with arbitrary ids and values, all growth points", "why_tests_cant": "unbounded operation sequences and all growth thresholds", "anchors": ["include/osmium/storage/byid/fixed_array.hpp", "include/osmium/storage/byid/mmap_anon.hpp", "include/osmium/storage/byid/mmap_file.hpp", "include/osmium/storage/byid/sparse_table.hpp"]}
{"id": "C17", "title": "File backed id store persists values across reopening", "statement": "Values set in a MmapFile store are found with the same ids by a new MmapFile store opened later on the same file, after any number of close/reopen cycles and growths, and ids never set read as the default value.", "quantifier": "all sequences of set, growth and reopen", "why_tests_cant": "unbounded histories of reopening", "anchors": ["include/osmium/storage/byid/mmap_file.hpp"]}
{"id": "C18", "title": "Map-like id stores return the stored value", "statement": "For StlMap and for Vector (with ids set in increasing order) operator[](id) returns the value set for id; an id that was never set is reported as missing (exception for StlMap, default value for Vector) and the two agree on every supported sequence of operations.", "quantifier": "all sequences of set/get/clear", "why_tests_cant": "unbounded sequences, binary search corner cases", "anchors": ["include/osmium/storage/byid/stl_map.hpp", "include/osmium/storage/byid/vector.hpp"]}
{"id": "C19", "title": "ObjectStore feeds its contents sorted and without loss", "statement": "After passing any stream of objects through an ObjectStore, feed_to() calls the handler with init, then per type before/objects/after, then final, delivering each stored (type, id, version) exactly once in ascending order, the first received object winning for equal keys.", "quantifier": "all object streams", "why_tests_cant": "unbounded streams in any order with duplicates", "anchors": ["include/osmium/storage/objectstore.hpp: ObjectStore, feed_to"]}
{"id": "C20", "title": "Applying a change merges store and stream in order", "statement": "Running a sorted stream of objects through ObjectStore::ApplyHandler forwards to the next handler the sorted merge of the stream and the stored objects, losing and duplicating none.", "quantifier": "all sorted streams and all store contents", "why_tests_cant": "all interleavings of two unbounded sorted sequences, including object types absent from the stream", "anchors": ["include/osmium/storage/objectstore.hpp: ApplyHandler"]}
{"id": "C21", "title": "Handlers see callbacks in the documented protocol order", "statement": "Whatever objects a file contains, the reader calls init exactly once before anything else and final exactly once after everything else; objects of a type are delivered only between the before_ and after_ callbacks of that type; and these brackets alternate correctly, also when a handler stops reading early.", "quantifier": "all input object sequences and all points at which a handler stops reading", "why_tests_cant": "all sequences of object types, including the empty one and unsorted ones, and all stop points", "anchors": ["include/osmium/input.hpp: call_after_and_before_on_handler, call_final_on_handler", "include/osmium/input/pbf.hpp: parse", "include/osmium/input/xml.hpp: parse"]}
{"id": "C22", "title": "Sequenced handlers each see the full callback sequence", "statement": "With Handler::Sequence(h1,h2) each of h1 and h2 receives exactly the callbacks it would receive if it were used alone, in the same order, and for every single callback h1 runs before h2. A handler that only forwards is as if it was not there.", "quantifier": "all handlers and all callback sequences", "why_tests_cant": "quantifies over arbitrary handlers and callback sequences", "anchors": ["include/osmium/handler.hpp: Sequence, Forward, Base"]}
{"id": "C23", "title": "EndTime gives every version its end time", "statement": "For every history stream sorted by type, id and version, the EndTime handler forwards every object exactly once and in order inside the right before/after brackets, with endtime equal to the timestamp of the directly following version of the same object, or unset for the last version.", "quantifier": "all sorted history streams of all three object types", "why_tests_cant": "unbounded histories and all version group boundaries", "anchors": ["include/osmium/handler/endtime.hpp"]}
{"id": "C24", "title": "RangeFromHistory selects the versions valid in the time range", "statement": "For every history stream and time range, RangeFromHistory forwards exactly those versions whose life span (timestamp to endtime) intersects the range, in order; combined with EndTime and an instant as the range it forwards at most the versions of each object that were current at that instant.", "quantifier": "all histories and all time ranges", "why_tests_cant": "all histories and pairs of time bounds including equal timestamps", "anchors": ["include/osmium/handler/range_from_history.hpp", "include/osmium/handler/endtime.hpp"]}
{"id": "C25", "title": "CoordinatesForWays gives every way node the position of its node", "statement": "After any stream of nodes followed by ways, each way node delivered carries the position of the last node with its id seen before, for positive and negative ids alike, or the store's default if none was seen.", "quantifier": "all streams of nodes and ways, ids of both signs", "why_tests_cant": "unbounded streams and both signs of ids, for each store type", "anchors": ["include/osmium/handler/coordinates_for_ways.hpp", "include/osmium/storage/byid.hpp"]}
{"id": "C26", "title": "FindBbox reports the bounding box of all nodes and reads nothing more", "statement": "FindBbox reports exactly the smallest box containing all nodes of the input that have a position and stops reading after the nodes.", "quantifier": "all input streams", "why_tests_cant": "unbounded node sequences, in any order", "anchors": ["include/osmium/handler/find_bbox.hpp", "include/osmium/osm/bounds.hpp"]}
{"id": "C27", "title": "Objects kept by a handler never change afterwards", "statement": "If a handler keeps a shared pointer to an object it was given, the object it points to never changes while the rest of the file is read, whatever the rest of the file contains.", "quantifier": "all files and all choices of which objects handlers keep for how long", "why_tests_cant": "depends on reference counts over the full history of the run; failures need odd attributes in later elements", "anchors": ["include/osmium/input.hpp: prepare_node, prepare_way, prepare_relation", "include/osmium/input/xml.hpp: init_object", "include/osmium/input/pbf.hpp: parse_node_group, parse_dense_node_group"]}
{"id": "C28", "title": "A relation is completed exactly once, when its last wanted member arrives", "statement": "For every set of relations read in pass 1 and every stream of objects in pass 2 in which no object occurs twice, complete_relation is called exactly once for each wanted relation all of whose wanted members occur in the stream, at the moment the last of them arrives, and for no other relation.", "quantifier": "all relation sets, member lists (with repeated members and shared members) and pass 2 streams", "why_tests_cant": "all combinations of overlapping member lists and arrival orders", "anchors": ["include/osmium/relations/assembler.hpp: add_relation, find_and_add_object", "include/osmium/relations/relation_info.hpp: add_member"]}
{"id": "C29", "title": "Completed relations carry the right object in every member position", "statement": "When complete_relation is called, position i of the member objects holds the object with the type and id named by member i of the relation for every member the assembler wanted to keep, and is empty for all others.", "quantifier": "all relations and streams", "why_tests_cant": "all member list shapes including repeated ids", "anchors": ["include/osmium/relations/relation_info.hpp", "include/osmium/relations/assembler.hpp"]}
{"id": "C30", "title": "The multipolygon assembler turns exactly the right ways into areas", "statement": "Only relations tagged type=multipolygon or type=boundary are assembled and only their way members; a way that is in no such relation becomes an area exactly if it is closed and has at least four nodes.", "quantifier": "all relations and ways", "why_tests_cant": "all tag lists and node lists", "anchors": ["include/osmium/multipolygon/assembler.hpp"]}
{"id": "C31", "title": "Rings are closed chains of distinct ways", "statement": "Every ring the multipolygon builder forms from the member ways uses each way at most once, in a sequence and orientation where each way ends at the node where the next one starts and the last one ends where the first one starts; no way is in two rings.", "quantifier": "all way collections and all outcomes of the geometric validity checks", "why_tests_cant": "backtracking search over all way arrangements", "anchors": ["include/osmium/multipolygon/builder.hpp: complete_ring, make_one_ring, ring_is_complete, make_rings"]}
{"id": "C32", "title": "The ring search is exhaustive from its starting way", "statement": "If ring building leaves a way over, then no arrangement of the remaining ways starting with the first way left over is an acceptable ring; if no ring at all is reported, none starts with the first member way. If all member ways are closed and valid, all of them are in rings. (That a valid closed way becomes a ring whatever the order of the members is refuted: one invalid way stops the search for all later ones.)", "quantifier": "all way collections and orders", "why_tests_cant": "order dependence needs all permutations", "anchors": ["include/osmium/multipolygon/builder.hpp: make_one_ring, make_rings"]}
{"id": "C33", "title": "Inner and outer rings are determined by nesting", "statement": "Whatever the nesting and order of the rings, a ring is a hole exactly if it is contained in an odd number of other rings, and it is listed as a hole of the ring that directly contains it. It is a hole of that ring only, if no ring is inside more than two others or if rings come after the rings they are in. (Without this condition refuted: a ring inside three others can become a hole of two rings.)", "quantifier": "all finite nestings of rings (containment orders) and all orders of the rings", "why_tests_cant": "all containment forests of any depth and all index orders", "anchors": ["include/osmium/multipolygon/builder.hpp: determine_inner_outer_rings"]}
{"id": "C34", "title": "Dangling ends are found and repaired exactly", "statement": "The nodes reported as dangling are exactly those at which an odd number of unused way ends meet, their number is even, without repair their presence is an error, and with repair the added pseudo-ways make the number of way ends even at every node.", "quantifier": "all way collections", "why_tests_cant": "all multigraphs of ways", "anchors": ["include/osmium/multipolygon/builder.hpp: find_and_repair_holes_in_rings"]}
{"id": "C35", "title": "Tags of areas follow the documented merge rules", "statement": "Comparing tags of two objects ignores exactly type, created_by, source and note and otherwise answers true exactly if both have the same tags, where tags with an empty value in the second need not be in the first (symmetry is refuted); merging way tags into an area keeps all tags of the area, adds exactly the way tags with new keys that are not ignored, and reports a collision exactly if a key has two different values.", "quantifier": "all pairs of tag lists", "why_tests_cant": "all pairs of unbounded tag lists", "anchors": ["include/osmium/multipolygon/builder.hpp: ignore_tag, same_tags, untagged, merge_tags"]}
{"id": "C36", "title": "PBF blob framing is lossless", "statement": "The byte stream of length-prefixed blob headers and blobs written by the PBF writer is split by the PBF reader into exactly the same sequence of (type, payload) pairs, ending cleanly at end of file, however the system splits the reads. From any bytes only blobs that are really in the file are delivered, and a file cut off at any point gives the blobs before the cut and an error - except when the cut is at a blob boundary or within the four length bytes of the next blob, which looks like a clean end. Short writes are not noticed.", "quantifier": "all sequences of blobs, all byte strings, all truncation points, all read and write schedules", "why_tests_cant": "all byte strings and cut points", "anchors": ["include/osmium/output/pbf.hpp: store_blob", "include/osmium/input/pbf.hpp: read_blob_header, read_blob, convert_from_network_byte_order"]}
{"id": "C37", "title": "Objects survive the PBF round trip", "statement": "Every sequence of nodes, ways and relations written with the PBF writer (default granularity, any of dense/compress/metadata) and within the limits of the format is read back by the PBF reader with the same ids, versions, changesets, uids, user names, timestamps, tags, positions, node references and members with types and roles. The objects of each type keep their order; if nodes come before ways before relations the whole order is kept. Writing succeeds for all objects whose ids are below 2^62 and whose members have known types.", "quantifier": "all sequences of objects of any length", "why_tests_cant": "unbounded sequences crossing block boundaries, all string table permutations", "anchors": ["include/osmium/output/pbf.hpp", "include/osmium/input/pbf.hpp"]}
{"id": "C38", "title": "Dense and plain node encodings are equivalent", "statement": "Whatever the nodes, writing them with or without the dense format gives files that read back to the same objects.", "quantifier": "all node sequences", "why_tests_cant": "delta chains over unbounded sequences, including wrap-around", "anchors": ["include/osmium/output/pbf.hpp: write_node, write_dense_node", "include/osmium/input/pbf.hpp: parse_node_group, parse_dense_node_group"]}
{"id": "C39", "title": "PBF blocks respect the content limit and are flushed", "statement": "At any moment the objects written so far are, in order, in blocks of the file of at least one and at most 8000 objects, followed by at most 8000 objects in memory; final() leaves none in memory. One block may hold objects of several types.", "quantifier": "all object sequences and type alternations", "why_tests_cant": "unbounded sequences around the flush thresholds", "anchors": ["include/osmium/output/pbf.hpp: check_block_contents_counter, store_primitive_block, final"]}
{"id": "C40", "title": "PBF header round trip", "statement": "The header written by the PBF writer is accepted by the PBF reader for the same file type and gives back the generator and the bounding box, with corners at most one unit (1e-7 degree) nearer to zero; headers requiring unknown features or with the wrong history flag are rejected with nothing delivered, for every list of features, and all others are accepted.", "quantifier": "all header contents, all bounds, all expected file types", "why_tests_cant": "all feature lists and all bounding boxes", "anchors": ["include/osmium/output/pbf.hpp: init", "include/osmium/input/pbf.hpp: parse"]}
{"id": "C41", "title": "Granularity settings keep the documented precision", "statement": "With any location granularity (multiple of 100 nanodegrees) and date granularity (multiple of a second) set on the PBF writer, positions and timestamps read back differ from the originals by half the granularity plus rounding, and are identical if they are multiples of it. For other granularities positions may be off by one more unit, and times are wrong or lost.", "quantifier": "all granularities and all values", "why_tests_cant": "all pairs of granularity and value", "anchors": ["include/osmium/output/pbf.hpp: lonlat2int, timestamp2int, location_granularity, date_granularity", "include/osmium/input/pbf.hpp: parse (date_factor), lon/lat conversion"]}
{"id": "C42", "title": "Objects survive the XML round trip", "statement": "A sequence of objects written to an OSM XML file is read back, however read() cuts the file, as the same sequence of objects up to what the format keeps: id, version, changeset, timestamp, tags, position (if both coordinates are defined), node references, members (type n, w or r, ref, role), uid and user if the uid is positive, the visibility in history and change files; generator and bounds are read back, too. Every error of the XML library before the file is closed is reported. After an error nothing more is written, and the types of members are written as node, way and relation.", "quantifier": "all object sequences with texts of XML characters, times up to the year 9999 and attribute values the types and setters allow; all file types; all ways read() can cut the file", "why_tests_cant": "unbounded sequences, all attribute values including extreme numbers", "anchors": ["include/osmium/output/xml.hpp", "include/osmium/input/xml.hpp"]}
{"id": "C43", "title": "Change files group objects into correct sections", "statement": "When writing a change file every object is enclosed in a create, modify or delete section according to its version and visibility, sections are properly opened and closed, adjacent objects of the same kind share a section, and reading the file gives the objects back with the same visibility.", "quantifier": "all object sequences", "why_tests_cant": "all alternations of create/modify/delete", "anchors": ["include/osmium/output/xml.hpp: open_close_op_tag", "include/osmium/input/xml.hpp: start_element"]}
{"id": "C44", "title": "The XML reader delivers every object once, as described by its element", "statement": "For every document the reader understands, each node, way and relation element leads to exactly one callback of its type, in document order, with the attributes and children of that element (numbers, times and coordinates as the text says; missing ones at their defaults) and not visible if inside of a delete section; generator and bounds are those of the document. Reading ends normally only if all reads succeeded and the whole file is well-formed. Finding: a coordinate whose text is no number is read as 0 without an error.", "quantifier": "all documents in which object elements have valid numbers and children without children, and which have no root element inside of the root and no delete section inside of a delete section; all ways read() can cut the file", "why_tests_cant": "all documents of any nesting", "anchors": ["include/osmium/input/xml.hpp: start_element, end_element, init_object, check_tag"]}
{"id": "C45", "title": "File type and encoding are recognised from the file name", "statement": "The type and encoding of an OSMFile are determined by the suffix of its name as documented, for every file name, and the file name built with the default suffix for a type and encoding is recognised as that type and encoding again. The functions that take a type or an encoding by name accept exactly the documented names, and agree with the suffixes.", "quantifier": "all file names, types and encodings", "why_tests_cant": "all strings, including dots in directory names", "anchors": ["include/osmium/osmfile.hpp: OSMFile, set_type_and_encoding, filename_with_default_suffix, filename_without_suffix"]}
{"id": "C46", "title": "Files and helper processes are opened and closed in pairs", "statement": "For every sequence of open, close, copy and assign operations on OSMFile objects, each file descriptor is closed at most once, copies never share a descriptor or child process, and close() reports failure of the helper process. Opening a file gives an open descriptor, or standard input or output for an empty name, or reports an error and leaves the object as it was.", "quantifier": "all operation sequences and all results of the system calls", "why_tests_cant": "all interleavings and failure points of system calls", "anchors": ["include/osmium/osmfile.hpp: open_for_input, open_for_output, close, copy constructor, operator="]}
{"id": "C47", "title": "The output factory creates the writer last registered for the encoding", "statement": "After any sequence of register and unregister calls, creating an output for an encoding calls the creation function registered for that encoding, and throws if there is none.", "quantifier": "all sequences of registrations", "why_tests_cant": "all operation sequences", "anchors": ["include/osmium/output.hpp: Factory"]}
{"id": "C48", "title": "WKB and EWKB output can be decoded to the same geometry", "statement": "The WKB bytes written for points, linestrings and polygons, with and without SRID, decode by the OGC/EWKB rules to exactly the same geometry type, SRID flag, and list of coordinates, for every geometry; the hexadecimal form is the hex encoding of the binary form.", "quantifier": "all geometries with any number of nodes", "why_tests_cant": "unbounded node lists and all coordinate bit patterns", "anchors": ["include/osmium/geometry.hpp: write_binary, write_hex, write_binary_wkb_header, write_hex_wkb_header", "include/osmium/geometry/point.hpp", "include/osmium/geometry/linestring.hpp", "include/osmium/geometry/polygon.hpp"]}
{"id": "C49", "title": "Reversed lines are reversed in every output format, polygons need closed rings", "statement": "A linestring created with reverse=true is written in WKT, WKB and hex WKB exactly like the linestring of the reversed node list, and shapefile lines and polygons list their points in reverse order. A polygon can be created from a non-empty node list exactly if the first and last node refs are equal. Polygons are however never reversed in WKT, WKB and hex WKB, and creating a polygon from an empty node list is undefined behaviour.", "quantifier": "all node lists and formats", "why_tests_cant": "all node lists and all format/geometry combinations", "anchors": ["include/osmium/geometry/linestring.hpp", "include/osmium/geometry/polygon.hpp", "include/osmium/geometry/shplib.hpp"]}
{"id": "C50", "title": "Shapefile line geometries contain no consecutive duplicates and lose nothing else", "statement": "The shape built from a way has at least two points, never the same point twice in a row, starts and ends at the positions of the first and last way node, and contains the positions of the way nodes in order (or reverse order) with only consecutive repetitions removed; ways without two different points are rejected. A multipolygon that holds a geometry of another kind anywhere is refused with a runtime_error.", "quantifier": "all way node lists", "why_tests_cant": "all node lists including A-B-A patterns and repeated refs", "anchors": ["include/osmium/geometry/shplib.hpp: create_line_or_polygon"]}
{"id": "C51", "title": "Truncated shapefile strings are whole UTF-8 characters", "statement": "add_attribute_with_truncate stores, for every valid UTF-8 string and every field width of at least three bytes, the longest prefix of whole characters that fits the field width in bytes. The same holds for width one, and for width two unless the string starts with a two byte character, in which case the code reads outside its buffer.", "quantifier": "all valid UTF-8 strings and all field widths", "why_tests_cant": "all strings and widths; failures at character boundaries only", "anchors": ["include/osmium/export/shapefile.hpp: add_attribute_with_truncate"]}
{"id": "C52", "title": "Shapefile overflow splits files within the size limit and loses no shape", "statement": "For every sequence of shapes added to a Shapefile after its fields have been added, where each shape would fit into a file of its own and files can be opened, each shape whose call returned normally is written exactly once and in order, no .shp or .dbf file exceeds 2^31-1 bytes, the files are numbered in order, and every file has the same fields. The record length used for the counters is the one of the ESRI specification. The limit does not hold for one huge shape or for fields added after shapes, and after a failure to open the next file further calls use a null handle. Field names of one to eleven bytes and widths of up to 255 are accepted and no others. If the very first files cannot be created the constructor throws.", "quantifier": "all sequences of shapes of any size", "why_tests_cant": "needs gigabytes of shapes; counter wrap-around", "anchors": ["include/osmium/export/shapefile.hpp: add_geometry, open, length_on_disk, add_field"]}
{"id": "C53", "title": "Haversine distance is the great circle distance", "statement": "In exact arithmetic the haversine distance of two positions equals the great circle distance on a sphere of the given radius; it is symmetric, non-negative, at most half the circumference, zero for equal positions and only for positions at the same point of the sphere, and satisfies the triangle inequality. The length of a way is the sum over its segments, is additive under splitting at a node, unchanged under reversal, and at least the distance of its ends. In double arithmetic the distance is still exactly symmetric and exactly zero for equal positions, for every C library whose sin is odd and whose sin and cos stay within one. The degrees are converted with pi/180 to 20 decimal places and the radius is that of the Earth (6372797.56 m). For every C library whose sin, cos and asin are wrong by at most one unit in the last place, the distance of two positions on earth up to 20000 km apart is a finite double within a millimetre of the exact one, any finite distance is within three metres, and the length of a way of up to 100000 steps of up to 20000 km is within two millimetres per step. Finding: nothing keeps the argument of asin at most one; with a sine wrong by one unit in the last place the distance of two antipodes is not a number.", "quantifier": "all positions and all node lists", "why_tests_cant": "real-valued universally quantified laws", "anchors": ["include/osmium/geometry/haversine.hpp"]}
{"id": "C54", "title": "Reading stops cleanly and the stop is final", "statement": "If a handler throws StopReading, no further object callback is made, and final is still called exactly once; any other exception is propagated to the caller.", "quantifier": "all callback positions at which a handler can throw", "why_tests_cant": "all stop points in unbounded streams", "anchors": ["include/osmium/input/pbf.hpp: parse", "include/osmium/input/xml.hpp: parse", "include/osmium/handler.hpp: StopReading"]}
{"id": "C55", "title": "Way closedness and position queries", "statement": "For every non-empty way node list, is_closed() holds exactly if first and last reference are equal; on an empty list the query must not be made (undefined behaviour); has_position() must tell whether the nodes of the list have positions.", "quantifier": "all node lists", "why_tests_cant": "all lists including the empty one and partially located ones", "anchors": ["include/osmium/osm/way_node_list.hpp: is_closed, has_position", "include/osmium/osm/way.hpp: is_closed"]}
{"id": "C56", "title": "Relation members are stored as given and failures leave the relation unchanged", "statement": "add_member stores type, reference and role in order; a role longer than the limit is rejected with an exception and the relation is left unchanged; get_member returns null for positions outside the list.", "quantifier": "all member sequences and roles of all lengths", "why_tests_cant": "all sequences with failing calls in between", "anchors": ["include/osmium/osm/relation.hpp: add_member, get_member", "include/osmium/osm/relation_member_list.hpp: add_member", "include/osmium/osm/relation_member.hpp: role"]}
{"id": "C57", "title": "Areas returned for a multipolygon relation", "statement": "Building a multipolygon never fails: it returns no area if the ways give no rings; otherwise the areas of exactly those holes that consist of one way with tags of its own, followed by the area of the relation with its id, version and user and the latest timestamp. If the rings do not cross, that area is there exactly if the polygon of every outer ring with the holes directly in it is valid and the multipolygon of these is. Its tags are those of the relation; a relation without tags takes those of the first tagged outer way, one with tags gets the new keys of a tagged way only if this is the only outer way. (That a failed build returns no areas is refuted.)", "quantifier": "all relations, member ways and outcomes of the geometry library", "why_tests_cant": "all relations and member ways and all failures of geometry operations", "anchors": ["include/osmium/multipolygon/builder.hpp: build, assemble_ways, handle_one_way_inner_ring, build_multipolygon"]}
{"id": "C58", "title": "Reading PBF files of any origin is defined", "statement": "For any bytes, any behaviour of read() and any PBF writer: if the blocks in the file are well-formed (string indices in range, parallel lists of equal length, numbers within 64 bits) reading ends with the objects or with an exception, never with undefined behaviour. Without these conditions it can be undefined: the reader does not check string indices.", "quantifier": "all files, all well-formed blocks", "why_tests_cant": "all blocks of any size, all bytes", "anchors": ["include/osmium/input/pbf.hpp: parse, parse_node_group, parse_dense_node_group, parse_way_group, parse_relation_group"]}
{"id": "C59", "title": "WKT text is exact", "statement": "The decimal numbers in the WKT text of a point, line string or polygon are exactly the stored coordinates (no digit is lost, also in exponent notation), and a reader of the text gets the same positions in the same order (reversed for reversed line strings), with or without SRID; different position lists have different texts.", "quantifier": "every stored position (all pairs of 32 bit coordinates) and every list of nodes, with and without SRID and reversal", "why_tests_cant": "The number formatting depends on every one of 2^32 coordinate values and on the rounding of the conversion to double; lists have any length.", "anchors": ["include/osmium/geometry/point.hpp: Point::write_to_stream", "include/osmium/geometry/linestring.hpp: LineString::write_to_stream", "include/osmium/geometry/polygon.hpp: Polygon::write_to_stream", "include/osmium/geometry.hpp: LonLatListWriter"]}
{"id": "C60", "title": "Texts keep their characters on the way to and from Javascript", "statement": "A C string becomes a Javascript string exactly if it is well-formed UTF-8 of a text that fits the stated number of UTF-16 units, and then the two are the UTF-8 and UTF-16 forms of the same text; everything else throws. The same holds in the other direction and for printing, up to the first U+0000. Texts of fewer than the maximum number of characters survive the round trip. Tag keys are enumerated in order, a key finds the value of the first tag with exactly that key or undefined, users and roles arrive unchanged. Refuted in general: a text of exactly the maximum number of characters is rejected, a key of more than 1024 units finds the tag of another key, an enumerated key can be too long to look up, and printing stops at U+0000.", "quantifier": "all byte strings, all sequences of UTF-16 units, all texts, all tag lists, all buffer sizes", "why_tests_cant": "All texts in Unicode, including malformed encodings and surrogates at the edge of the buffer.", "anchors": ["include/osmium/javascript/unicode.hpp: utf8_to_v8_String, v8_String_to_utf8, v8_String_to_ostream", "include/osmium/javascript/wrapper/osm.hpp: OSMTagList, OSMObject, OSMRelationMember"]}
{"id": "C61", "title": "Javascript programs see the objects and geometries as they are", "statement": "toArray() of a point, line string, polygon or multipolygon gives all positions of all rings in order (reversed where asked for). A way has a geometry exactly if its last node has a position, and a polygon exactly if it is closed as well; otherwise the null geometry, never undefined behaviour. WKT and hexadecimal WKB arrive whole and can be read back to the same positions. Ids up to 2^53 are exact, versions and user ids up to 2^31-1, timestamps are ISO text; nodes and members by index are those of the object and the enumeration gives the indexes. Refuted: toWKB() is cut at the first zero byte so that all points give the same string; toArray() of an empty line, and an index behind the end, are undefined behaviour; ids above 2^53 collide, versions from 2^31 are negative; a way with an unknown position inside has a geometry. The length of a list is the number of its elements.", "quantifier": "all node lists, multipolygons, ids, versions, timestamps, indexes", "why_tests_cant": "Lists of any length, all coordinates, all numbers of 64 bits.", "anchors": ["include/osmium/javascript/wrapper/geometry.hpp", "include/osmium/javascript/wrapper/position.hpp", "include/osmium/javascript/wrapper/osm.hpp"]}
{"id": "C62", "title": "Javascript programs write records and tables that can be read back", "statement": "A text field of a shapefile record holds the longest part of the text, in whole characters, that fits the width; logical fields understand t, y, f, n, 0 and 1 and numbers; add() writes one value per field in the order of the fields, all of them exactly if it returns, none if the geometry is refused. A table written row by row is read back by splitting at newlines and tabs. Refuted: a text whose 256th UTF-16 unit is half of a character throws; a logical value above the int range is undefined behaviour; an illegal geometry is reported as success; a value for a field of type double throws after a part of the record has been written; tabs and newlines in fields are not escaped.", "quantifier": "all texts, widths, field lists, attribute values and tables", "why_tests_cant": "All texts and all lists of fields and rows.", "anchors": ["include/osmium/javascript/wrapper/export_shapefile.hpp: add_string_attribute, add_logical_attribute, add", "include/osmium/javascript/wrapper/export_csv.hpp: print"]}
{"id": "C63", "title": "Areas own their geometry and behave as values", "statement": "For every program that makes areas from ways and relations, copies, assigns, changes and destroys them, gives them geometries and looks at their multipolygons, what it sees is what plain values would give: ids are twice the id of the way, twice plus sign for relations; copies and assignments take over all attributes, nodes and the geometry and are independent afterwards; a way area without geometry gets the polygon of its nodes on first use. No geometry is freed twice or used after it was freed. No geometry stays behind when all areas are destroyed, as long as none was given to an area that had one. Refuted: copying an area without geometry (such as one just made from a way) and looking at a relation area without geometry follow null pointers; assigning to an area with a geometry loses the old one.", "quantifier": "all sequences of operations on any number of areas and views", "why_tests_cant": "Ownership errors appear only in particular interleavings of copies, assignments and destructions.", "anchors": ["include/osmium/osm/area.hpp: Area", "include/osmium/geometry/multipolygon.hpp: MultiPolygon", "include/osmium/geometry/geos.hpp: create_geos_geometry"]}
{"id": "C64", "title": "Geometries for GEOS and OGR have the points of the objects", "statement": "A line string or polygon made for GEOS or OGR has exactly the positions of the nodes in order, from the last to the first if reversed. An OGR multipolygon has the polygons of the GEOS multipolygon in order, each with its outer ring first, then its inner rings, all points equal; it throws IllegalGeometry exactly if OGR refuses a polygon.", "quantifier": "all node lists, both directions, all multipolygons", "why_tests_cant": "Lists of any length and any number of rings.", "anchors": ["include/osmium/geometry/geos.hpp: create_geos_geometry", "include/osmium/geometry/ogr.hpp: create_ogr_geometry", "include/osmium/geometry/ogr_multipolygon.hpp: create_ogr_geometry, make_polygon, add_ring"]}
{"id": "C65", "title": "osmjs: options, include path and input", "statement": "For every command line, the options of osmjs mean what the usage text says: the last -j and -l count, -m implies two passes, -i takes the first readable file of the search path (with .js added if the name has no dot); help ends with code 0, and unknown options, unknown store names, missing script or file, two passes over the standard input, and -m without a location store end with code 1 before any file is read. Only the named file is read, once or twice, and the standard input never twice. Behaviour is undefined only for -2 without -m and without a location store and for -i without HOME (findings); -d is never visible to scripts (finding).", "quantifier": "every list of options, every list of arguments, every set of readable files, every value of HOME, every script engine and input file", "why_tests_cant": "The command lines, environments and sets of files are unbounded; what matters is that no combination leads to another outcome.", "anchors": ["osmjs/osmjs.cpp: main, find_include_file", "include/osmium/javascript/handler.hpp: Handler"]}
{"id": "C66", "title": "osmjs: what a script gets to see", "statement": "For every script and every readable input file, osmjs runs the included files and then the script, in order, ends with code 1 if one cannot be opened or run, and then calls exactly the functions the script defined in Osmium.Callbacks, in the order of the callback protocol: init, each group bracketed by before and after, each object once with that object as this, end. With a location store the ways carry the last positions of the nodes read before; with two passes the areas of the multipolygon assembler are delivered at the places C30 describes. An exception in a callback goes unnoticed, and an object kept beyond its callback shows another object (findings). If the input cannot be read to its end in the first of two passes, the exception ends the program before any callback.", "quantifier": "every script engine, script, set of included files, argument list, every file of well-typed groups, every location store that works, every area builder that returns", "why_tests_cant": "Scripts and files are arbitrary, and the order of calls depends on the whole file.", "anchors": ["include/osmium/javascript/handler.hpp: Handler", "osmjs/osmjs.cpp: main", "include/osmium/handler/coordinates_for_ways.hpp: CoordinatesForWays", "include/osmium/multipolygon/assembler.hpp: Assembler"]}
{"id": "C67", "title": "Conversion of files keeps every object", "statement": "Reading a file (PBF or XML) with an output file as the handler, as the conversion example does, and reading the result gives back, group by group and in order, exactly the objects of the input, for files within the conditions of the two writers (C37, C42); such a conversion always succeeds, and converting to the other format and back gives the objects of the original file. A conversion that ends without an exception has read its whole input and finished the output. A file without objects cannot be converted to XML (an exception is thrown) and gives an empty file as PBF, and the input is not closed if reading fails (findings).", "quantifier": "every readable input of either format, every configuration of the writers, every value of the header data given to init(), every codec/XML library meeting its documented laws", "why_tests_cant": "Input files are of any length and content, and both directions of two formats meet: four different readers and writers have to agree on every object.", "anchors": ["include/osmium.hpp: Input::read", "include/osmium/output/pbf.hpp: PBF", "include/osmium/output/xml.hpp: XML", "include/osmium/input/pbf.hpp: PBF", "include/osmium/input/xml.hpp: XML", "examples/osmium_convert.cpp: main"]}
{"id": "C68", "title": "The debug dump shows all data of a file", "statement": "Reading a file with the debug handler prints a text from which a line-by-line reader finds, in order, every callback and for every object its id, version, user, changeset, time, tags, and position, node references or members, provided no text contains a line break or NUL, no key and no role contains what the format uses as separator, and times are within the years the format can show. Two files whose dumps are equal have equal objects in equal groups. The bounds of the header are shown up to a thousandth of a degree. With line breaks in a tag value one object can look like two, a bar in a key makes a tag ambiguous, and different bounds can have the same dump (findings).", "quantifier": "every file content (groups of objects of any number), every header, both settings of the handler and of the file type, both states of the output stream at the start", "why_tests_cant": "The objects carry texts of any content and coordinates of any value; only a proof covers every combination that could be confused in the output.", "anchors": ["include/osmium/handler/debug.hpp: Debug", "include/osmium/osm/bounds.hpp: operator<<", "include/osmium/osm/position.hpp: operator<<", "include/osmium/input.hpp: call_node_on_handler", "examples/osmium_debug.cpp: main"]}
{"id": "C69", "title": "The progress display shows the true numbers", "statement": "While a file of any length is read, the progress display is renewed at the start and after every object that makes the number of objects of its type a multiple of the step, and every display shows the numbers of nodes, ways and relations read so far and a speed that is right up to one and a millionth of it. After a file sorted by type the totals are shown and the cursor is visible again; no computation goes wrong as long as the clock advances by one microsecond for every 2000 objects. If the output is not a terminal nothing is printed. With a step of zero, two readings in the same microsecond, or unsorted files the behaviour is undefined, averages of the last type are wrong, and after an error in the file the cursor stays hidden (findings).", "quantifier": "every file content (groups of any number of objects), every step, every sequence of clock readings", "why_tests_cant": "The speeds depend on the clock readings and are computed in single precision; whether the conversion to int is defined and the result right for all counts and times cannot be tested.", "anchors": ["include/osmium/handler/progress.hpp: Progress", "include/osmium/input.hpp: call_node_on_handler"]}
{"id": "C70", "title": "The shapefile export has a row for exactly the selected objects", "statement": "When osmium_toshape reads a file of any size and reaches its end, the point file has one record for every node tagged amenity=post_box and no other, and the line file has one record for every way with a highway tag whose nodes have at least two different positions and no other, both in the order of the input; the points are the position of the node or the positions of the nodes of the way in order without repetitions, the first column is the id, the second the whole characters of the value that fit into 30 bytes. The files never exceed 2^31-1 bytes and are numbered, however the program ends. It reaches its end if the library does not fail and the last node of every highway has a position; otherwise the first highway without such a node ends the program and nothing after it is exported (finding). A highway with another missing node is exported with coordinates outside of the world, and ids above 2^53 can become equal (findings). Whatever calls of the library fail, the program ends normally or with a runtime_error.", "quantifier": "every file content (objects of any number and order), every working node location store, every pattern of failures of the shapefile library", "why_tests_cant": "The rows depend on the whole stream before them (locations) and on when the library fails; a test shows a few small files.", "anchors": ["examples/osmium_toshape.cpp: MyShapeHandler", "include/osmium/export/shapefile.hpp: Shapefile", "include/osmium/geometry/shplib.hpp: create_shp_object", "include/osmium/handler/coordinates_for_ways.hpp: CoordinatesForWays"]}
{"id": "C71", "title": "The density map shows how many nodes are where", "statement": "For every file and every image size from 1 to 32767 rows, the map drawn by nodedensity has 2*size columns and size rows, and the shade of each pixel is the linear shade between MIN and MAX of the number of nodes (at most 65534) of the first run of nodes in the file that lie in the rectangle of the pixel; a node exactly on the border of two rectangles can be counted in either, nodes outside of the image are counted at its edge; the reading ends after the nodes. A file without nodes gives no image. Findings: the number of pixels per degree is truncated, so that below 180 rows all nodes are in one pixel and otherwise part of the image is never used; nodes without a position are drawn; equal limits, no rows or 32768 rows are undefined behaviour.", "quantifier": "every file content, image size, pair of limits and node position", "why_tests_cant": "The pixel is computed in floating point; that it is right for all positions, and that no counter or index overflows for any file, cannot be tested.", "anchors": ["examples/nodedensity.cpp: NodeDensityHandler"]}
{"id": "C72", "title": "Exports to a database with OGR have exactly the selected objects", "statement": "For every file, osmium_toogr writes one feature for each post box and one for each way with a highway tag, in the order of the file, with the position or the positions of the nodes (the last one before the way in the file), the id and the text, and nothing else; if OGR fails to create a feature the program exits there and the features before it are the right ones. osmium_to_postgis writes exactly the nodes with a tag other than created_by and odbl, with position, id and a hstore text that parses back to these tags; if the nodes of the file are in one piece, then however the program ends (an error of OGR or in the file) the table has all of them or nothing. Findings: highways without nodes become lines without points, missing and undefined positions are exported as points outside of the world, with nodes in several places an error leaves part of the table.", "quantifier": "every file content, every node storage, every failure of OGR and every error at any place of the file", "why_tests_cant": "Which rows are in a database after a failure at an arbitrary point depends on the whole history of calls; all files and failure points cannot be tried.", "anchors": ["examples/osmium_toogr.cpp: MyOGRHandler", "examples/osmium_to_postgis.cpp: MyOGRHandler", "include/osmium/geometry/ogr.hpp: create_ogr_geometry"]}
{"id": "C73", "title": "The relation dump shows every relation with its members", "statement": "For every file with the objects of each type together and no object twice, osmium_relation_members shows each relation whose members are all in the file exactly once and as complete, and earlier than the relations that become complete after it; if there are objects of all three types, every relation with a member that is not in the file follows, exactly once, in the order of the file and marked as incomplete. Each member is shown with the tags of the object with its type and id, or marked as not in the file if there is none. Findings: a relation without members is never shown; in a file without one of the types the incomplete relations are not shown; in a file with nodes before and after the ways a relation is shown as incomplete though its member is there, and the program aborts when it reads it. If a file cannot be read to its end the program ends with an error.", "quantifier": "every file content: any number of objects, groups, relations, members, with members in any number of relations and at any place", "why_tests_cant": "Which relations are complete at which time depends on the whole file, and the same object can complete any number of relations.", "anchors": ["examples/osmium_relation_members.cpp: DebugRelationsAssembler", "include/osmium/relations/assembler.hpp: Assembler, clean_assembled_relations", "include/osmium/relations/relation_info.hpp: RelationInfo, has_all_members"]}
{"id": "C74", "title": "The multipolygon programs write every area of a file once", "statement": "For every file with the objects of each type together and no object twice, osmium_mpdump writes exactly these areas, each once: one for each closed way with at least four nodes that is in no multipolygon or boundary relation, with twice the id of the way; and those the builder makes, called once, of each multipolygon or boundary relation that has way members all of which are in the file, with these ways and their positions. Each is shown with its kind, id, original id, attributes, geometry and tags. If the geometry of an area cannot be made the program ends there and the areas before it are shown. osmium_toogr2 writes a row, with the geometry and the lower 32 bits of the id, for exactly those of these areas that have a building tag and a legal geometry, unless another error occurs: then it ends at this area. Findings: in mpdump one illegal geometry hides all areas after it; a closed way in a multipolygon relation that lacks other ways is in no area; in toogr2 areas of different ways can have the same id.", "quantifier": "every file content, every behaviour of the builder and of the geometry library", "why_tests_cant": "Which areas there are depends on the whole file: any number of relations share ways, in any order, and the failure of a geometry may come at any of them.", "anchors": ["examples/osmium_mpdump.cpp: DumpHandler", "examples/osmium_toogr2.cpp: OGROutHandler", "include/osmium/multipolygon/assembler.hpp: Assembler", "include/osmium/handler/coordinates_for_ways.hpp: CoordinatesForWays", "include/osmium/osm/area.hpp: Area"]}
{"id": "C75", "title": "The history extract program writes the versions current at an instant", "statement": "For every input file that can be read to its end, osmium_range_from_history writes the versions that live between the two moments, in the order of the file, as XML or PBF, with their data unchanged; each version ends when the version that follows it in the file begins. For a sorted history file and one instant these are exactly the versions that were current at the instant, and those that were replaced at this very second. For objects the writers can represent the program succeeds. Findings: in an extract that is not itself a history file deleted objects are there again; at the instant of a change both the old and the new version are written.", "quantifier": "every history file, every instant, every way the reader divides the file into blocks", "why_tests_cant": "When a version ends is known only when the next one is seen, so what must be written of an object depends on what follows it in the file.", "anchors": ["examples/osmium_range_from_history.cpp: main", "include/osmium/handler/range_from_history.hpp: RangeFromHistory", "include/osmium/handler/endtime.hpp: EndTime"]}
{"id": "C76", "title": "Applying a change file shows the objects of both files in order", "statement": "For every sorted file and every change file that can be read to their ends, osmium_store_and_debug succeeds, and a reader of its output finds, for each type of objects in the file, the objects of the file together with the objects of this type in the change file (of several with the same id and version the first one), sorted by id and version, with all their data. Findings: objects of a type the file has none of are lost; old versions stay, and deleted objects are shown like any other.", "quantifier": "every sorted file and every change file, sorted or not", "why_tests_cant": "The merge must keep every object of both inputs, whatever their sizes and however their ids interleave.", "anchors": ["examples/osmium_store_and_debug.cpp: main", "include/osmium/storage/objectstore.hpp: ObjectStore, ApplyHandler", "include/osmium/handler/debug.hpp: Debug"]}
{"id": "C77", "title": "Counts and bounding box of a file are those of its contents", "statement": "For every file that can be read to its end, osmium_time prints the numbers of its nodes, ways and relations (modulo 2^64); if the file cannot be read it prints no numbers. osmium_find_bbox prints a box within a thousandth of a degree of the smallest box around all nodes. Findings: the box is rounded to either side and need not have all nodes in it; for a file without nodes it is at 214.748 degrees.", "quantifier": "every file, every way the reader divides it into blocks, every point where reading fails", "why_tests_cant": "The results summarise the whole file, of any size, and must not depend on how it is divided.", "anchors": ["examples/osmium_time.cpp: MyTimerHandler", "examples/osmium_find_bbox.cpp: main", "include/osmium/handler/find_bbox.hpp: FindBbox"]}
{"id": "C78", "title": "The convert program writes the input file in the other format", "statement": "Whatever the libraries and the system do, an osmium_convert run with two different file names that ends normally has read its whole input without an error, and no run changes any file but the output. If libraries and helpers work, the output of such a run, read again with its format, has the objects of the input with all the data the format keeps: in XML, compressed or not, in the same order; in PBF the same for each type, and in the same order if the input is sorted by type. The bounds are those known when the first object is met: in XML those of the bounds elements in front of it, in PBF those of a header at the beginning. On standard output nothing is mixed into the data unless it is a terminal. Readable input whose objects fit into the format is converted; to PBF in particular if any 8000 objects in a row have at most 33.5 MB (see C79). The same data on standard input and in a file is converted in the same way. Findings: a PBF file converted onto itself is emptied, and the program ends normally; a format that does not exist is taken for PBF without a message; gzip and bzip2 formats do not work on standard input and output; bounds after the first object are lost; an error reported by the helper that unpacks the input is ignored. If the input does not exist or an uncompressed output cannot be created, the program ends with a SystemError.", "quantifier": "every input file and its name, every format of both files, every way the file is cut by reads, every other content of the disk", "why_tests_cant": "The result is a composition of option handling, two file formats, helper processes and the progress display, for files of any size and content.", "anchors": ["examples/osmium_convert.cpp: main", "include/osmium/osmfile.hpp: OSMFile", "include/osmium/output.hpp: OutputFactory", "include/osmium.hpp: Input::read", "include/osmium/handler/progress.hpp: Progress"]}
{"id": "C79", "title": "PBF files of ordinary objects are written and read back without further conditions", "statement": "If any 8000 objects in a row have at most 33.5 MB of texts and other data (their own bytes, with 10 bytes for each number; in particular if every object has at most 4187 bytes), at most 65535 different texts, and ids that can be subtracted, then writing a PBF file of them succeeds, compressed or not, and reading it gives the objects back: the blobs of the file are always within the limits of the format. Findings: the writer does not count texts and does not count nodes at all. When the nodes of a block have more than 32 MB of different texts, an uncompressed file is written without an error and no reader accepts any of it; a compressed one is refused while writing or ends the reader by an assertion. 8000 nodes with five different values of 255 four-byte characters each are enough.", "quantifier": "all object sequences and configurations, every implementation of zlib and protobuf within the wire format", "why_tests_cant": "The thresholds are megabytes of text spread over thousands of objects; tests write small files.", "anchors": ["include/osmium/output/pbf.hpp: check_block_contents_counter, store_blob, zlib_compress, write_dense_node, write_way, write_relation", "include/osmium/input/pbf.hpp: read_blob"]}
{"id": "C80", "title": "The debug program dumps every object of a file", "statement": "For every file that can be read to its end, the program writes a text that reads back to all the objects of the file in order, each run of objects of one type between its own before and after lines, and ends with the final line. Compiled with end times, every object is shown with the time of the next version of it as its end time (0 for the last one), and two files with the same dump have the same objects. If reading fails, all objects read up to then have been shown and the program ends with that error. Finding: with end times the object read last before the error is not shown.", "quantifier": "all files in XML and PBF format, complete or not, whose texts have no line breaks, nul bytes or bars in keys", "why_tests_cant": "The dump has to be complete for every sequence of objects and every place where reading can fail.", "anchors": ["examples/osmium_debug.cpp: main", "include/osmium/handler/debug.hpp", "include/osmium/handler/endtime.hpp"]}
{"id": "C81", "title": "The shapefile framework of osmjs writes what the configuration says", "statement": "A configuration for the framework is accepted exactly if every rule only mentions shapefiles declared before it and columns of its output file. For every accepted configuration in which every rule has an output, and every sequence of objects, each object gives exactly one row for every rule of its type that selects it by its tags (any value, one of several values given as text with bars or as list), in the file of that rule, if its geometry fits the file; the columns have the id or the values of the tags the rule names for them and are null otherwise; the rows come in the order of objects and rules, nothing else is written, and in the end all files are closed and have the geometries of their rows. Findings: names such as toString are accepted as output although no such file was declared; a rule without output does not end the program but loses the rows of the rules after it and of rules for ways; ids above 2147483647 become other numbers in integer columns; a rule for any value does not select tags with an empty value; a rule for a key that is a number never selects anything.", "quantifier": "all configurations (any files, columns, rules, attributes), all sequences of nodes, ways and areas with any tags and geometries", "why_tests_cant": "A configuration is a program; which rows it makes depends on the interplay of all rules with every object, over an unbounded input.", "anchors": ["osmjs/js/osm2shape.js", "osmjs/js/config.js", "include/osmium/javascript/wrapper/export_shapefile.hpp"]}
{"id": "C82", "title": "The scripts of osmjs that count tags and list nodes write correct tables", "statement": "For every input whose nodes have no key twice and no tabs or line breaks in their tags, the counting script writes two tables: one line for every key and one line for every tag that occurs on a node, each exactly once, in the order of first occurrence, with the number of nodes that have it (up to 2^53, where Javascript stops counting). For every input the list script writes one line for every node, in the order of the input, with its id, name and note, and the word undefined for the ones missing. Objects that are no nodes leave no trace. Findings: keys such as constructor, which every Javascript object has as property, are counted wrongly; a node without name cannot be told from one whose name is undefined.", "quantifier": "all sequences of objects with any number of nodes and tags", "why_tests_cant": "The counts depend on the whole input; no finite set of inputs shows that no tag is lost, merged with another one or counted twice.", "anchors": ["osmjs/js/count.js", "osmjs/js/osm2csv.js", "include/osmium/javascript/wrapper/export_csv.hpp", "include/osmium/javascript/wrapper/osm.hpp"]}
{"id": "C83", "title": "The shapefile export scripts of osmjs write exactly the objects they are made for", "statement": "For every input the export script writes one row for every tag of a node that makes it a restaurant, pub or supermarket, one row for every way with a non-empty highway tag and one row for every area with a non-empty landuse tag, provided the geometry of the object fits the file, and no other rows; the rows are in the order of the input, every column has the id, the tag, the direction of a oneway (0, 1, 2) or the number of the speed limit it is to have, cut to the width of the column at a whole character, and null where there is no tag; a speed limit counts exactly if it is a number, perhaps followed by a space and by km/h or kmh. The area script writes such a row for every area. In the end all files are closed and have the geometries of their rows. Findings: values such as constructor make any node a point of interest; ids above 2147483647 become other numbers.", "quantifier": "all sequences of nodes, ways and areas with any tags and geometries, any texts of speed limits", "why_tests_cant": "Rows depend on every tag of every object of an unbounded input, and the expression for the speed limits on every possible text.", "anchors": ["osmjs/js/shape_export.js", "osmjs/js/area.js", "include/osmium/javascript/wrapper/export_shapefile.hpp"]}
{"id": "C84", "title": "The scripts time.js and callback_test.js report the callbacks and numbers of objects correctly", "statement": "For every input file time.js, run by osmjs, prints \"first way\" and \"first relation\" once each, when the first object of that type comes and only if there is one, and in the end the numbers of nodes, ways and relations of the file (up to 2^53). For every sequence of callbacks callback_test.js prints one line with the name of each callback, for nodes, ways, relations and areas only the first time; so for a file of nodes, ways and relations in this order, of any size, it prints the same eleven lines. With a location store the lines are the same; with two passes and areas callback_test.js also prints the line for the first area, right before or right after that of the first way, and it does so if the file has a closed way of at least four nodes outside of multipolygon relations.", "quantifier": "all sequences of callbacks and all files of typed groups, sorted or not", "why_tests_cant": "The lines depend on the whole history of callbacks of an unbounded input.", "anchors": ["osmjs/js/time.js", "osmjs/js/callback_test.js", "include/osmium/javascript/handler.hpp", "osmjs/osmjs.cpp"]}
