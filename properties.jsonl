{"id": "C01", "title": "EdifactStack JSON path round trip", "statement": "Printing an EdifactStack with to_json_path and reading it back with from_json_path yields the same levels in the same order, with indices made explicit: a level with an index comes back groupable with that index, a groupable level without index comes back with index 0, any other level comes back unchanged. Holds for every stack whose level names are non-empty and contain neither '[' nor ']' and whose indices are not negative; outside of that domain it fails (a bracket in a name, an empty name and a negative index are each lost or altered).", "quantifier": "all EdifactStacks: any number of levels, any Unicode names, any index", "why_tests_cant": "Names and depth are unbounded and the parser is a regex scan over the whole string; a finite test set cannot exclude a name that re-synchronises the scan.", "anchors": ["src/maus/models/edifact_components.py:EdifactStack.to_json_path", "src/maus/models/edifact_components.py:EdifactStack.from_json_path", "src/maus/models/edifact_components.py:_level_pattern"]}
{"id": "C02", "title": "JSON paths identify stacks", "statement": "Two stacks (bracket-free non-empty names, non-negative indices) have the same JSON path if and only if they have the same levels up to explicit indices; re-printing a parsed path reproduces the path character by character.", "quantifier": "all pairs of EdifactStacks in the round trip domain", "why_tests_cant": "Injectivity is a statement about all pairs of values.", "anchors": ["src/maus/models/edifact_components.py:EdifactStack.to_json_path", "src/maus/models/edifact_components.py:EdifactStack.from_json_path"]}
{"id": "C03", "title": "Sub stack relation is the prefix order", "statement": "x.is_sub_stack_of(y) holds exactly when the levels of y are a prefix of the levels of x; it is reflexive, transitive and antisymmetric, and y.is_parent_of(x) is the same as x.is_sub_stack_of(y).", "quantifier": "all EdifactStacks", "why_tests_cant": "Order laws quantify over all pairs and triples of stacks.", "anchors": ["src/maus/models/edifact_components.py:EdifactStack.is_sub_stack_of", "src/maus/models/edifact_components.py:EdifactStack.is_parent_of"]}
{"id": "C04", "title": "Sub location relation is the prefix order", "statement": "x.is_sub_location_of(y) holds exactly when the layers of y are a prefix of the layers of x; segment code, data element and qualifier are irrelevant; is_parent_of is the converse.", "quantifier": "all AhbLocations", "why_tests_cant": "Order laws quantify over all pairs and triples of locations.", "anchors": ["src/maus/navigation.py:AhbLocation.is_sub_location_of", "src/maus/navigation.py:AhbLocation.is_parent_of"]}
{"id": "C05", "title": "Common ancestor is the longest common prefix", "statement": "find_common_ancestor(x, y) returns the location whose layers are the longest common prefix of both layer lists and raises ValueError exactly if the first layers differ. If one argument is a pseudo location only the segment group keys are compared and the layers of x are returned.", "quantifier": "all pairs of (pseudo) AhbLocations", "why_tests_cant": "Maximality over all common prefixes, for lists of any length.", "anchors": ["src/maus/navigation.py:find_common_ancestor"]}
{"id": "C06", "title": "Distance between locations", "statement": "calculate_distance(x, y) counts the layers to remove from x and to add to reach y: removing layers_up layers of x and layers_down layers of y leaves the same common ancestor, and no smaller pair of numbers does; both are 0 iff the layers are equal, up is 0 iff y is a sub location of x.", "quantifier": "all pairs of AhbLocations", "why_tests_cant": "Minimality and the equivalences quantify over all location pairs.", "anchors": ["src/maus/navigation.py:calculate_distance", "src/maus/navigation.py:_AhbLocationDistance"]}
{"id": "C07", "title": "Flattened hierarchy is the preorder", "statement": "SegmentGroupHierarchy.flattened lists every group of the hierarchy exactly once, each parent before its children and siblings in order.", "quantifier": "all SegmentGroupHierarchies of any depth and width", "why_tests_cant": "Recursive structure of unbounded depth.", "anchors": ["src/maus/models/message_implementation_guide.py:SegmentGroupHierarchy.flattened"]}
{"id": "C08", "title": "is_hierarchically_below means proper descendant", "statement": "sgh.is_hierarchically_below(k) is True iff some proper descendant of sgh has the key k.", "quantifier": "all hierarchies and keys (including None)", "why_tests_cant": "Recursive structure of unbounded depth.", "anchors": ["src/maus/models/message_implementation_guide.py:SegmentGroupHierarchy.is_hierarchically_below"]}
{"id": "C09", "title": "sg_is_hierarchically_below means ancestor relation", "statement": "sgh.sg_is_hierarchically_below(x, y) is True iff x != y and the hierarchy contains a group with key y that has a proper descendant with key x. On hierarchies with distinct keys the relation is a strict partial order.", "quantifier": "all hierarchies and all pairs of keys", "why_tests_cant": "Recursive structure of unbounded depth; order laws quantify over triples.", "anchors": ["src/maus/models/message_implementation_guide.py:SegmentGroupHierarchy.sg_is_hierarchically_below"]}
{"id": "C10", "title": "Pseudo location is the root path", "statement": "The pseudo location of a key lists exactly the groups on the path from the root to the first (preorder) group with that key; there is none iff the key does not occur. On hierarchies with distinct keys the common ancestor computed from the hierarchy is the deepest group above both keys.", "quantifier": "all hierarchies whose names satisfy the layer validators, all keys", "why_tests_cant": "Recursive structure of unbounded depth.", "anchors": ["src/maus/navigation.py:_construct_pseudo_location", "src/maus/navigation.py:_find_common_ancestor_from_sgh"]}
{"id": "C11", "title": "Common ancestor lookup of unknown keys", "statement": "Looking up the common ancestor of a known and an unknown key must raise a ValueError; the code does so only if the unknown key is the first argument. If only the second key is unknown an AttributeError escapes.", "quantifier": "all hierarchies and key pairs", "why_tests_cant": "Universal claim over keys; the second branch is not covered by any test.", "anchors": ["src/maus/navigation.py:_find_common_ancestor_from_sgh"]}
{"id": "C12", "title": "Look-ahead of segment codes and qualifiers", "statement": "Position n of the look-ahead lists holds the segment code (value pool entry) of the first line at or after n that has one, and None if there is no such line; the result has one entry per line. The line component is the line at the same position as long as a later line fulfils the predicate; in the tail it is shifted by one line (the first line is paired with the last one).", "quantifier": "all lists of AHB lines", "why_tests_cant": "Quantifies over list length and position; the defect is only visible in the tail.", "anchors": ["src/maus/navigation.py:_enhance_with_next_line_that_fulfills_predicate", "src/maus/navigation.py:_enhance_with_next_segment", "src/maus/navigation.py:_enhance_with_next_value_pool_entry"]}
{"id": "C13", "title": "Locations are returned line by line", "statement": "determine_hierarchy_changes and determine_locations return the lines they were given, all of them, in the same order, each with one change / one location.", "quantifier": "all hierarchies and line lists for which the call returns", "why_tests_cant": "Ranges over all line sequences.", "anchors": ["src/maus/navigation.py:determine_hierarchy_changes", "src/maus/navigation.py:determine_locations"]}
{"id": "C14", "title": "A location describes its own line", "statement": "The location returned for a line carries the data element and value pool entry of that line, the next segment code at or after the line, and its last layer has the segment group key of the line (provided the root of the hierarchy has no key or the first line has one; otherwise a first line without key is placed in the keyed root).", "quantifier": "all hierarchies and line lists for which the call returns", "why_tests_cant": "Ranges over all line sequences; needs an invariant over the loop.", "anchors": ["src/maus/navigation.py:determine_locations"]}
{"id": "C15", "title": "Location layers follow the hierarchy", "statement": "If all group keys of the lines occur in a hierarchy with distinct keys and a root without key and the lines never enter a group whose parent group they are not inside of (or next to), then the layer keys of every location are exactly the path from the hierarchy root to the group of the line.", "quantifier": "all hierarchies with distinct keys and all line sequences obeying the stated discipline", "why_tests_cant": "Invariant over arbitrarily long line sequences and arbitrarily deep hierarchies.", "anchors": ["src/maus/navigation.py:determine_locations", "src/maus/navigation.py:determine_hierarchy_changes"]}
{"id": "C16", "title": "Which hierarchy changes are reported", "statement": "determine_hierarchy_changes reports STAY or MOVE_TO_NEIGHBOUR_SAME_KEY iff the group key equals the one of the previous line, DIVE_INTO_SUB_GROUP iff the new key is below the previous key, and LEAVE_TO_PARENT_AND_DIVE otherwise; LEAVE_TO_PARENT and MOVE_TO_NEIGHBOUR_DIFFERENT_KEY are never reported, hence determine_locations never raises NotImplementedError.", "quantifier": "all hierarchies and line lists", "why_tests_cant": "Ranges over all line sequences.", "anchors": ["src/maus/navigation.py:determine_hierarchy_changes", "src/maus/navigation.py:_determine_hierarchy_change"]}
{"id": "C17", "title": "determine_locations succeeds on disciplined AHBs", "statement": "For lines and hierarchies that satisfy the validators and the entering discipline of C15 determine_locations returns; a sequence that skips a level can make it fail with ValueError.", "quantifier": "all disciplined line sequences", "why_tests_cant": "Totality over unbounded sequences.", "anchors": ["src/maus/navigation.py:determine_locations"]}
{"id": "C18", "title": "Layers only change when the group changes", "statement": "Between two neighbouring lines the layers stay identical unless a group change is reported; on a change to a neighbour with the same key only the last layer is exchanged; on a dive exactly one layer is appended.", "quantifier": "all hierarchies and line lists for which the call returns", "why_tests_cant": "Ranges over all line sequences.", "anchors": ["src/maus/navigation.py:determine_locations"]}
{"id": "C19", "title": "Segment groups of a flat AHB", "statement": "get_segment_groups returns every group key occurring in the lines exactly once, in the order of first occurrence.", "quantifier": "all flat AHBs", "why_tests_cant": "Ranges over all line lists.", "anchors": ["src/maus/models/anwendungshandbuch.py:FlatAnwendungshandbuch.get_segment_groups"]}
{"id": "C20", "title": "Sorting lines by segment group", "statement": "sort_lines_by_segment_groups leaves exactly the lines of every group, in their original order, placed contiguously in the order in which the groups first occurred; sorting again changes nothing, the set of groups and their order is unchanged.", "quantifier": "all flat AHBs", "why_tests_cant": "Stability, permutation and idempotence quantify over all lists.", "anchors": ["src/maus/models/anwendungshandbuch.py:FlatAnwendungshandbuch.sort_lines_by_segment_groups", "src/maus/models/anwendungshandbuch.py:FlatAnwendungshandbuch._sorted_lines_by_segment_groups"]}
{"id": "C21", "title": "Sorting never invalidates an AHB", "statement": "Assigning the sorted lines re-runs the validators; they accept the sorted lines of every AHB that was accepted before, so the call never raises on a valid AHB.", "quantifier": "all valid flat AHBs", "why_tests_cant": "Universal claim over all valid AHBs.", "anchors": ["src/maus/models/anwendungshandbuch.py:FlatAnwendungshandbuch.sort_lines_by_segment_groups", "src/maus/models/anwendungshandbuch.py:_check_that_nearly_all_lines_have_a_segment_group"]}
{"id": "C22", "title": "When a flat AHB is accepted", "statement": "A FlatAnwendungshandbuch is accepted iff every line passes the three line checks and at most two of the chunks between switches from 'no group' to 'group' contain an 'Abschnitts-Kontrollsegment' line. The documented rule (lines without group only at the beginning and end) is not enforced.", "quantifier": "all line lists", "why_tests_cant": "The accepted set is infinite; the inverted filter is only visible outside the tested shapes.", "anchors": ["src/maus/models/anwendungshandbuch.py:FlatAnwendungshandbuch", "src/maus/models/anwendungshandbuch.py:_check_that_nearly_all_lines_have_a_segment_group", "src/maus/models/anwendungshandbuch.py:_remove_grouped_ahb_lines_containing_section_name"]}
{"id": "C23", "title": "What the line validators accept", "statement": "The group key check accepts exactly 'SG' followed by one or more decimal digits, the segment code check exactly one or more A-Z, the data element check exactly 4 or 5 digits or letters followed by 4 digits - each optionally followed by one line feed, which is accepted by mistake.", "quantifier": "all strings", "why_tests_cant": "Exact language equality over infinitely many strings.", "anchors": ["src/maus/models/anwendungshandbuch.py:_check_that_line_has_either_none_or_matching_sg", "src/maus/models/anwendungshandbuch.py:_check_that_line_has_either_none_az_segment_code", "src/maus/models/anwendungshandbuch.py:_check_that_line_has_either_none_or_d4_data_element"]}
{"id": "C24", "title": "holds_any_information", "statement": "holds_any_information is True iff at least one of the six content fields contains a non-whitespace character; guid, section name, conditions and index do not matter.", "quantifier": "all AhbLines", "why_tests_cant": "All combinations of optional Unicode strings.", "anchors": ["src/maus/models/anwendungshandbuch.py:AhbLine.holds_any_information"]}
{"id": "C25", "title": "AhbLine discriminators", "statement": "get_discriminator depends only on group key, segment code, data element and (if requested) name. It is not injective, even on lines accepted by a flat AHB, so it is not the 'unique' key it is documented to be.", "quantifier": "all pairs of AhbLines", "why_tests_cant": "Claim about all pairs.", "anchors": ["src/maus/models/anwendungshandbuch.py:AhbLine.get_discriminator"]}
{"id": "C26", "title": "find_segment_groups is sound and complete", "statement": "find_segment_groups(p) returns a group iff it occurs somewhere in the AHB (at any depth) and satisfies p; nested matches come in preorder, a top level match is added after the matches nested in it and only if no equal group has been found yet.", "quantifier": "all deep AHBs and all predicates", "why_tests_cant": "Recursive structure, arbitrary predicates.", "anchors": ["src/maus/models/anwendungshandbuch.py:DeepAnwendungshandbuch.find_segment_groups", "src/maus/models/anwendungshandbuch.py:DeepAnwendungshandbuch._query_segment_group"]}
{"id": "C27", "title": "find_segments is sound and complete for groups and segments", "statement": "find_segments(gp, sp) contains every segment that satisfies sp inside (at any depth of) a group satisfying gp and nothing that does not satisfy sp or does not occur in the AHB. Segments of the top level groups are returned even if their group does not satisfy gp, and segments may be returned more than once. The order is: for each found group (in the order of find_segment_groups) its segments followed by those of the groups nested in it in document order, and at the end the direct segments of the top level groups. SegmentGroup.find_segments returns the matching segments of the group followed, if it searches recursively, by those of its nested groups in document order.", "quantifier": "all deep AHBs and all predicate pairs", "why_tests_cant": "Recursive structure, arbitrary predicates.", "anchors": ["src/maus/models/anwendungshandbuch.py:DeepAnwendungshandbuch.find_segments", "src/maus/models/edifact_components.py:SegmentGroup.find_segments"]}
{"id": "C28", "title": "get_all_value_pools", "statement": "get_all_value_pools returns value pools of the AHB only, exactly one for each discriminator that occurs on a value pool (None counts as one discriminator): the first one in the order of find_segments. A segment returns its value pools in the order of its data elements, a segment group those of all segments at any depth in document order.", "quantifier": "all deep AHBs", "why_tests_cant": "Recursive structure; deduplication over all pairs.", "anchors": ["src/maus/models/anwendungshandbuch.py:DeepAnwendungshandbuch.get_all_value_pools", "src/maus/models/edifact_components.py:SegmentGroup.get_all_value_pools", "src/maus/models/edifact_components.py:Segment.get_all_value_pools"]}
{"id": "C29", "title": "get_all_expressions", "statement": "get_all_expressions returns exactly the AHB expressions occurring in groups, segments, free texts and value pool entries at any depth, each once, in ascending code point order.", "quantifier": "all deep AHBs", "why_tests_cant": "Recursive structure; sortedness and completeness over all trees.", "anchors": ["src/maus/models/anwendungshandbuch.py:DeepAnwendungshandbuch.get_all_expressions"]}
{"id": "C30", "title": "replace_inputs_based_on_discriminator", "statement": "Every data element with a discriminator for which the function reports a replacement gets that replacement (even None) as entered input; every other part of the AHB is unchanged.", "quantifier": "all deep AHBs and all replacement functions", "why_tests_cant": "Recursive structure, arbitrary functions.", "anchors": ["src/maus/models/anwendungshandbuch.py:DeepAnwendungshandbuch.replace_inputs_based_on_discriminator", "src/maus/models/anwendungshandbuch.py:_replace_inputs_based_on_discriminator"]}
{"id": "C31", "title": "reset_ahb_line_index", "statement": "After reset_ahb_line_index all groups and segments at any depth have no line index and nothing else changed; resetting twice equals resetting once; the methods of a single group and a single segment do the same for what they contain.", "quantifier": "all deep AHBs, groups and segments", "why_tests_cant": "Recursive structure of unbounded depth.", "anchors": ["src/maus/models/anwendungshandbuch.py:DeepAnwendungshandbuch.reset_ahb_line_index", "src/maus/models/edifact_components.py:SegmentGroup.reset_ahb_line_index"]}
{"id": "C32", "title": "replace_value_pool substitutes simultaneously", "statement": "If the qualifiers of the pool are distinct and all mapped values are valid qualifiers, replace_value_pool renames every entry whose qualifier is in the mapping to its image and leaves all other entries, expressions, order and (without a merger) meanings unchanged; images are never mapped again, so swaps work.", "quantifier": "all value pools, mappings and meaning mergers", "why_tests_cant": "Universal over mappings; chaining bugs need special key/value coincidences.", "anchors": ["src/maus/models/edifact_components.py:DataElementValuePool.replace_value_pool"]}
{"id": "C33", "title": "replace_value_pool outside of its assumptions", "statement": "With repeated qualifiers only the last entry of each qualifier is renamed. If some image is not a valid qualifier the call raises ValueError after having renamed the earlier entries: it is not atomic.", "quantifier": "all value pools and mappings", "why_tests_cant": "Failure atomicity is about every crash point in the loop.", "anchors": ["src/maus/models/edifact_components.py:DataElementValuePool.replace_value_pool", "src/maus/models/edifact_components.py:_check_is_edifact_qualifier"]}
{"id": "C34", "title": "Which qualifiers are accepted", "statement": "A value pool entry accepts a qualifier iff it is not blank and either starts with a character from A-Z or a decimal digit, or is a GABi/dash qualifier. In particular arbitrary trailing text is accepted ('E01 foo'), so acceptance does not mean the string is an EDIFACT qualifier.", "quantifier": "all strings", "why_tests_cant": "Exact characterisation over infinitely many strings.", "anchors": ["src/maus/models/edifact_components.py:_check_is_edifact_qualifier", "src/maus/models/edifact_components.py:_simple_edifact_qualifier_pattern", "src/maus/models/edifact_components.py:gabi_edifact_qualifier_pattern"]}
{"id": "C35", "title": "has_value_pool_which_is_subset_of", "statement": "For a list or set of entries the result is True iff every qualifier of the pool is in it. For a one-shot iterator it is True iff the qualifiers appear in the iterator as a subsequence.", "quantifier": "all pools and iterables", "why_tests_cant": "Quantifies over pools and iterables.", "anchors": ["src/maus/models/edifact_components.py:DataElementValuePool.has_value_pool_which_is_subset_of"]}
{"id": "C36", "title": "Merging lines of a data element", "statement": "merge_lines_with_same_data_element raises ValueError if the lines do not share exactly one data element; otherwise it returns exactly if the id of the data element has four digits and the entries (for a free text: the expression of the first line) are acceptable; for a value pool it yields one entry per line with an expression, in order, with qualifier, stripped name and expression of that line; for a free text it takes the expression of the first line and the value type DATETIME iff the segment is DTM.", "quantifier": "all line lists and stacks", "why_tests_cant": "Ranges over all line lists.", "anchors": ["src/maus/mig_ahb_matching.py:merge_lines_with_same_data_element", "src/maus/models/edifact_components.py:derive_data_type_from_segment_code"]}
{"id": "C37", "title": "Group discriminators of a deep AHB are unique", "statement": "In the result of to_deep_ahb no two segment groups (at any depth) have the same discriminator.", "quantifier": "all flat AHBs, hierarchies and MIG readers for which the call returns", "why_tests_cant": "Invariant over a loop with arbitrary MIG reader behaviour.", "anchors": ["src/maus/mig_ahb_matching.py:to_deep_ahb"]}
{"id": "C38", "title": "No segment or data element is lost, duplicated or reordered", "statement": "to_deep_ahb puts exactly one segment per segment position with an expression and exactly one data element per data element position with an expression into the tree; each data element sits in the segment of the closest preceding segment position, and data elements of a segment are in document order.", "quantifier": "all flat AHBs, hierarchies and MIG readers for which the call returns", "why_tests_cant": "Conservation over arbitrary inputs with mutable list references.", "anchors": ["src/maus/mig_ahb_matching.py:to_deep_ahb"]}
{"id": "C39", "title": "Meta information of a deep AHB", "statement": "The deep AHB has the meta information of the flat AHB with maus_version '0.3.0'; since both share the object, the flat AHB's version is overwritten as well; nothing else of the flat AHB changes.", "quantifier": "all inputs for which the call returns", "why_tests_cant": "Aliasing effect, holds for all inputs.", "anchors": ["src/maus/mig_ahb_matching.py:to_deep_ahb"]}
{"id": "C40", "title": "Where segments end up", "statement": "Every segment created by to_deep_ahb is in the group that was opened most recently. Hence root segments that follow a nested group (e.g. UNT) are put into the last nested group instead of the root group.", "quantifier": "all inputs for which the call returns", "why_tests_cant": "Invariant over the loop; the misplacement depends on the document order.", "anchors": ["src/maus/mig_ahb_matching.py:to_deep_ahb"]}
{"id": "C41", "title": "Nesting of groups mirrors the locations", "statement": "If every location that opens a group is one layer below a location one is in when it is entered (and does not enclose it), the parent of each group in the deep AHB is the group that was opened last at the location one layer above.", "quantifier": "all disciplined inputs", "why_tests_cant": "Invariant over the reference stack for arbitrary nesting depths.", "anchors": ["src/maus/mig_ahb_matching.py:to_deep_ahb"]}
{"id": "C42", "title": "MIG lookups that fail do not abort the conversion", "statement": "If the MIG reader raises a ValueError for a position, to_deep_ahb does not fail because of it, unless the lines of this position are the ones that open a segment group: segments get the stringified position, data elements get no discriminator, and everything else of the result stays the same. If the lookup for the position that opens the root group fails, the call fails.", "quantifier": "all MIG readers", "why_tests_cant": "Quantifies over arbitrary reader behaviour.", "anchors": ["src/maus/mig_ahb_matching.py:to_deep_ahb"]}
{"id": "C43", "title": "SegmentGroupHierarchy JSON round trip", "statement": "Loading a dumped SegmentGroupHierarchy yields an equal hierarchy.", "quantifier": "all hierarchies", "why_tests_cant": "Recursive structure of unbounded depth.", "anchors": ["src/maus/models/message_implementation_guide.py:SegmentGroupHierarchySchema"]}
{"id": "C44", "title": "Flat AHB JSON round trip", "statement": "Loading a dumped valid FlatAnwendungshandbuch yields an equal one, including all None fields, UUIDs and indices.", "quantifier": "all valid flat AHBs", "why_tests_cant": "All combinations of optional fields and list lengths.", "anchors": ["src/maus/models/anwendungshandbuch.py:FlatAnwendungshandbuchSchema", "src/maus/models/anwendungshandbuch.py:AhbLineSchema", "src/maus/models/anwendungshandbuch.py:AhbMetaInformationSchema"]}
{"id": "C45", "title": "Deep AHB JSON round trip", "statement": "Loading a dumped deep AHB yields the same AHB with the line indices reset, provided every segment has a section name and every data element a value type; otherwise loading raises a ValidationError.", "quantifier": "all valid deep AHBs", "why_tests_cant": "Recursive structure, all combinations of optional fields.", "anchors": ["src/maus/models/anwendungshandbuch.py:DeepAnwendungshandbuchSchema", "src/maus/models/edifact_components.py:SegmentGroupSchema", "src/maus/models/edifact_components.py:SegmentSchema", "src/maus/models/edifact_components.py:DataElementSchema", "src/maus/models/edifact_components.py:_FreeTextOrValuePoolSchema"]}
{"id": "C46", "title": "Loading only produces valid objects", "statement": "Whatever JSON is loaded, the schema returns an object exactly if the JSON describes one (known keys only, required keys present, values of the right types, defaults for missing optional keys), and then it returns that object; every returned object satisfies all the validators of its class at every depth.", "quantifier": "all JSON values", "why_tests_cant": "Universal over untrusted input.", "anchors": ["src/maus/models/edifact_components.py:SegmentSchema", "src/maus/models/anwendungshandbuch.py:AhbLineSchema"]}
{"id": "C47", "title": "AhbLocation XML round trip", "statement": "from_xml_element(to_xml_element(l)) == l for every location with at least two layers and qualifiers that are None or non-empty without surrounding whitespace; other qualifiers come back stripped (blank ones as None); control characters in a qualifier raise ValueError; the whitespace layout of the document is irrelevant; reading raises AttributeError for every location with exactly one layer, and an empty list of locations cannot be read back.", "quantifier": "all AhbLocations", "why_tests_cant": "All layer counts and strings; single layer case is untested.", "anchors": ["src/maus/reader/ahb_location_xml.py:to_xml_element", "src/maus/reader/ahb_location_xml.py:from_xml_element", "src/maus/reader/ahb_location_xml.py:from_xml_elements"]}
{"id": "C48", "title": "Merging section headings", "statement": "merge_section_only_lines keeps all rows that are not headings, in order; each maximal run of headings before such a row becomes exactly one heading row; the result is never longer than the input and never contains two adjacent headings; headings at the end are dropped. It fails only if the index of a row behind a heading is missing or no integer.", "quantifier": "all row lists with an index column", "why_tests_cant": "Ranges over all row lists.", "anchors": ["src/maus/reader/flat_ahb_reader.py:FlatAhbCsvReader.merge_section_only_lines"]}
{"id": "C49", "title": "Separating value pool entry and name", "statement": "separate_value_pool_entry_and_name returns the two stripped inputs (blank ones as None), none invented or lost; if exactly one input is a value pool entry it comes first. If neither is, the second input is returned as if it were the entry.", "quantifier": "all pairs of optional strings", "why_tests_cant": "All pairs of strings.", "anchors": ["src/maus/reader/flat_ahb_reader.py:FlatAhbCsvReader.separate_value_pool_entry_and_name", "src/maus/reader/flat_ahb_reader.py:FlatAhbCsvReader._is_value_pool_entry"]}
{"id": "C50", "title": "Rows of the CSV reader", "statement": "The rows of the reader have strictly ascending indices, their section name is the closest preceding heading, and every row that is neither heading nor skipped appears; to_flat_ahb keeps exactly the rows that hold information, in order. A file can be read iff all columns are there, every row has a segment group cell and no expression is blank but not empty.", "quantifier": "all row lists", "why_tests_cant": "Ranges over all CSV files.", "anchors": ["src/maus/reader/flat_ahb_reader.py:FlatAhbCsvReader.__init__", "src/maus/reader/flat_ahb_reader.py:FlatAhbCsvReader.raw_ahb_row_to_ahbline", "src/maus/reader/flat_ahb_reader.py:FlatAhbCsvReader.to_flat_ahb"]}
{"id": "C51", "title": "Extraction of condition texts", "statement": "_extract_bedingungen of a text that lists conditions as '[key] text' returns exactly these keys with their stripped texts, later ones winning; the key '[..]' is not part of the text; more generally it returns every '[digits]' followed by text up to the next bracket. The condition texts of a reader are those of all its rows.", "quantifier": "all lists of keys and bracket-free texts", "why_tests_cant": "All strings.", "anchors": ["src/maus/reader/flat_ahb_reader.py:FlatAhbCsvReader._extract_bedingungen"]}
{"id": "C52", "title": "Expression column", "statement": "The reader uses the first column whose name consists of five digits; it raises ValueError iff none is given and no such column exists.", "quantifier": "all header rows", "why_tests_cant": "All header lists.", "anchors": ["src/maus/reader/flat_ahb_reader.py:FlatAhbCsvReader._get_name_of_expression_column", "src/maus/reader/flat_ahb_reader.py:FlatAhbCsvReader.get_raw_rows"]}
{"id": "C53", "title": "Nested qualifiers in MIG attributes", "statement": "get_nested_qualifiers returns the qualifiers of a reference 'CODE:n:m[q1|q2|...]' in order, None for strings of another shape; no qualifier returned for such a reference contains a separator.", "quantifier": "all attribute strings", "why_tests_cant": "Exact characterisation over all strings.", "anchors": ["src/maus/reader/etree_element_helpers.py:get_nested_qualifiers"]}
{"id": "C54", "title": "The MIG reader returns the described element", "statement": "If get_element returns, the element lies on a path whose classes carry the group keys of the location's layers, and it carries the data element id if one was given; it raises ValueError if nothing or more than one thing fits: in a document with one class '/' whose keys and refs can be read ValueError is raised exactly if no element is described by the location; without a class '/' it is always raised. The only other exceptions are IndexError (a key or ref ends with a separator) and UnboundLocalError (a location without layers).", "quantifier": "all XML trees and locations", "why_tests_cant": "Recursive trees of any shape.", "anchors": ["src/maus/reader/mig_xml_reader.py:MigXmlReader.get_element", "src/maus/reader/mig_xml_reader.py:MigXmlReader._get_candidate_index_from_key"]}
{"id": "C55", "title": "Stack of a MIG element", "statement": "element_to_edifact_stack has one level per element on the path below the root, groupable iff it is a class, named by the first present attribute of the documented priority; an element without any name attribute silently inherits the name of its parent.", "quantifier": "all XML trees and elements", "why_tests_cant": "Trees of any shape; the inherited name is untested.", "anchors": ["src/maus/reader/mig_xml_reader.py:MigXmlReader.element_to_edifact_stack"]}
{"id": "C56", "title": "Names are normalised idempotently", "statement": "make_name_comparable is idempotent; the result contains no space, dash, line feed or sharp s and is lower case; are_similar_names is an equivalence relation that ignores case, spaces, dashes and line feeds.", "quantifier": "all Unicode strings", "why_tests_cant": "All strings and triples of strings.", "anchors": ["src/maus/reader/mig_ahb_name_helpers.py:make_name_comparable", "src/maus/reader/mig_ahb_name_helpers.py:are_similar_names"]}
{"id": "C57", "title": "Tree normalisation touches names only", "statement": "make_tree_names_comparable changes only the values of name and ahbName attributes and keeps the shape of the tree, so paths into the sanitized and the original tree correspond.", "quantifier": "all XML trees", "why_tests_cant": "Recursive trees of any shape.", "anchors": ["src/maus/reader/mig_ahb_name_helpers.py:make_tree_names_comparable"]}
{"id": "C58", "title": "Division of a field name", "statement": "get_division returns GAS iff the lower-cased name contains 'gas', ELECTRICITY iff it contains 'strom' but not 'gas', else None; a name containing both is reported as definitely gas and definitely electricity.", "quantifier": "all strings", "why_tests_cant": "All Unicode strings.", "anchors": ["src/maus/division_helper.py:get_division", "src/maus/division_helper.py:is_gas_name", "src/maus/division_helper.py:is_electricity_name"]}
{"id": "C59", "title": "EDIFACT boilerplate", "statement": "is_edifact_boilerplate is True iff the code is missing, empty or UNT/UNZ up to surrounding whitespace.", "quantifier": "all optional strings", "why_tests_cant": "All strings.", "anchors": ["src/maus/edifact.py:is_edifact_boilerplate"]}
{"id": "C60", "title": "EdiMetaData is consistent", "statement": "An EdiMetaData instance exists only with a five digit pruefidentifikator not starting with 0 and the format that belongs to it; without an explicit format the belonging format is used.", "quantifier": "all strings and formats", "why_tests_cant": "All strings.", "anchors": ["src/maus/edifact.py:EdiMetaData", "src/maus/edifact.py:_check_that_pruefi_and_format_are_consistent"]}
{"id": "C61", "title": "File based provider", "statement": "get_maus returns None iff the file does not exist; it returns exactly the stored AHB for files written with the schema and raises for malformed files.", "quantifier": "all file system states", "why_tests_cant": "All file contents.", "anchors": ["src/maus/maus_provider.py:FileBasedMausProvider.get_maus"]}
{"id": "C62", "title": "CLI: exactly one of output and check", "statement": "The CLI aborts without writing anything unless exactly one of output path and check path is given; with a check path it never writes. Options naming missing or unreadable inputs, or an output that is a directory or unreadable, are rejected before anything is read or written; otherwise the command does what it documents.", "quantifier": "all option combinations, files and inputs", "why_tests_cant": "All file system states.", "anchors": ["src/maus/cli.py:main"]}
{"id": "C63", "title": "CLI: generated files pass the check", "statement": "A file written with the output option is accepted by the check option run on the same inputs, if every generated segment has a section name; a check succeeds only if the file holds the generated AHB up to line indices.", "quantifier": "all inputs for which the conversion returns", "why_tests_cant": "Composition over all inputs.", "anchors": ["src/maus/cli.py:main"]}
{"id": "C64", "title": "Value pool replacement is schedule independent", "statement": "If the conversion back reads the EDIFACT data before its first suspension (after that it may work on copies of its own), and the conversion to EDIFACT data works on objects that it has created itself (suspending itself at any moment), generate_value_pool_replacement maps each qualifier of the pool to the application value obtained from the initial data with that qualifier set, for every interleaving of the concurrent conversions; later suspensions do not matter.", "quantifier": "all schedules, pools and converters", "why_tests_cant": "All interleavings of unboundedly many tasks.", "anchors": ["src/maus/transformation.py:generate_value_pool_replacement"]}
{"id": "C65", "title": "Value pool replacement races", "statement": "If the converter suspends before reading, all conversions share one mutable object and there is a pool for which under the schedule asyncio uses every qualifier is mapped to the value of the last one.", "quantifier": "schedules", "why_tests_cant": "Needs the interleaving semantics.", "anchors": ["src/maus/transformation.py:generate_value_pool_replacement"]}
{"id": "C66", "title": "Shape of a value pool replacement", "statement": "The keys of the mapping are the qualifiers of the pool plus the initial value (if any); the values of the pool override the initial value; ValueError if the discriminator is not in the path mapping; the EDIFACT data object is left with one of the qualifiers of the pool set (see C64).", "quantifier": "all pools, converters and schedules", "why_tests_cant": "All pools and schedules.", "anchors": ["src/maus/transformation.py:generate_value_pool_replacement"]}
{"id": "C67", "title": "transform_all_value_pools", "statement": "With a converter that reads before suspending, for every schedule the pools of the AHB with a relevant discriminator (first one per discriminator) are renamed by their own replacement and nothing else in the AHB is changed. Tasks go on after an exception: when everything has run, the AHB is the same for every schedule, and so is whether there was an exception.", "quantifier": "all deep AHBs and schedules", "why_tests_cant": "All interleavings over all AHBs.", "anchors": ["src/maus/transformation.py:transform_all_value_pools"]}
{"id": "C68", "title": "Neighbouring group borders", "statement": "_is_opening_segment_line_border is True exactly if the section names differ, the next line has no segment code, the next segment is the opening segment, and this line has a segment code; the comparison of the next line with the opening segment never contributes.", "quantifier": "all pairs of lines", "why_tests_cant": "All combinations of optional strings.", "anchors": ["src/maus/navigation.py:_is_opening_segment_line_border"]}
{"id": "C69", "title": "Names and keys of single MIG elements", "statement": "get_segment_group_key_or_none returns the ref attribute of an element exactly if it starts with SG and None otherwise; get_ahb_name_or_none returns the ahbName attribute exactly as it is and None iff there is none.", "quantifier": "all XML elements", "why_tests_cant": "All attribute dictionaries.", "anchors": ["src/maus/reader/etree_element_helpers.py:get_segment_group_key_or_none", "src/maus/reader/etree_element_helpers.py:get_ahb_name_or_none"]}
{"id": "C70", "title": "Generated deep AHBs are valid", "statement": "Every deep AHB that to_deep_ahb returns for a valid flat AHB satisfies all validators of its groups, segments, data elements and value pool entries, every data element has a type, and it is complete (can be stored and read back) iff all its segments have section names.", "quantifier": "all valid flat AHBs, hierarchies and MIG readers", "why_tests_cant": "Composition over all inputs.", "anchors": ["src/maus/mig_ahb_matching.py:to_deep_ahb"]}
{"id": "C71", "title": "Order of JSON keys", "statement": "Loading a hierarchy, a flat AHB or a deep AHB does not depend on the order of the keys of JSON objects at any depth; sorting the keys of a dumped AHB changes nothing but their order.", "quantifier": "all JSON values, all reorderings", "why_tests_cant": "All permutations at all depths.", "anchors": ["src/maus/models/anwendungshandbuch.py:DeepAnwendungshandbuchSchema", "src/maus/cli.py:main"]}
{"id": "C72", "title": "JSON texts", "statement": "A text is read as a JSON value exactly if the JSON grammar (as Python reads it: NaN and Infinity allowed, control characters in strings forbidden, the last value of a repeated key wins) derives that value from it; every other text raises a ValueError (JSONDecodeError); no text has two readings. The text written for an AHB is read back as the same value with its keys in ascending order, and does not depend on the order in which keys have been set; every item of an object or list is on lines of its own, indented by two spaces per level, and only quotes, backslashes and control characters are escaped.", "quantifier": "all texts and all JSON values without floats for writing", "why_tests_cant": "All Unicode texts.", "anchors": ["src/maus/cli.py:main", "src/maus/maus_provider.py:FileBasedMausProvider.get_maus"]}
{"id": "C73", "title": "Text files", "statement": "A JSON file is read exactly if its bytes are the UTF-8 encoding of a JSON text, whatever its line ends; everything else is a ValueError. Writing fails, with a ValueError, exactly if a string contains a surrogate; what has been written is read back.", "quantifier": "all byte sequences and all JSON values", "why_tests_cant": "All byte sequences.", "anchors": ["src/maus/cli.py:main", "src/maus/maus_provider.py:FileBasedMausProvider.get_maus"]}
{"id": "C74", "title": "The command line tool and the provider on text files", "statement": "The tool writes a UTF-8 JSON text of the generated AHB with ascending keys, in the documented layout, unless some string contains a surrogate; then it raises and the previous content of the file is lost. The provider finds what has been written, the check accepts it, and two AHBs lead to the same bytes exactly if they are equal up to line indices.", "quantifier": "all file contents and inputs", "why_tests_cant": "Composition over all byte sequences.", "anchors": ["src/maus/cli.py:main", "src/maus/maus_provider.py:FileBasedMausProvider.get_maus"]}
{"id": "C75", "title": "Integers and UUIDs given as texts", "statement": "A text is accepted for an integer field exactly if it is an optional sign and decimal digits of any script with single underscores between them, surrounded by whitespace (not the ASCII separators); a text is accepted for a guid exactly if, without 'urn:', 'uuid:', surrounding braces and dashes, 32 characters remain that are a hexadecimal number; the loaded number is the one the digits stand for, everything else is a ValidationError, and what Python prints is read back.", "quantifier": "all texts", "why_tests_cant": "All Unicode texts.", "anchors": ["src/maus/models/anwendungshandbuch.py:AhbLineSchema", "src/maus/reader/flat_ahb_reader.py:FlatAhbCsvReader.merge_section_only_lines"]}
{"id": "C76", "title": "What a deep AHB contains comes from the flat AHB and vice versa", "statement": "Every expression of a deep AHB that to_deep_ahb returns is the expression of a line of the flat AHB (stripped, for segment groups); every value pool entry is a line of the same data element; section names and indices of segments are those of lines; and every line of a data element with a segment code and a non-empty expression ends up in the deep AHB, as a value pool entry or in a free text of this data element.", "quantifier": "all flat AHBs, hierarchies and MIG readers for which the call returns", "why_tests_cant": "No test can rule out that some arrangement of lines loses or invents information.", "anchors": ["src/maus/mig_ahb_matching.py:to_deep_ahb", "src/maus/mig_ahb_matching.py:merge_lines_with_same_data_element"]}
{"id": "C77", "title": "CSV files are read like tables", "statement": "Reading a flat AHB from a CSV file finds exactly the cells that are written in the file: cells may be quoted (then they may hold delimiters, quotes and line ends), empty lines are skipped, the first row names the columns, the last of several columns with the same name wins and missing cells are None. Every text is a table in exactly one way, so that only undecodable bytes and cells above the size limit are errors of the file format. Tables written with quotes come back unchanged. A byte order mark breaks the index column; a missing closing quote silently swallows the rest of the file.", "quantifier": "all byte sequences, delimiters (neither quote nor line end), size limits and encodings", "why_tests_cant": "All texts; quoting interacts with line ends, delimiters and the end of the file in unboundedly many ways.", "anchors": ["src/maus/reader/flat_ahb_reader.py:FlatAhbCsvReader.__init__", "src/maus/reader/flat_ahb_reader.py:FlatAhbCsvReader.get_raw_rows", "src/maus/reader/flat_ahb_reader.py:check_file_can_be_parsed_as_ahb_csv"]}
{"id": "C78", "title": "Which texts are .tree files", "statement": "read_tree accepts a string iff, apart from whitespace at both ends, it is /: followed by lines separated by single line feeds, each made of an optional group key (SG with a number, UNH, UNB), an optional colon, a segment and comma separated segments and group references; it returns the text without the whitespace around it. Whether a text is accepted is decided line by line; no whitespace is accepted inside of lines. All other strings raise a LarkError, files that are not UTF-8 a ValueError; files may have any line ends. Reading what was read changes nothing. Whitespace is not ignored inside of the tree, references to groups without a line are accepted, a byte order mark is an error, and a missing bracket makes the number of attempts exponential.", "quantifier": "all strings and byte sequences", "why_tests_cant": "All texts of an infinite language; a backtracking matcher might stop too early on some of them.", "anchors": ["src/maus/reader/tree_to_sgh.py:GRAMMAR", "src/maus/reader/tree_to_sgh.py:read_tree", "src/maus/reader/tree_to_sgh.py:check_file_can_be_parsed_as_tree"]}
{"id": "C79", "title": "Which .tree file of a directory is checked", "statement": "check_youngest_tree_is_parseable returns if there is no directory or no entry whose name ends with .tree, raises a ValueError for a file, and otherwise checks exactly the entry with the last name in code point order, in whatever order the directory lists its entries. This is not the youngest version: 1.9 comes after 1.10.", "quantifier": "all directories with distinct names", "why_tests_cant": "All directory contents and listing orders.", "anchors": ["src/maus/reader/tree_to_sgh.py:check_youngest_tree_is_parseable"]}
{"id": "C80", "title": "No history of updates damages a deep AHB", "statement": "Whatever sequence of calls a user makes on a valid deep AHB - resetting indexes, replacing inputs, replacing value pools at any position with any mapping (also if this raises half way, and with functions that have a memory or raise exceptions themselves), dumping and loading, transforming all value pools under any schedule and at any moment - the AHB stays valid, keeps its meta data, groups, segments, data elements with their discriminators, ids, types and expressions, never gets new indexes, holds the same expressions, and can be stored and read back if it could before.", "quantifier": "all valid deep AHBs and all finite sequences of updates", "why_tests_cant": "All histories, including partial failures and all schedules.", "anchors": ["src/maus/models/anwendungshandbuch.py:DeepAnwendungshandbuch.replace_inputs_based_on_discriminator", "src/maus/models/anwendungshandbuch.py:DeepAnwendungshandbuch.reset_ahb_line_index", "src/maus/models/edifact_components.py:DataElementValuePool.replace_value_pool", "src/maus/transformation.py:transform_all_value_pools"]}
{"id": "C81", "title": "XML texts are read as the XML grammar says", "statement": "from_xml_element and from_xml_elements of a str read exactly the XML documents: a text is read iff it follows the grammar of XML 1.0 (declaration, comments, processing instructions, CDATA, references, attributes, nested elements, normalised line ends), it has one reading only and is then read like the element it stands for; every other text is rejected with an ExpatError (lone surrogates with a ValueError) before anything is built. What etree.tostring writes is an ASCII document of the element it was given, so an element and its text are read alike and valid locations with at least two layers and trimmed qualifiers survive as texts, one by one and in lists.", "quantifier": "all texts, all elements and all valid locations; all classifications of non-ASCII name characters and XML declarations", "why_tests_cant": "Texts of any length and nesting depth, any characters.", "anchors": ["src/maus/reader/ahb_location_xml.py:from_xml_element", "src/maus/reader/ahb_location_xml.py:from_xml_elements", "src/maus/reader/ahb_location_xml.py:to_xml_element", "src/maus/reader/ahb_location_xml.py:to_xml_elements"]}
{"id": "C82", "title": "Which XML elements are AHB locations", "statement": "from_xml_element accepts exactly the elements ahbLocation with one child layers that has at least two children ahbLocationLayer (other children and attributes of layers are ignored), optional children segment_code, data_element_id and qualifier, each at most once, in any order, and with no other attribute, text or child. Each layer has exactly the children segment_group_key, opening_segment_code and opening_qualifier. A field marked with an attribute ns...:nil=\"true\" is None whatever it contains, any other field must have neither attributes nor children and stands for its trimmed text. The fields must be valid. The result is determined by the element. from_xml_elements accepts exactly the elements ahbLocations with at least one such child, in order. The same holds for texts that are XML documents. Everything else is rejected with KeyError, TypeError, AttributeError or ValueError.", "quantifier": "all XML elements, and all texts without document type declaration", "why_tests_cant": "Infinitely many elements, orders of children, attributes and texts; the tests read a few documents that the library itself wrote.", "anchors": ["src/maus/reader/ahb_location_xml.py:from_xml_element", "src/maus/reader/ahb_location_xml.py:from_xml_elements", "src/maus/reader/ahb_location_xml.py:_xml_dict_to_location", "src/maus/reader/ahb_location_xml.py:_replace_nil_element_with_none"]}
{"id": "C83", "title": "The layout of a MIG XML document is irrelevant", "statement": "A MigXmlReader made of a text is a reader of the element tree the text stands for, a reader of a file one of the text in the file. Two documents with the same tags, attributes and nesting (whatever their indentation, comments, character data, quotes, references and order of attributes) give the same format name, the same element and the same stack (or error) for every location, and the same deep AHB for every flat AHB. check_file_can_be_parsed_as_mig_xml passes exactly the files that are XML documents whose root element is named like an EdifactFormat; other roots raise ValueError, other texts an XMLSyntaxError, missing files an OSError.", "quantifier": "all pairs of XML documents with the same structure, all locations, all flat AHBs", "why_tests_cant": "Infinitely many layouts of the same document; the tests read a few files.", "anchors": ["src/maus/reader/mig_xml_reader.py:MigXmlReader.__init__", "src/maus/reader/mig_xml_reader.py:check_file_can_be_parsed_as_mig_xml", "src/maus/reader/mig_xml_reader.py:MigXmlReader.get_edifact_stack", "src/maus/reader/mig_xml_reader.py:MigXmlReader.get_element"]}
{"id": "C84", "title": "The layout of input files is irrelevant to the tool", "statement": "Two runs of the command line tool whose flat AHB and hierarchy files hold the same JSON value (in any layout, with any escapes, line ends and order of keys) and whose templates have the same tags and attributes (in any layout, with any texts, comments and order of attributes) end in the same way and write the same bytes; checks end in the same way, also if the checked file is laid out differently; the provider finds the same AHB; running the tool again changes nothing.", "quantifier": "all pairs of file systems with such files", "why_tests_cant": "Ranges over all texts of the same values; crosses JSON, XML, the conversion and the writer.", "anchors": ["src/maus/cli.py:main", "src/maus/maus_provider.py:FileBasedMausProvider.get_maus", "src/maus/reader/mig_xml_reader.py:MigXmlReader", "src/maus/mig_ahb_matching.py:to_deep_ahb"]}
{"id": "C85", "title": "From CSV files to checked maus files", "statement": "A flat AHB read from a CSV file is valid; stored as JSON (in any layout) and given to the tool together with a stored hierarchy, it leads to exactly the deep AHB that to_deep_ahb makes of it directly; if the CSV file begins with a section heading and no heading is blank, the written file passes the check and the provider finds the AHB up to line indices. Without a heading at the beginning the written file cannot be read by the tool itself.", "quantifier": "all CSV files, hierarchies, templates and file systems", "why_tests_cant": "End to end composition of readers, schemas, conversion, writer and check.", "anchors": ["src/maus/reader/flat_ahb_reader.py:FlatAhbCsvReader", "src/maus/cli.py:main", "src/maus/maus_provider.py:FileBasedMausProvider.get_maus", "src/maus/models/anwendungshandbuch.py:FlatAnwendungshandbuchSchema"]}
{"id": "C86", "title": "When a flat AHB can be converted", "statement": "to_deep_ahb returns a deep AHB exactly if (1) the locations of the lines can be determined, (2) every run of lines at the same place that is shown can be shown: the MIG reader answers or raises ValueError for it, data elements can be merged, segments have a code and a non-blank expression, lines that open a group have a non-blank expression, and (3) there is a way through the runs: the first segment opens the group $[\"Dokument\"][0][\"Nachricht\"][0], and each later group is reached from the place before by leaving no more groups than one is in and entering at most one group more than have been left. This way determines the depth of every group of the result. The first group is the one of the message.", "quantifier": "all flat AHBs, hierarchies and MIG readers", "why_tests_cant": "Exact success condition over all inputs and all MIG readers; tests show single successes.", "anchors": ["src/maus/mig_ahb_matching.py:to_deep_ahb"]}
{"id": "C87", "title": "The deep AHB is determined by its description", "statement": "A deep AHB is the result of to_deep_ahb exactly if the conditions of C86 hold, its groups have the depths of the way through the runs, its groups and segments are, in document order, made of the sections of the flat AHB as described in C38 to C40, its discriminators are unique, every group has a list of subgroups, and its meta information is the one of the flat AHB with the version of maus. There is no other deep AHB with this description.", "quantifier": "all flat AHBs, hierarchies, MIG readers and deep AHBs", "why_tests_cant": "Complete specification: equality with the result for all inputs.", "anchors": ["src/maus/mig_ahb_matching.py:to_deep_ahb"]}
{"id": "C88", "title": "The published JSON schema and the documents of the library", "statement": "json_schemas/DeepAnwendungshandbuchSchema.json (JSON Schema draft 7) is meant to describe the JSON documents of deep AHBs. No document that the library writes conforms to it: the meta information always has more keys than it allows. A document that the library reads conforms to it exactly if its meta information has only the Pruefidentifikator and no segment has data elements or a segment id; so an AHB that is read from a conforming document has no data elements at all.", "quantifier": "all deep AHBs, all JSON values", "why_tests_cant": "The schema is checked against no document in the tests; the statement is about every document that can be written or read.", "anchors": ["json_schemas/DeepAnwendungshandbuchSchema.json:definitions", "src/maus/models/anwendungshandbuch.py:DeepAnwendungshandbuchSchema", "json_schemas/generate_json_schemas.py:json_schema"]}
{"id": "C89", "title": "The locations of the lines are completely determined", "statement": "For a segment group hierarchy whose keys are distinct, whose root has no key and whose names have the required format, and for lines that never enter a group without being inside its parent: determine_locations returns r if and only if the lines have the required format and r is the list of the lines in order, each with this location: not pseudo; the data element and value pool entry of the line; the first segment code at or behind the line; and one layer for every group from the message down to the group of the line. The layer of a group carries the segment code and the value pool entry that come next where this group has been entered last; the layer of the message, as long as the message has not been re-entered, carries the opening segment of the hierarchy and the first value pool entry of the file. Consequently two lines inside a common group share all outer layers down to this group unless one of these groups has been entered in between.", "quantifier": "all hierarchies with distinct well-formed keys and all disciplined lists of lines of any length", "why_tests_cant": "the layers of a line depend on the whole history of the lines before it and on look-ahead behind the position at which each group has been entered", "anchors": ["src/maus/navigation.py:determine_locations", "src/maus/navigation.py:determine_hierarchy_changes", "src/maus/navigation.py:_enhance_with_next_segment", "src/maus/navigation.py:_enhance_with_next_value_pool_entry"]}
{"id": "C90", "title": "Failures are reported with a documented exception at the first offending line", "statement": "For a hierarchy whose keys are distinct, whose root has no key and whose names have the required format, and for lines that never enter a group without being inside its parent: determine_locations raises e if and only if some line does not have the required format, and e is determined by the first such line: TypeError if a group is entered there and no segment code follows (in the first line: provided the next value pool entry is a qualifier), ValueError otherwise. For any hierarchy and any lines, determine_locations raises nothing but ValueError, TypeError, AttributeError and IndexError, and to_deep_ahb raises nothing but these, AssertionError, UnboundLocalError and exceptions of the MIG reader other than ValueError; once the locations are determined, IndexError comes from the MIG reader only.", "quantifier": "all hierarchies, flat AHBs of any length, and MIG readers (arbitrary functions of the location that may raise)", "why_tests_cant": "a caller has to know every exception that may reach them and which line is the reason; tests show single exceptions, not that there are no others", "anchors": ["src/maus/navigation.py:determine_locations", "src/maus/mig_ahb_matching.py:to_deep_ahb", "src/maus/mig_ahb_matching.py:merge_lines_with_same_data_element"]}
{"id": "C91", "title": "An interrupted run of the command line tool damages nothing but its output file, and that noticeably", "statement": "Wherever a run is stopped (between any two of: checking the options, reading each of the three files, converting, comparing, opening the output file, writing any number of bytes, closing): every file is as it was, except that the file of --output_path may hold a beginning of what the undisturbed run writes. The file provider then finds in it what was there before, what the undisturbed run leaves there, or raises a ValueError, but never returns another AHB. If the output is not one of the inputs, repeating the run has the result and leaves the files of a run that has never been interrupted. A run that is not stopped gets to its end, with the result and the files of main. (The old content is not kept: it is lost when the file is opened.)", "quantifier": "all contents of the file system, options, points of interruption and divisions of the written bytes", "why_tests_cant": "a test cannot stop the program after every system call for every input", "anchors": ["src/maus/cli.py:main", "src/maus/maus_provider.py:FileBasedMausProvider.get_maus"]}
{"id": "C92", "title": "Simultaneous runs of the command line tool", "statement": "For any number of runs at the same time such that no run reads the output of another and runs with the same output path generate the same AHB, and for every schedule of their steps: every run has the result it has on its own; when all have finished, results and files are as if they had been started one after the other, in any order; and at any moment the provider finds in every file what was there before, what one of the runs leaves there on its own, or raises a ValueError. Both conditions are necessary: two runs with different AHBs for the same file may both succeed and leave a file that is no AHB, and a check of a file that is just being written may fail although it succeeds before and after.", "quantifier": "all contents of the file system, numbers of runs, options and interleavings of their steps", "why_tests_cant": "the schedules cannot be enumerated or provoked by tests", "anchors": ["src/maus/cli.py:main", "src/maus/maus_provider.py:FileBasedMausProvider.get_maus"]}
{"id": "C93", "title": "Unpacking virtual groups", "statement": "_unpack_virtual_groups keeps the root and every element of the document, once, with attributes and text, except for virtual groups (class elements with meta.virtual=\"true\"). If no virtual group is directly inside of another one, no virtual group is left below the root; a document without virtual groups is not changed; a group that is the only child is replaced by its children in their order, as documented. In other places the order is not kept: the children of a group that follows an element come in reverse order in front of this element, those of a first child come in front of the last child; and a group directly inside a group is left. In general, for any number of groups anywhere, the result is the one obtained top down by unpacking the groups that are originally among the children of an element one after the other in this way (not those that move there from inside a group), and then the groups in each child the element has then.", "quantifier": "all element trees", "why_tests_cant": "Trees of any depth and width, changed while they are traversed; the method has no tests and is not called at this commit.", "anchors": ["src/maus/reader/mig_xml_reader.py:MigXmlReader._unpack_virtual_groups"]}
{"id": "C94", "title": "Replacing inputs with a function that has a memory or raises", "statement": "replace_inputs_based_on_discriminator with any function - one that counts its calls, answers differently each time, or raises an exception - asks for the discriminators of the data elements one after the other (inner groups before the segments of a group), once per data element that has one, and sets the inputs it was told at once. An exception stops it, is passed on, and leaves the replacements made before; nothing but inputs is ever changed. With fixed answers the call can be repeated after an exception and then has the same result as if nothing had happened. It is not all or nothing.", "quantifier": "all deep AHBs, all functions with all memories and all exceptions at any call", "why_tests_cant": "Every interruption point and every history of answers; the tests use functions without state.", "anchors": ["src/maus/models/anwendungshandbuch.py:DeepAnwendungshandbuch.replace_inputs_based_on_discriminator"]}
{"id": "C95", "title": "Finding groups and segments with predicates that have a memory or raise", "statement": "find_segment_groups and find_segments call the predicates in a fixed order that does not depend on the answers (except that segments are only asked for in groups that have been found, and in the outermost lines): for every line first its nested groups in document order, then the line and its nested groups again. The result consists of what was answered with True, without repetitions of equal groups; the first exception ends the call and is passed on. A predicate may thus be asked several times for the same group.", "quantifier": "all deep AHBs, all predicates with all memories and all exceptions at any call", "why_tests_cant": "Every interruption point and every history of answers.", "anchors": ["src/maus/models/anwendungshandbuch.py:DeepAnwendungshandbuch.find_segment_groups", "src/maus/models/anwendungshandbuch.py:DeepAnwendungshandbuch.find_segments"]}
{"id": "C96", "title": "Replacing value pools with a merger that has a memory or raises", "statement": "replace_value_pool asks the merger once for every mapped qualifier of the pool, in the order of first occurrences, with the meaning of the last entry of this qualifier, until it raises or until a qualifier is mapped to something invalid (which is checked after the merger has been asked). Without an exception of the merger the result is that of a merger without memory that gives the same answers; after one the pool is as if only the qualifiers before had been mapped. It is not all or nothing.", "quantifier": "all value pools, mappings, and mergers with all memories and all exceptions at any call", "why_tests_cant": "Every interruption point and every history of answers.", "anchors": ["src/maus/models/edifact_components.py:DataElementValuePool.replace_value_pool"]}
{"id": "C97", "title": "Equality of objects", "statement": "Two lines, locations, stack levels, meta informations, groups, segments, data elements, value pool entries or deep AHBs compare equal exactly if they have the same class and all their fields are equal, at any depth. So 'equal' in the other properties (round trips, the check of the command line tool, groups that are not added twice) means that nothing differs.", "quantifier": "all pairs of objects", "why_tests_cant": "All combinations of field values; a field that is forgotten in a comparison is only noticed by objects that differ in this field alone.", "anchors": ["src/maus/models/anwendungshandbuch.py:AhbLine", "src/maus/models/anwendungshandbuch.py:DeepAnwendungshandbuch", "src/maus/models/edifact_components.py:SegmentGroup", "src/maus/models/edifact_components.py:EdifactStackLevel", "src/maus/navigation.py:AhbLocation"]}
{"id": "C98", "title": "Letters, digits and whitespace", "statement": "Where the library asks for letters it accepts exactly A to Z (segment codes) or A to Z and a to z (data elements), no umlauts or other alphabets. Where it asks for digits it accepts the decimal digits of all scripts, with their value. Whitespace around segment codes and whitespace that is no information are the Unicode whitespace characters. Locations can be written as XML exactly if the qualifier consists of characters of XML 1.0. A single ASCII character is taken for a value pool entry unless it is a small letter; names are compared without regard to the case of letters, umlauts and accented letters included.", "quantifier": "all characters of Unicode (single characters: ASCII; case: ASCII and Western European letters)", "why_tests_cant": "More than a million characters at every place of a text.", "anchors": ["src/maus/models/anwendungshandbuch.py:FlatAnwendungshandbuch", "src/maus/models/anwendungshandbuch.py:AhbLine.holds_any_information", "src/maus/edifact.py:is_edifact_boilerplate", "src/maus/reader/ahb_location_xml.py:to_xml_element", "src/maus/reader/flat_ahb_reader.py:FlatAhbCsvReader._is_value_pool_entry", "src/maus/reader/mig_ahb_name_helpers.py:make_name_comparable"]}
