# Design of the formal model

## 1. Method

`/verif/rocq/theories` contains a shallow, executable Gallina model of
`/repo/src/maus`.  Each Python function is one Gallina definition with the same
control flow (one branch per Python branch, loops as structural recursion or
folds over the list the Python loop ranges over).  Exceptions are values of a
result type.  Mutation is modelled by returning the new value; where aliasing is
observable (the list references of `to_deep_ahb`, the shared EDIFACT object in
`transformation.py`, the shared meta object) an explicit heap or store is used.

| prefix  | content |
|---------|---------|
| `Py*`   | Python semantics: result monad, strings, Unicode tables (generated), regular expressions, stable sort |
| `M_*`   | the model, function by function; each definition cites file and lines; no proofs |
| `S_*`   | specifications: declarative notions (prefix, preorder, occurs-in, path in a tree ...) that do not mention the model's helper functions |
| `L_*`   | lemmas |
| `C_*`   | the property theorems `Cnn_*`, each with `Print Assumptions` and a concrete instance (`Example`) |

Theorem names: `Cnn_...` belongs to property Cnn of `properties.jsonl`.
`..._refuted` proves by an explicit witness that a stronger, natural reading is
false of the code.  `..._partial` would prove a part only; there is none at the
moment.  Quantification is always over all inputs: no sizes, depths or numbers
of steps are bounded.  Libraries and callbacks whose behaviour is up to somebody
else (MIG readers, converters, predicates, efoli, etree.parse) are arbitrary
functions: Section variables or parameters, with what is assumed of them, if
anything, spelled out as a hypothesis of the theorem.

## 2. Python semantics used

* `str` = list of code points (`list N`).  `\d`, `\s`, `\w`, `str.strip`,
  `str.lower`, `str.upper(c) == c` follow the Unicode tables of CPython 3.11
  (Unicode 14); `PyUni.v` is generated by `tools/gen_unicode.py`.
* Regular expressions are an AST with a backtracking list-of-successes matcher
  in priority order (`re.match` = first success, `re.fullmatch` = first success
  that consumes everything, `finditer` = leftmost non-overlapping).  `$` matches
  at the end and before a trailing line feed.
* attrs: constructors run validators in field order; assignments to fields of
  mutable classes run the validator of this field.
* marshmallow 3.22: `load` rejects unknown keys, missing required keys, `null`
  unless `allow_none` (implied by `load_default=None`); ValidationErrors of
  fields are collected, any other exception leaves at once.
* `json`: the scanner and the encoder of the standard library (`M_JsonText.v`).
* xmltodict 0.13 on element trees (`M_Xml.v`), expat 2.6 and `etree.tostring` on texts (`M_XmlText.v`); the XPath subset of
  `mig_xml_reader.py` (`M_MigXml.v`).
* more_itertools: `first/last/one` raise ValueError on empty input.
* asyncio: a task runs without interruption until it suspends itself; the
  scheduler may then resume any task that is ready.  Theorems quantify over all
  schedules, not only the FIFO one of CPython.
* Exceptions carry their class, not their message.
* Not modelled: the limit of 4300 digits of `int(str)`, the recursion limit,
  memory errors, signals.

## 3. What is modelled and what is not

| file in `/repo/src/maus` | modelled in | not modelled |
|---|---|---|
| `models/edifact_components.py` | `M_Components.v`, `M_Callbacks.v` (mergers with a memory or exceptions), `M_Schema.v` | `gabi_edifact_qualifier_pattern` is modelled; docstrings and the abstract base class `DataElement` have no behaviour |
| `models/anwendungshandbuch.py` | `M_Ahb.v`, `M_Callbacks.v` (predicates and replacement functions with a memory or exceptions), `M_Schema.v` | the functions of the user do not change the AHB they are called for |
| `models/message_implementation_guide.py` | `M_Sgh.v`, `M_Schema.v` | |
| `navigation.py` | `M_Navigation.v` | logging |
| `mig_ahb_matching.py` | `M_Matching.v` | |
| `reader/ahb_location_xml.py` | `M_LocationXml.v`, `M_Xml.v`, `M_XmlText.v` | documents with a document type declaration, the content of XML declarations and the classes of non-ASCII name characters are parameters; namespaces; tails of elements |
| `reader/flat_ahb_reader.py` with `csv.reader`, `csv.DictReader` | `M_CsvReader.v`, `M_CsvText.v` | encodings other than UTF-8 (an arbitrary function from bytes to texts); delimiters of more than one character (the `csv` module rejects them); cells beyond the header |
| `reader/mig_xml_reader.py`, `reader/etree_element_helpers.py`, `reader/mig_ahb_name_helpers.py` | `M_MigXml.v`, `M_MigFile.v` (texts and files), `M_Virtual.v` (`_unpack_virtual_groups`, never called at this commit) | documents that use namespaces or have a document type declaration, the limits of libxml2, the decoding of files and the values of `EdifactFormat` are parameters |
| `reader/mig_reader.py` | arbitrary function in `M_Matching.v` | abstract methods |
| `reader/tree_to_sgh.py` with the parts of lark 1.2.2 it uses | `M_Tree.v` | the messages of parse errors; permissions and links in the file system |
| `edifact.py`, `division_helper.py` | `M_Misc.v` | `efoli` (arbitrary function) |
| `maus_provider.py`, `cli.py` | `M_Cli.v`, `M_JsonText.v` (texts and bytes), `M_Runs.v` (steps of a run) | coloured output, `--version`, `--help`; encodings other than UTF-8 |
| `transformation.py` | `M_Transformation.v` | the abstract classes are arbitrary functions |

`json_schemas/DeepAnwendungshandbuchSchema.json` is in `M_JsonSchema.v`, character by character; the script that writes it (`marshmallow_jsonschema`), `tests/` and `docs/` are not modelled.

Simplifications, also noted at the definitions:

* A JSON float is represented by the result of `int(x)`, the only thing a schema
  does with it.
* Application data are immutable.  The conversion to EDIFACT data works on objects
  it has created itself; the theorems that need more say so in their hypotheses
  (`creates`, `reads_before_suspending`, `overwrites`).
* Reading floats is an arbitrary function of their text; floats are never written.
  What a file holds after an encoding error is an arbitrary function of the text.
* Paths in the file system are resolved, so that different paths are different
  files.

The models of the standard library (`json`, `csv`, `re`, `str`, UTF-8 and the
XML texts) were also extracted to OCaml outside this repository and compared with
CPython 3.11 on several hundred thousand random texts, without a difference.  This
is a test of the model, not part of the proofs.

`tools/gen_tests.py` reads the project's own unit tests as text and turns their
arguments and expected values into the examples in `T_*.v` (the example AHB 11042
with its locations and changes of hierarchy, the CSV file 11042.csv, the .tree file,
the MIG templates and the parametrized cases; about 290 examples).  The kernel
evaluates the model on them; the model passes all.  These files are tests of the
model, no property depends on them.  Left out are the unit tests that need
dictionaries behind JSONPath (test_transformation.py) or a directory
(test_maus_provider.py) and the comparisons of whole flat AHBs.  `T_Real11042.v`
shows that the example AHB meets the hypotheses of the theorems about locations and
the deep AHB.

## 4. Properties, proofs and theorems

98 properties, 426 theorems.

| id | property | modelled | proof | theorems |
|----|----------|----------|-------|----------|
| C01 | EdifactStack JSON path round trip | `EdifactStack.to_json_path`, `from_json_path`, `_level_pattern` with `finditer` | scan lemma per level, induction over the levels; witnesses for the bad domain | `C01_round_trip`, `C01_parsed_stacks_are_readable`, `C01_parsed_round_trip`, `C01_round_trip_of_empty_name_refuted`, `C01_round_trip_of_bracket_refuted`, `C01_round_trip_of_negative_index_refuted`, `C01_round_trip_of_all_stacks_refuted`, `C01_domain_is_maximal` |
| C02 | JSON paths identify stacks | as C01 | C01 and injectivity of the printer | `C02_same_path_iff`, `C02_reprinting`, `C02_explicit_indices_do_not_matter`, `C02_path_identifies_any_stack_refuted` |
| C03 | Sub stack relation is the prefix order | `is_sub_stack_of`, `is_parent_of` | induction over the zip; prefix order | `C03_sub_stack_is_prefix`, `C03_sub_stack_partial_order` |
| C04 | Sub location relation is the prefix order | `is_sub_location_of`, `is_parent_of` | as C03 | `C04_sub_location_is_prefix` |
| C05 | Common ancestor is the longest common prefix | `find_common_ancestor` | longest common prefix, induction | `C05_common_ancestor`, `C05_common_ancestor_pseudo` |
| C06 | Distance between locations | `calculate_distance` | C05 and arithmetic | `C06_distance`, `C06_distance_zero` |
| C07 | Flattened hierarchy is the preorder | `flattened` | nested induction over the tree | `C07_flattened_is_preorder` |
| C08 | is_hierarchically_below means proper descendant | `is_hierarchically_below` | nested induction | `C08_is_hierarchically_below` |
| C09 | sg_is_hierarchically_below means ancestor relation | `sg_is_hierarchically_below` | nested induction; counterexample for repeated keys | `C09_sg_is_hierarchically_below`, `C09_strict_partial_order`, `C09_order_needs_distinct_keys_refuted` |
| C10 | Pseudo location is the root path | `_construct_pseudo_location`, `_find_common_ancestor_from_sgh` | nested induction, longest common prefix of root paths | `C10_pseudo_location`, `C10_common_ancestor_from_hierarchy` |
| C11 | Common ancestor lookup of unknown keys | `_find_common_ancestor_from_sgh` | case analysis, witness | `C11_unknown_keys`, `C11_unknown_key_is_value_error_refuted` |
| C12 | Look-ahead of segment codes and qualifiers | the look-ahead loops | induction over the lines from the end | `C12_next_segment`, `C12_next_value_pool_entry`, `C12_next_is_unique` |
| C13 | Locations are returned line by line | `determine_hierarchy_changes`, `determine_locations` | loop invariant over the lines | `C13_changes_line_by_line`, `C13_locations_line_by_line` |
| C14 | A location describes its own line | as C13 | loop invariant | `C14_location_of_its_line`, `C14_last_layer`, `C14_last_layer_refuted` |
| C15 | Location layers follow the hierarchy | as C13 | invariant: layers = root path of the group | `C15_layers_follow_the_hierarchy` |
| C16 | Which hierarchy changes are reported | `_determine_hierarchy_change` | loop invariant | `C16_reported_changes`, `C16_line_below_a_key`, `C16_neighbour_with_same_key`, `C16_last_opening_exists`, `C16_never_not_implemented` |
| C17 | determine_locations succeeds on disciplined AHBs | `determine_locations` | equivalence with a declarative acceptability relation; witness | `C17_returns_iff_acceptable`, `C17_skipping_a_level_refuted` |
| C18 | Layers only change when the group changes | `determine_locations` | loop invariant | `C18_layers_of_neighbouring_lines` |
| C19 | Segment groups of a flat AHB | `get_segment_groups` | induction | `C19_segment_groups` |
| C20 | Sorting lines by segment group | `sort_lines_by_segment_groups` | stable sort lemmas | `C20_sorting` |
| C21 | Sorting never invalidates an AHB | as C20 and the validators | C20, C22 | `C21_sorting_never_raises` |
| C22 | When a flat AHB is accepted | `_check_that_nearly_all_lines_have_a_segment_group` and helpers | induction over the chunks, uniqueness of the decomposition; witness | `C22_acceptance`, `C22_chunks_are_unique`, `C22_documented_rule_suffices`, `C22_documented_rule_is_enforced_refuted` |
| C23 | What the line validators accept | the three line validators | regular language lemmas | `C23_group_key`, `C23_segment_code`, `C23_data_element`, `C23_absent`, `C23_no_trailing_newline_refuted` |
| C24 | holds_any_information | `holds_any_information` | case analysis on stripped strings | `C24_holds_any_information` |
| C25 | AhbLine discriminators | `get_discriminator` | computation on variables, witness | `C25_discriminator_depends_on`, `C25_discriminator_determines`, `C25_discriminator_is_unique_refuted` |
| C26 | find_segment_groups is sound and complete | `find_segment_groups` | nested induction; uniqueness of the order | `C26_sound_and_complete`, `C26_order`, `C26_order_is_unique`, `C26_results_are_distinct_refuted` |
| C27 | find_segments is sound and complete for groups and segments | `find_segments` (AHB and group) | nested induction; order by a relation that determines the result; witnesses | `C27_exactly`, `C27_complete`, `C27_sound`, `C27_results_are_in_matching_groups_refuted`, `C27_each_segment_once_refuted`, `C27_order`, `C27_segment_group`, `C27_order_is_unique` |
| C28 | get_all_value_pools | `get_all_value_pools` (three classes) | invariant of the accumulating loop | `C28_one_pool_per_discriminator`, `C28_all_pools_if_discriminators_are_unique`, `C28_all_pools_refuted`, `C28_segment`, `C28_segment_group`, `C28_first_of_each_discriminator` |
| C29 | get_all_expressions | `get_all_expressions` | induction, sorted list lemmas | `C29_expressions`, `C29_ascending`, `C29_each_once` |
| C30 | replace_inputs_based_on_discriminator | `replace_inputs_based_on_discriminator` | nested induction | `C30_inputs_replaced` |
| C31 | reset_ahb_line_index | `reset_ahb_line_index` | nested induction | `C31_all_reset_nothing_else_changed`, `C31_every_group_and_segment`, `C31_twice`, `C31_single_group`, `C31_single_segment` |
| C32 | replace_value_pool substitutes simultaneously | `replace_value_pool` | invariant of the two loops over dictionaries | `C32_substitution`, `C32_swap` |
| C33 | replace_value_pool outside of its assumptions | as C32 | as C32, witnesses | `C33_any_pool`, `C33_raises_iff`, `C33_all_entries_are_renamed_refuted`, `C33_atomic_refuted` |
| C34 | Which qualifiers are accepted | `_check_is_edifact_qualifier` and its patterns | regular language lemmas | `C34_accepted_qualifiers`, `C34_entry_has_the_arguments`, `C34_rejected_with_a_value_error`, `C34_any_text_may_follow`, `C34_acceptance_means_one_word_refuted` |
| C35 | has_value_pool_which_is_subset_of | `has_value_pool_which_is_subset_of` with lists and with iterators | induction, iterator state | `C35_list`, `C35_iterator`, `C35_iterator_like_list_refuted`, `C35_iterator_true` |
| C36 | Merging lines of a data element | `merge_lines_with_same_data_element` | induction over the lines | `C36_different_data_elements`, `C36_value_pool`, `C36_free_text`, `C36_data_type`, `C36_merged_lines` |
| C37 | Group discriminators of a deep AHB are unique | `to_deep_ahb` with a heap of group lists, MIG reader = arbitrary function | loop invariant on the heap, rendering of the heap | `C37_group_discriminators_are_unique` |
| C38 | No segment or data element is lost, duplicated or reordered | as C37 | loop invariant, counting | `C38_nothing_is_lost`, `C38_counts` |
| C39 | Meta information of a deep AHB | as C37 | case analysis | `C39_meta_is_stamped` |
| C40 | Where segments end up | as C37 | loop invariant; witness | `C40_segments_go_to_the_latest_group`, `C40_root_segments_stay_in_the_root_refuted`, `C40_runs_and_parts_are_determined` |
| C41 | Nesting of groups mirrors the locations | as C37 | loop invariant on the stack of open groups | `C41_nesting_mirrors_the_layers` |
| C42 | MIG lookups that fail do not abort the conversion | as C37 | simulation between two readers; witness | `C42_failing_lookups_do_not_abort`, `C42_unknown_places`, `C42_first_lookup_may_fail_refuted` |
| C43 | SegmentGroupHierarchy JSON round trip | `SegmentGroupHierarchySchema` | nested induction | `C43_round_trip` |
| C44 | Flat AHB JSON round trip | `FlatAnwendungshandbuchSchema` and nested schemas, UUID printing and parsing | induction, base 16 arithmetic | `C44_round_trip`, `C44_valid_iff_constructible` |
| C45 | Deep AHB JSON round trip | `DeepAnwendungshandbuchSchema` and nested schemas | nested induction; witness | `C45_round_trip`, `C45_incomplete_ahbs_are_rejected`, `C45_every_valid_ahb_can_be_read_back_refuted`, `C45_entered_input_is_written` |
| C46 | Loading only produces valid objects | all schemas | relation between JSON values and objects, proved equivalent to loading | `C46_exceptions`, `C46_hierarchy`, `C46_line`, `C46_meta`, `C46_flat_ahb`, `C46_value_pool_entry`, `C46_data_element`, `C46_segment`, `C46_segment_group`, `C46_deep_ahb`, `C46_loaded_objects_are_valid`, `C46_segment_keys`, `C46_first_error_of_a_line`, `C46_first_error_of_a_group` |
| C47 | AhbLocation XML round trip | `ahb_location_xml.py`, `xmltodict` on element trees | case analysis, induction over the layers | `C47_round_trip`, `C47_what_comes_back`, `C47_writable`, `C47_single_layer`, `C47_every_location_survives_refuted`, `C47_list_round_trip`, `C47_empty_list_refuted`, `C47_layout_is_irrelevant`, `C47_written_form` |
| C48 | Merging section headings | `merge_section_only_lines` | induction over the rows | `C48_merging`, `C48_other_rows_kept`, `C48_headings_at_the_end_are_dropped`, `C48_success`, `C48_exceptions`, `C48_idempotent_refuted` |
| C49 | Separating value pool entry and name | `separate_value_pool_entry_and_name`, `_is_value_pool_entry` | regular language lemmas, case analysis | `C49_entries`, `C49_separation`, `C49_order_is_irrelevant`, `C49_entry_is_an_entry_refuted` |
| C50 | Rows of the CSV reader | reader loop, `raw_ahb_row_to_ahbline`, `to_flat_ahb` | loop invariant over the rows | `C50_lines`, `C50_ascending`, `C50_readable_files`, `C50_exceptions`, `C50_to_flat_ahb`, `C50_to_flat_ahb_success`, `C50_blank_expression_refuted` |
| C51 | Extraction of condition texts | `_extract_bedingungen` | scan lemma for `finditer` | `C51_conditions`, `C51_listing`, `C51_reader` |
| C52 | Expression column | `_get_name_of_expression_column` | induction | `C52_expression_column`, `C52_no_expression_column` |
| C53 | Nested qualifiers in MIG attributes | `get_nested_qualifiers` | regular language lemmas with captures | `C53_references`, `C53_no_separator`, `C53_some`, `C53_none`, `C53_exceptions`, `C53_no_separator_refuted` |
| C54 | The MIG reader returns the described element | `get_element` with the XPath subset it uses | tree induction, loop invariant over the layers | `C54_returns`, `C54_unique`, `C54_raises`, `C54_value_error`, `C54_no_slash`, `C54_no_layers`, `C54_path`, `C54_several_slashes_refuted`, `C54_group` |
| C55 | Stack of a MIG element | `element_to_edifact_stack`, `get_edifact_stack` | induction over the path | `C55_levels`, `C55_succeeds`, `C55_shape`, `C55_stack_of_a_location`, `C55_inherited_name_refuted` |
| C56 | Names are normalised idempotently | `make_name_comparable`, `are_similar_names` | string lemmas, case tables of Unicode | `C56_idempotent`, `C56_clean`, `C56_case`, `C56_letters`, `C56_similar`, `C56_equivalence`, `C56_separators`, `C56_separators_refuted` |
| C57 | Tree normalisation touches names only | `make_tree_names_comparable` | tree induction | `C57_names_only`, `C57_idempotent`, `C57_positions`, `C57_stacks` |
| C58 | Division of a field name | `division_helper.py` | case analysis | `C58_gas`, `C58_electricity`, `C58_not_gas`, `C58_not_electricity`, `C58_division`, `C58_both`, `C58_exclusive_refuted` |
| C59 | EDIFACT boilerplate | `is_edifact_boilerplate` | case analysis | `C59_boilerplate` |
| C60 | EdiMetaData is consistent | `EdiMetaData`; efoli = arbitrary function | case analysis, regular language lemma | `C60_exact`, `C60_consistent`, `C60_default`, `C60_wrong_format`, `C60_malformed`, `C60_none` |
| C61 | File based provider | `FileBasedMausProvider.get_maus` on an abstract file system | case analysis, C45 | `C61_none_iff_missing`, `C61_found`, `C61_raises`, `C61_stored_ahbs_are_found`, `C61_text_files_none_iff_missing`, `C61_text_files_found`, `C61_text_files_raise` |
| C62 | CLI: exactly one of output and check | `cli.main` on an abstract file system | case analysis | `C62_aborts`, `C62_check_never_writes`, `C62_only_the_output_file_changes`, `C62_nothing_written_without_result`, `C62_written`, `C62_not_opened`, `C62_options_are_checked`, `C62_otherwise_main_runs` |
| C63 | CLI: generated files pass the check | as C62 | C45, C70, C71 | `C63_check`, `C63_different`, `C63_written_files_pass_the_check` |
| C64 | Value pool replacement is schedule independent | `generate_value_pool_replacement` as interleaved coroutines on a store | invariant preserved by every step of every schedule | `C64_mapping`, `C64_exceptions`, `C64_same_for_all_schedules`, `C64_data_left_modified` |
| C65 | Value pool replacement races | as C64 | explicit schedule for every pool; witness | `C65_all_get_the_value_of_the_last`, `C65_every_converter_refuted` |
| C66 | Shape of a value pool replacement | as C64 | invariant, well-founded measure | `C66_keys`, `C66_no_mapping`, `C66_progress`, `C66_every_schedule_ends`, `C66_a_result_can_be_reached` |
| C67 | transform_all_value_pools | `transform_all_value_pools` as interleaved tasks, with the tasks that asyncio.gather leaves behind after an exception | invariant preserved by every step, measure | `C67_at_every_moment`, `C67_result`, `C67_same_for_all_schedules`, `C67_same_in_the_end`, `C67_all_relevant_pools`, `C67_progress`, `C67_every_schedule_ends` |
| C68 | Neighbouring group borders | `_is_opening_segment_line_border` | case analysis | `C68_opening_segment_line_border` |
| C69 | Names and keys of single MIG elements | `get_segment_group_key_or_none`, `get_ahb_name_or_none` | case analysis | `C69_group_key`, `C69_ahb_name` |
| C70 | Generated deep AHBs are valid | `to_deep_ahb` and all validators | loop invariant on the heap | `C70_generated_ahbs_are_valid`, `C70_complete_iff_all_segments_have_section_names` |
| C71 | Order of JSON keys | schemas, `sort_keys` | nested induction over JSON values and a permutation relation | `C71_loading_ignores_the_order_of_keys`, `C71_sorting`, `C71_dumped_keys_are_unique`, `C71_sorted_ahbs_are_read_back` |
| C72 | JSON texts | `json.load`/`json.dump` of the standard library: scanner and encoder | soundness and completeness of the scanner with respect to a relational grammar by mutual induction | `C72_accepted_texts`, `C72_rejected_texts`, `C72_unambiguous`, `C72_written_texts_are_read_back`, `C72_written_texts_are_canonical`, `C72_layout` |
| C73 | Text files | UTF-8, universal newlines, `open`, `json.load`, `json.dump` | induction over the bytes | `C73_decoding`, `C73_encoding`, `C73_encoding_errors`, `C73_line_ends`, `C73_line_ends_do_not_matter`, `C73_read_files`, `C73_unreadable_files`, `C73_written_files_are_read_back`, `C73_writing_fails_for_surrogates_only`, `C73_literals` |
| C74 | The command line tool and the provider on text files | `main`, `get_maus` on byte files | composition of C61-C63, C70-C73 | `C74_output`, `C74_surrogates`, `C74_written_files_are_found`, `C74_written_files_pass_the_check`, `C74_files_identify_ahbs`, `C74_failed_runs_keep_the_output_file_refuted`, `C74_output_layout` |
| C75 | Integers and UUIDs given as texts | `int(str)`, `uuid.UUID(str)` as used by the schema fields and the CSV reader | induction over texts, both directions | `C75_integers`, `C75_other_texts`, `C75_one_integer`, `C75_printed_integers`, `C75_uuids`, `C75_other_uuids`, `C75_printed_uuids` |
| C76 | What a deep AHB contains comes from the flat AHB and vice versa | `to_deep_ahb`, `merge_lines_with_same_data_element` | composition of C38, C40, C36 with membership in maximal runs | `C76_expressions`, `C76_value_pool_entries`, `C76_segments`, `C76_lines` |
| C77 | CSV files are read like tables | `csv.reader`, `csv.DictReader` of the standard library (state machine), `FlatAhbCsvReader.__init__` on bytes | simulation between the state machine on lines and on texts; soundness and completeness with respect to a relational grammar | `C77_rows`, `C77_rows_before_the_error`, `C77_every_text_is_a_table`, `C77_round_trip`, `C77_columns`, `C77_files`, `C77_too_long_cells`, `C77_exceptions`, `C77_accepted_files`, `C77_byte_order_mark_refuted`, `C77_missing_quotes`, `C77_missing_quote_refuted` |
| C78 | Which texts are .tree files | `GRAMMAR` as the one regular expression lark makes of it, the dynamic Earley parser for a single terminal, `read_tree` | languages of patterns without assertions; every word of the inner patterns ends with its only closing bracket, so the first match of the outer repetitions is the longest one; counting of matches by induction | `C78_strings`, `C78_files`, `C78_unreadable_strings`, `C78_unreadable_files`, `C78_other_arguments`, `C78_reading_again`, `C78_whitespace`, `C78_line_by_line`, `C78_whitespace_is_ignored_refuted`, `C78_obvious_errors_refuted`, `C78_byte_order_mark_refuted`, `C78_backtracking` |
| C79 | Which .tree file of a directory is checked | `check_youngest_tree_is_parseable` on an abstract directory | insertion sort: the head is the maximum; order by code points | `C79_nothing_to_check`, `C79_only_the_last_name`, `C79_there_is_a_last_name`, `C79_passed_iff`, `C79_youngest_refuted` |
| C80 | No history of updates damages a deep AHB | relation `updated` over the modelled mutators, its closure `history` | invariant: validity and the element-wise relation `essence_kept` survive each update | `C80_structure_and_validity_are_kept`, `C80_can_always_be_stored`, `C80_expressions_are_kept`, `C80_transforming_is_a_history` |
| C81 | XML texts are read as the XML grammar says | the scanner of expat (no document types, no namespaces), `etree.tostring`; grammar in `S_XmlText.v` | soundness by induction over the fuel, completeness by mutual induction over the grammar, writer by induction over the element | `C81_accepted`, `C81_one_reading`, `C81_rejected`, `C81_text_is_read_as_its_element`, `C81_what_can_be_read`, `C81_errors`, `C81_written`, `C81_element_or_text`, `C81_locations_as_text`, `C81_round_trip`, `C81_list_round_trip` |
| C82 | Which XML elements are AHB locations | from_xml_element, from_xml_elements, _xml_dict_to_location, _replace_nil_element_with_none and the constructors on xmltodict values (M_LocationXml, M_Xml), and on texts (M_XmlText); S_LocationRead says which elements are locations without mentioning dictionaries | the dictionary of an element is characterised by its attributes, children and text (induction on the children); then each field, layer and location; the texts by C81 and induction on the grammar | `C82_location`, `C82_locations`, `C82_one_location`, `C82_errors`, `C82_text` |
| C83 | The layout of a MIG XML document is irrelevant | MigXmlReader.__init__, check_file_can_be_parsed_as_mig_xml on texts and files (M_MigFile), the scanner of M_XmlText and all of M_MigXml | positions, XPath steps, attribute lookups and paths are equal for two trees of the same structure (induction over positions); texts by C81 | `C83_from_text`, `C83_from_file`, `C83_layout`, `C83_arguments`, `C83_check` |
| C84 | The layout of input files is irrelevant to the tool | `M_Cli` instantiated with `M_JsonText` and `M_MigFile`: everything from bytes to bytes | loading respects the order of keys (C71), reading depends on the structure of the template only (C83), both runs generate the same AHB | `C84_output`, `C84_check`, `C84_provider`, `C84_again` |
| C85 | From CSV files to checked maus files | `read_csv_file`, `to_flat_ahb`, the schemas, `main` and `get_maus` composed | composition of C50, C77, C44, C43, C76 and C74; witness without heading | `C85_through_files`, `C85_csv_ahbs_are_valid`, `C85_section_names`, `C85_checked`, `C85_without_heading_refuted` |
| C86 | When a flat AHB can be converted | as C37; the places, not the heap, in `S_DeepSuccess.v` | forward: loop invariant relating the heap to the depths; backward: every step of the loop returns under the conditions | `C86_converts_iff`, `C86_depths`, `C86_first_group` |
| C87 | The deep AHB is determined by its description | as C37 | a deep AHB is determined by the labels of its groups in preorder and their depths; parts are determined by the runs | `C87_complete_description` |
| C88 | The published JSON schema and the documents of the library | the text of the published schema, read with the model of `json`; JSON Schema draft 7 (the keywords used) as a relation in `S_JsonSchema.v` | a lemma per kind of schema (closed object, string, list, reference); induction over the groups, C46 | `C88_published_text`, `C88_conforming_documents`, `C88_written_documents_never_conform`, `C88_no_data_elements` |
| C89 | The locations of the lines are completely determined | as C15 | induction over the lines: staying keeps the layers, entering replaces a suffix by one layer; keys on a path are distinct, so the outer layers keep their last entry; uniqueness of the description gives the converse | `C89_locations_exactly`, `C89_layer_is_unique`, `C89_shared_outer_layers` |
| C90 | Failures are reported with a documented exception at the first offending line | as C15 and C86 | inversion of every bind of the conversion; the loop over the lines with the invariant of C17 up to the first unacceptable line; uniqueness of that line gives the converse | `C90_first_bad_line`, `C90_location_exceptions`, `C90_conversion_exceptions`, `C90_no_index_error` |
| C91 | An interrupted run of the command line tool damages nothing but its output file, and that noticeably | a small-step semantics of a run (`M_Runs.v`): one step per option check, file read, conversion, comparison, open, write of some bytes at the position of the run, close | invariant by phase relative to the initial files: until the file is opened nothing has changed, afterwards it holds the part of the text that has been written; a proper beginning of a JSON object is no JSON text (`L_Cut.v`) | `C91_finished_runs`, `C91_runs_can_be_completed`, `C91_interrupted_runs`, `C91_half_written_files_are_noticed`, `C91_interrupted_runs_can_be_repeated`, `C91_old_or_new_output_refuted` |
| C92 | Simultaneous runs of the command line tool | interleavings of the steps of any number of such runs | invariant per file: untouched, or every byte is the byte of the text at that position or a zero (the gap of a write behind the end), and the newest run that opened it has written a beginning of known length; when it has finished the file is the text | `C92_outcomes`, `C92_files_at_any_time`, `C92_as_if_one_after_the_other`, `C92_runs_can_be_completed`, `C92_different_ahbs_for_the_same_file_refuted`, `C92_checks_while_writing_refuted` |
| C93 | Unpacking virtual groups | the tree as nodes with identities (their original positions), the collected parents, index, insert and remove of lxml | permutation invariant of the flattened tree with distinct identities; invariant that the nodes with virtual children are among those still to be processed; exact order by computing the folded insertions; the whole result by induction on the number of nodes against a deterministic relation in S_Virtual.v (the keys of other subtrees have no effect on a subtree) | `C93_elements_are_kept`, `C93_no_group_is_left`, `C93_nothing_to_unpack`, `C93_only_child`, `C93_group_behind_an_element`, `C93_group_in_front`, `C93_description`, `C93_place_of_the_group_refuted`, `C93_group_in_a_group_refuted` |
| C94 | Replacing inputs with a function that has a memory or raises | the loops with a memory `W` threaded through all calls of the function, exceptions as values, the AHB as left behind | the elements in the order in which they are asked for, an inductive relation `replaced_in_turn`; shape and elements determine an AHB; bridge to the model of C30 | `C94_exactly`, `C94_fixed_answers`, `C94_can_be_repeated`, `C94_all_or_nothing_refuted` |
| C95 | Finding groups and segments with predicates that have a memory or raise | the loops with a memory `W` threaded through all calls of the predicates | inductive relations `interview` (questions, answers, memory, exception), `asked_for`, `groups_found`; both directions; bridge to the model of C26 and C27 | `C95_groups`, `C95_segments`, `C95_groups_fixed_answers`, `C95_segments_fixed_answers`, `C95_one_question_per_group_refuted` |
| C96 | Replacing value pools with a merger that has a memory or raises | the loop over the qualifiers with a memory `W` threaded through all calls of the merger | the answers define a function without memory because each qualifier is asked for once; bridge to the model of C32 and C33 | `C96_merger`, `C96_fixed_answers`, `C96_all_or_nothing_refuted` |
| C97 | Equality of objects | the comparisons that attrs generates, field by field (M_Ahb.v, M_Navigation.v, M_Components.v) | induction on the structure of the objects; every comparison is equivalent to equality | `C97_lines`, `C97_deep_ahbs`, `C97_parts_of_deep_ahbs`, `C97_locations`, `C97_stack_levels` |
| C98 | Letters, digits and whitespace | the tables of characters of PyUni.v and the classes of PyStr.v, used by all patterns | S_Chars.v lists the characters again, independently of the tables; decimal digits by decades, whitespace by arithmetic, ASCII statements by evaluating all 128 characters (a complete case analysis) | `C98_segment_codes`, `C98_group_keys`, `C98_data_elements`, `C98_boilerplate`, `C98_information`, `C98_numbers`, `C98_one_digit`, `C98_xml_texts`, `C98_single_characters`, `C98_case_of_letters`, `C98_vocabulary`, `C98_literals`, `C98_ascii`, `C98_case_of_umlauts` |

## 5. Behaviour of the code worth knowing

The theorems named `..._refuted` show these with witnesses; the others are cases
of the exact characterisations.

* JSON paths: brackets in names, empty names and negative indices do not survive
  (C01).
* `_find_common_ancestor_from_sgh` with an unknown second key ends with an
  AttributeError (C11).
* The documented rule for lines without a group is not enforced (C22); the line
  validators accept a trailing line feed (C23); `get_discriminator` is not unique
  (C25).
* `find_segment_groups` may list equal groups twice (C26); `find_segments`
  returns segments of top level groups that do not match (C27);
  `get_all_value_pools` drops pools that share a discriminator (C28).
* `replace_value_pool` is not atomic and skips repeated qualifiers (C33); texts
  after a qualifier are accepted (C34); passing an iterator changes the meaning
  of `has_value_pool_which_is_subset_of` (C35).
* `to_deep_ahb`: root segments behind nested groups land in the nested group
  (C40); a failing lookup of the root position fails the call (C42); opening a
  group at UNT when the MIG knows it is a ValueError; `previous_position` is not
  updated on `continue`; the retry loop asks for the same position every time; a
  heading line without expression before the opening UNH ends with an
  UnboundLocalError; a heading line as last line of a run fails an assertion.
* JSON: a segment without section name or a data element without type is written
  but cannot be read (C45); missing arguments surface as TypeError, not as
  ValidationError (C46).
* XML locations: one layer cannot be read back, neither can an empty list (C47).
* CSV: a blank expression is an error (C50); merging headings is not idempotent
  (C48); if neither text is an entry the second one is reported as the entry
  (C49); a byte order mark becomes part of the name of the index column and a
  missing closing quote swallows the rest of the file without an error (C77).
* `read_tree`: `%ignore WS` has no effect inside of a tree, because the whole grammar
  is one terminal; so a blank, an empty line or CRLF inside of a string is an error.
  The result is a string (a token), not a `Tree`. References to groups without a line,
  two lines of one group and empty segments are accepted. A missing bracket takes
  exponential time: the tuples of the grammar can be divided in exponentially many
  ways (C78).
* `check_youngest_tree_is_parseable` takes 1.9 for younger than 1.10 (C79).
* MIG XML: two classes with a slash can lead to a wrong group (C54); elements
  without a name inherit the name of their parent (C55); a trailing separator is
  an IndexError, a missing one joins two qualifiers (C53).
* A name with both words is definitely gas and definitely electricity (C58).
* The CLI empties the output file before writing can fail, and a file it wrote
  for segments without section names fails its own check (C62, C63).
* A lone surrogate, written as escape sequence in the flat AHB, is accepted when
  it is read; writing the result fails and destroys the previous output file (C74).
* The published JSON schema is outdated: no written document conforms to it, and
  conforming documents with data elements cannot be read (C88).
* A stopped run leaves an output file that is empty or cut off, not the old one
  (C91); two runs for the same file may both succeed and leave a file that is no
  AHB (C92).
* `_unpack_virtual_groups` reverses the children of a group, puts them in front of
  the element before the group, and leaves groups inside groups (C93).
* `find_segment_groups` calls the predicate several times for nested groups (C95);
  an exception of a user's function leaves inputs or value pools partly replaced
  (C94, C96).
* A converter that suspends before it reads the EDIFACT data maps every qualifier
  to the value of the last one (C65).

## 6. Trusted base

* The kernel of Coq 8.16.1 (`vm_compute` is used in proofs; no native
  compilation) and the Coq standard library.
* Axioms: none.  `Print Assumptions` follows every theorem and reports "Closed
  under the global context" for each of them.
* The faithfulness of the model to the Python code, and of `Py*` and the library
  parts to CPython 3.11, attrs, marshmallow 3.22, xmltodict, lxml, more_itertools
  and asyncio.  This is by reading; the Unicode tables are generated.

## 7. Wrong programs

`seeded/LOG.jsonl` records edits of the model that mimic realistic bugs, which
theorems failed after each, and which theorems were added or tightened because an
edit survived.

Known gap: no theorem determines how a capital sigma at the end of a word is put
into lower case (edit S1079 survives).  C56 describes comparable names letter by
letter only for names without a capital sigma.
For some automatic edits the build was stopped at the first failing lemma, example
or conformance test.  The note then says that the theorems concerned were found by
reading the dependencies and not by building on.
