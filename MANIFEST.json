{
 "claims": [
  {
   "property": "C01",
   "status": "proved",
   "theorems": [
    "C01_combine16_split",
    "C01_split16_combine",
    "C01_combine16_injective",
    "C01_combine8_split",
    "C01_split8_combine",
    "C01_combine8_injective"
   ],
   "note": "All identifiers of the stated widths."
  },
  {
   "property": "C02",
   "status": "proved",
   "theorems": [
    "C02_added_is_found",
    "C02_added_string_is_found"
   ],
   "note": "All histories of add, fetch, register, tag, optimise and save/load calls within the identifier widths; words starting with U+0000 are excluded after a load (see C24)."
  },
  {
   "property": "C03",
   "status": "proved",
   "theorems": [
    "C03_found_iff",
    "C03_empty_word"
   ],
   "note": "All histories; after a load only words not starting with U+0000 (see C24)."
  },
  {
   "property": "C04",
   "status": "proved",
   "theorems": [
    "C04_same_node_iff_same_word",
    "C04_node_is_stable"
   ],
   "note": "All histories, nodes compared at two moments."
  },
  {
   "property": "C05",
   "status": "proved",
   "theorems": [
    "C05_nodes_count"
   ],
   "note": "All histories."
  },
  {
   "property": "C06",
   "status": "proved",
   "theorems": [
    "C06_add_again"
   ],
   "note": "All histories; the new index is indistinguishable by any later sequence of calls."
  },
  {
   "property": "C07",
   "status": "proved",
   "theorems": [
    "C07_add_below_node",
    "C07_unknown_parent"
   ],
   "note": "All histories."
  },
  {
   "property": "C08",
   "status": "proved",
   "theorems": [
    "C08_word",
    "C08_string_word"
   ],
   "note": "All histories."
  },
  {
   "property": "C09",
   "status": "proved",
   "theorems": [
    "C09_runes_round_trip",
    "C09_string_round_trip",
    "C09_distinct",
    "C09_ill_formed",
    "C09_ill_formed_collide_refuted"
   ],
   "note": "All byte strings; the collision of ill-formed strings is exhibited."
  },
  {
   "property": "C10",
   "status": "proved",
   "theorems": [
    "C10_allocation",
    "C10_one_more"
   ],
   "note": "Any number of allocations below 2^32."
  },
  {
   "property": "C11",
   "status": "proved",
   "theorems": [
    "C11_registration",
    "C11_overflow_refuted",
    "C11_257_names_refuted"
   ],
   "note": "Up to 256 names, and the exact failure at the 257th."
  },
  {
   "property": "C12",
   "status": "proved",
   "theorems": [
    "C12_tag_sets",
    "C12_overflow_refuted",
    "C12_overflow_reachable"
   ],
   "note": "Up to 65536 sets per size and 65536 elements; beyond that a collision is proved to happen."
  },
  {
   "property": "C13",
   "status": "proved",
   "theorems": [
    "C13_collections",
    "C13_empty",
    "C13_overflow_refuted",
    "C13_overflow_reachable"
   ],
   "note": "Up to 65536 collections per size and 65535 elements; beyond that a collision is proved to happen."
  },
  {
   "property": "C14",
   "status": "proved",
   "theorems": [
    "C14_known_id",
    "C14_following",
    "C14_following_order"
   ],
   "note": "Within the limits of C13."
  },
  {
   "property": "C15",
   "status": "proved",
   "theorems": [
    "C15_table_ids_refuted",
    "C15_listed"
   ],
   "note": "The property as first stated is false; the theorem proves that for every index."
  },
  {
   "property": "C16",
   "status": "proved",
   "theorems": [
    "C16_tag_sets_exact"
   ],
   "note": "All histories; after a load only words not starting with U+0000 (see C24)."
  },
  {
   "property": "C17",
   "status": "proved",
   "theorems": [
    "C17_other_words_untouched"
   ],
   "note": "All histories, every other word."
  },
  {
   "property": "C18",
   "status": "proved",
   "theorems": [
    "C18_unregistered",
    "C18_registered"
   ],
   "note": "All histories, nodes and name lists; the rejected call returns the identical index."
  },
  {
   "property": "C19",
   "status": "proved",
   "theorems": [
    "C19_empty_list_attaches_refuted"
   ],
   "note": "False as first stated; the theorem proves the violation on every reachable index that has a set of one tag."
  },
  {
   "property": "C20",
   "status": "proved",
   "theorems": [
    "C20_words_count"
   ],
   "note": "All histories."
  },
  {
   "property": "C21",
   "status": "proved",
   "theorems": [
    "C21_optimize_invisible"
   ],
   "note": "All histories and all node identifiers."
  },
  {
   "property": "C22",
   "status": "proved",
   "theorems": [
    "C22_optimize_exact"
   ],
   "note": "All histories."
  },
  {
   "property": "C23",
   "status": "proved",
   "theorems": [
    "C23_save_load_same_answers",
    "C23_history_goes_on"
   ],
   "note": "All histories within the limits of the file format; words starting with U+0000 are the subject of C24."
  },
  {
   "property": "C24",
   "status": "proved",
   "theorems": [
    "C24_null_words_refuted"
   ],
   "note": "False as first stated; the theorem proves the violation for every saved and loaded index in which U+0000 was not added."
  },
  {
   "property": "C25",
   "status": "proved",
   "theorems": [
    "C25_truncated_file_rejected",
    "C25_any_accepted_file",
    "C25_no_panic"
   ],
   "note": "All savable indexes, all prefixes; also any accepted byte string, and no panic on any bytes. Memory exhaustion is not modelled."
  },
  {
   "property": "C26",
   "status": "proved",
   "theorems": [
    "C26_reads_exactly_what_was_written",
    "C26_rest_does_not_matter"
   ],
   "note": "All savable indexes, all trailing bytes."
  },
  {
   "property": "C27",
   "status": "proved",
   "theorems": [
    "C27_bytes_stable"
   ],
   "note": "All savable indexes, any number of cycles."
  },
  {
   "property": "C28",
   "status": "proved",
   "theorems": [
    "C28_marshal",
    "C28_unmarshal",
    "C28_saving_fails_iff"
   ],
   "note": "All names, all histories."
  },
  {
   "property": "C29",
   "status": "proved",
   "theorems": [
    "C29_tags",
    "C29_tag_set",
    "C29_set_table",
    "C29_set_index",
    "C29_collection",
    "C29_collection_table",
    "C29_collection_index",
    "C29_nodes",
    "C29_tags_refuted",
    "C29_tag_set_refuted",
    "C29_set_table_refuted",
    "C29_collection_refuted",
    "C29_collection_index_refuted",
    "C29_256_tags_refuted",
    "C29_256_in_set_refuted",
    "C29_256_sets_refuted"
   ],
   "note": "All values within the widths; at the exact boundary every component is proved to lose its data, with dictionaries that save but cannot be loaded."
  },
  {
   "property": "C30",
   "status": "proved",
   "theorems": [
    "C30_counts_add_up_refuted",
    "C30_old_letters_refuted",
    "C30_over_an_index_without_words"
   ],
   "note": "False as first stated; proved for every index read over another, with the exact case in which it holds."
  },
  {
   "property": "C31",
   "status": "proved",
   "theorems": [
    "C31_lookup_has_no_effect"
   ],
   "note": "Every index whatsoever."
  },
  {
   "property": "C32",
   "status": "proved",
   "theorems": [
    "C32_answers",
    "C32_loaded_never_written",
    "C32_loaded_no_race",
    "C32_every_schedule_ends",
    "C32_alone",
    "C32_built_race_refuted"
   ],
   "note": "Accesses are sequentially consistent and one map operation is one step. The race on a built index is C32_built_race_refuted."
  },
  {
   "property": "C33",
   "status": "proved",
   "theorems": [
    "C33_unique_consecutive",
    "C33_each_request_one_number",
    "C33_no_crash_no_deadlock",
    "C33_mutual_exclusion"
   ],
   "note": "Bound: identifiers do not reach 2^32."
  },
  {
   "property": "C34",
   "status": "proved",
   "theorems": [
    "C34_enough_room_none_lost",
    "C34_alone",
    "C34_lost_refuted"
   ],
   "note": "The loss is C34_lost_refuted; the growth policy there doubles the capacity."
  },
  {
   "property": "C35",
   "status": "proved",
   "theorems": [
    "C35_alone",
    "C35_twice_refuted"
   ],
   "note": "C35_twice_refuted is the interleaving; NewChild is one step there."
  },
  {
   "property": "C36",
   "status": "proved",
   "theorems": [
    "C36_nodes_usable",
    "C36_returned_nodes",
    "C36_get_iff",
    "C36_root_panics",
    "C36_get_zero_refuted"
   ],
   "note": "Proved for all identifiers but 0; identifier 0 is refuted."
  },
  {
   "property": "C37",
   "status": "proved",
   "theorems": [
    "C37_node_string",
    "C37_node_string_refuted",
    "C37_any_letter"
   ],
   "note": "Proved for words ending in an ASCII letter; a word ending in another letter refutes the rest."
  },
  {
   "property": "C38",
   "status": "proved",
   "theorems": [
    "C38_set8_write",
    "C38_set16_write",
    "C38_tagset_write",
    "C38_set8_round",
    "C38_set16_round",
    "C38_set8_read",
    "C38_set16_read",
    "C38_set8_left",
    "C38_set16_left",
    "C38_tagset_read",
    "C38_set8_long",
    "C38_set16_long",
    "C38_set16_odd_refuted"
   ],
   "note": "Exact counts for Set8/TagSet; for Set16 exact up to the odd byte (refuted otherwise by C38_set16_odd_refuted); longer sets: C38_set8_long, C38_set16_long."
  },
  {
   "property": "C39",
   "status": "proved",
   "theorems": [
    "C39_collection16",
    "C39_collection8",
    "C39_collection16_overflow_refuted",
    "C39_collection8_overflow_refuted",
    "C39_table8",
    "C39_table16",
    "C39_table8_overflow_refuted",
    "C39_table16_overflow_refuted",
    "C39_overflow_reachable"
   ],
   "note": "Within the identifier widths; beyond that a collision is proved to happen."
  },
  {
   "property": "C40",
   "status": "proved",
   "theorems": [
    "C40_find_panics",
    "C40_find_otherwise",
    "C40_find8_otherwise",
    "C40_find_panics_refuted"
   ],
   "note": "False as first stated; the exact condition of the panic is proved."
  },
  {
   "property": "C41",
   "status": "proved",
   "theorems": [
    "C41_equal_to",
    "C41_equal_to_sorted"
   ],
   "note": "All sequences."
  },
  {
   "property": "C42",
   "status": "proved",
   "theorems": [
    "C42_position",
    "C42_back_at_start",
    "C42_next_element",
    "C42_dotted_refuted"
   ],
   "note": "All well-nested event streams without dots in element names; the dotted case is refuted by C42_dotted_refuted. XML tokenizing itself is assumed."
  },
  {
   "property": "C43",
   "status": "proved",
   "theorems": [
    "C43_same_as_calls",
    "C43_only_known",
    "C43_history",
    "C43_first_bad_form",
    "C43_what_is_found"
   ],
   "note": "All document trees and limits; the history form of the statement is within the capacity limits and for non-empty grammeme lists (the empty list is C19)."
  },
  {
   "property": "C44",
   "status": "proved",
   "theorems": [
    "C44_exact",
    "C44_parser_agrees",
    "C44_order_matters"
   ],
   "note": "All event sequences of a lemma, all growth policies, capacities and initial memory; slices always start at the beginning of their array, as in the code."
  },
  {
   "property": "C45",
   "status": "proved",
   "theorems": [
    "C45_stops_after_limit",
    "C45_limit_not_reached",
    "C45_earlier_failure",
    "C45_never_without_limit"
   ],
   "note": "All documents and limits; C45_never_without_limit holds for arbitrary event streams."
  },
  {
   "property": "C46",
   "status": "proved",
   "theorems": [
    "C46_one_piece",
    "C46_last_piece",
    "C46_split_name_refuted"
   ],
   "note": "False for split text, as the property says; exact rule proved in C46_last_piece."
  },
  {
   "property": "C47",
   "status": "proved",
   "theorems": [
    "C47_no_nil_pointer",
    "C47_dotted_refuted"
   ],
   "note": "All well-nested event streams without dots in element names; false with dots."
  },
  {
   "property": "C48",
   "status": "proved",
   "theorems": [
    "C48_table",
    "C48_download",
    "C48_unpack",
    "C48_compile",
    "C48_nothing_to_do"
   ],
   "note": "All environments and file states. HTTP, bzip2, the XML tokenizer and the file system are an arbitrary environment."
  },
  {
   "property": "C49",
   "status": "proved",
   "theorems": [
    "C49_failed_parse",
    "C49_what_fails",
    "C49_only_saving_changes_it"
   ],
   "note": "All environments, file states and points of a crash."
  },
  {
   "property": "C50",
   "status": "proved",
   "theorems": [
    "C50_success",
    "C50_failure",
    "C50_completes",
    "C50_no_panic",
    "C50_close_refuted"
   ],
   "note": "Reachable indexes within the limits of the file format; C50_failure for every index. C50_close_refuted: a failed close is not reported."
  },
  {
   "property": "C51",
   "status": "proved",
   "theorems": [
    "C51_what_a_crash_leaves",
    "C51_crash_safe_refuted"
   ],
   "note": "Crash safety is false, as the property says (C51_crash_safe_refuted); C51_what_a_crash_leaves is the exact rule for all crash points."
  },
  {
   "property": "C52",
   "status": "proved",
   "theorems": [
    "C52_stuck",
    "C52_stuck_forever_refuted",
    "C52_crash_in_download_refuted",
    "C52_force_recompiles",
    "C52_works_without_archive",
    "C52_failed_download_refuted"
   ],
   "note": "False, as the property says: C52_stuck_forever_refuted, C52_crash_in_download_refuted, C52_failed_download_refuted; the cases in which it holds are C52_force_recompiles and C52_works_without_archive."
  },
  {
   "property": "C53",
   "status": "proved",
   "theorems": [
    "C53_required",
    "C53_check_fails",
    "C53_panics_iff",
    "C53_only_there",
    "C53_panic_refuted"
   ],
   "note": "False, as the property says: C53_panic_refuted; C53_panics_iff is the exact condition."
  },
  {
   "property": "C54",
   "status": "proved",
   "theorems": [
    "C54_node",
    "C54_node_numbers",
    "C54_node_content",
    "C54_last_node_refuted",
    "C54_node_zero_refuted",
    "C54_negative_node_refuted",
    "C54_word",
    "C54_search",
    "C54_tag_numbers",
    "C54_table_numbers",
    "C54_set_numbers",
    "C54_var_numbers",
    "C54_unknown_variant_refuted"
   ],
   "note": "All arguments; reachable indexes for nodes, words and sets, every index for tags, tables and variants. False as a whole, as the property says; the _refuted theorems hold for every index of their kind."
  },
  {
   "property": "C55",
   "status": "proved",
   "theorems": [
    "C55_status_ignored_refuted"
   ],
   "note": "False, as the property says: C55_status_ignored_refuted."
  },
  {
   "property": "C56",
   "status": "proved",
   "theorems": [
    "C56_custom_directory_refuted"
   ],
   "note": "False for a custom directory (C56_custom_directory_refuted); the default directory is C52_works_without_archive."
  },
  {
   "property": "C57",
   "status": "proved",
   "theorems": [
    "C57_end_to_end"
   ],
   "note": "Words that begin with NUL are excluded (C31); grammeme names as the file format keeps them (empty names become ----)."
  },
  {
   "property": "C58",
   "status": "proved",
   "theorems": [
    "C58_old_words_stay",
    "C58_lost_refuted"
   ],
   "note": "NewChild is one step; C34 is about what happens inside it. The loss is C58_lost_refuted."
  },
  {
   "property": "C59",
   "status": "proved",
   "theorems": [
    "C59_runs",
    "C59_answers",
    "C59_no_panic",
    "C59_no_limit_on_calls"
   ],
   "note": "Sufficient limits; what happens beyond them is shown by the _refuted theorems of C11, C13, C23 and others. Limits.v is the specification of the limits."
  },
  {
   "property": "C60",
   "status": "proved",
   "theorems": [
    "C60_fields",
    "C60_all_lines",
    "C60_numbers",
    "C60_no_memory",
    "C60_search",
    "C60_command_words_refuted",
    "C60_crashes",
    "C60_node_number"
   ],
   "note": "strings.EqualFold is an arbitrary function; strconv is modelled after its sources; the layout of the printed replies is not modelled. False for words that are commands, as the property says: C60_command_words_refuted."
  },
  {
   "property": "C61",
   "status": "proved",
   "theorems": [
    "C61_update_then_browse",
    "C61_within_limits"
   ],
   "note": "C61_within_limits has only conditions on the document and the environment; C61_update_then_browse needs only that the history fits."
  },
  {
   "property": "C62",
   "status": "proved",
   "theorems": [
    "C62_records",
    "C62_lookup",
    "C62_word_of_found",
    "C62_word_of_any",
    "C62_tag_sets"
   ],
   "note": "C62_tag_sets_refuted, C62_word_refuted and C62_changed_byte_refuted show files that load and then crash or answer wrongly."
  },
  {
   "property": "C63",
   "status": "proved",
   "theorems": [
    "C63_accepted",
    "C63_help",
    "C63_refused",
    "C63_no_other_exit",
    "C63_exit_0",
    "C63_exit_2",
    "C63_exit_codes",
    "C63_files",
    "C63_no_arguments",
    "C63_separate_value",
    "C63_then_browse"
   ],
   "note": "C63_force_off_refuted: -f false leaves force on."
  },
  {
   "property": "C64",
   "status": "proved",
   "theorems": [
    "C64_same_place",
    "C64_unique",
    "C64_idempotent",
    "C64_shortest",
    "C64_files",
    "C64_three_files",
    "C64_made",
    "C64_resolve",
    "C64_resolve_fails"
   ],
   "note": "Paths.v models path.Clean/Join and filepath.Abs/Split/Ext on Unix; the place is defined by walking the pieces (PathSpec.v), without symbolic links."
  },
  {
   "property": "C65",
   "status": "proved",
   "theorems": [
    "C65_others_kept",
    "C65_whole_call",
    "C65_alone",
    "C65_known_sets",
    "C65_count",
    "C65_layout",
    "C65_mixed_up_refuted",
    "C65_later_panic_refuted",
    "C65_crash_refuted",
    "C65_lost_count_refuted"
   ],
   "note": "Interleavings of single reads and writes of slice headers and elements, sequentially consistent; the tag table and the children map are not written by these calls. Termination of all schedules is not claimed."
  },
  {
   "property": "C66",
   "status": "proved",
   "theorems": [
    "C66_step",
    "C66_histories",
    "C66_no_guard",
    "C66_any_file",
    "C66_any_file_tags",
    "C66_any_file_own",
    "C66_held_slices",
    "C66_others_order_refuted",
    "C66_caller_writes_refuted"
   ],
   "note": "Share.v models the arrays behind the slices: tables hold addresses, sorting changes the array. C66_histories and C66_no_guard say that on sorted collections (all an index of this program ever has) this model and the value model of the other files agree call by call; C66_held_slices is about arrays in the hands of callers. C66_any_file, C66_any_file_tags and C66_any_file_own are for any loaded file. The two refuted statements show what fails: C66_others_order_refuted, C66_caller_writes_refuted."
  },
  {
   "property": "C67",
   "status": "proved",
   "theorems": [
    "C67_reader",
    "C67_unambiguous",
    "C67_size",
    "C67_writer"
   ],
   "note": "FileSpec.v is the grammar, as a relation between values and bytes that mentions no reader or writer. C67_reader is an equivalence; the children map built after reading is C62's subject. The writer theorem is for histories of calls within the counts of the format (disk_caps), outside of it saving wraps the counts (C28, C29)."
  },
  {
   "property": "C68",
   "status": "proved",
   "theorems": [
    "C68_sizes",
    "C68_once",
    "C68_stable",
    "C68_found_now",
    "C68_copies",
    "C68_write_seen",
    "C68_writes_refuted",
    "C68_argument_sorted_refuted"
   ],
   "note": "Model with arrays and addresses (Lend.v) against the model with values (Storage.v)."
  },
  {
   "property": "C69",
   "status": "proved",
   "theorems": [
    "C69_order",
    "C69_items",
    "C69_unique",
    "C69_children",
    "C69_set",
    "C69_var",
    "C69_commas_refuted",
    "C69_node"
   ],
   "note": "Screen.v models standard output byte by byte; the log is not modelled."
  },
  {
   "property": "C70",
   "status": "proved",
   "theorems": [
    "C70_tagset",
    "C70_table",
    "C70_collection",
    "C70_item",
    "C70_idmap",
    "C70_nil",
    "C70_dag_tagset",
    "C70_categories",
    "C70_form",
    "C70_grammemes",
    "C70_lemma",
    "C70_order_refuted",
    "C70_ambiguous_refuted"
   ],
   "note": "Render.v models the methods; texts of nodes in NodeMap.String are given."
  },
  {
   "property": "C71",
   "status": "proved",
   "theorems": [
    "C71_sends",
    "C71_one_per_parent",
    "C71_stuck",
    "C71_finished",
    "C71_receiver",
    "C71_get",
    "C71_search",
    "C71_attr",
    "C71_grammeme",
    "C71_one_per_parent_refuted"
   ],
   "note": "Corpus.v models the functions and the unbuffered channel."
  },
  {
   "property": "C72",
   "status": "proved",
   "theorems": [
    "C72_same_reader",
    "C72_accepted",
    "C72_any_file",
    "C72_short_file_refuted",
    "C72_bound_reached"
   ],
   "note": "Readers that also count the bytes given to make, proved to be the readers of the model (same_reader); sizes of a 64-bit machine. Not counted: the children map, made only for accepted files, and the allocator's rounding. Unbounded for short files: C72_short_file_refuted."
  },
  {
   "property": "C73",
   "status": "proved",
   "theorems": [
    "C73_next_second",
    "C73_epoch",
    "C73_order",
    "C73_exact",
    "C73_fixdate",
    "C73_check",
    "C73_old_formats",
    "C73_old_formats_download",
    "C73_weekday_refuted"
   ],
   "note": "time.Parse for the layout RFC1123 is transcribed from Go's documented algorithm as the contract of package time (it is not in /repo); the zone table of the machine is a parameter. The file system's clock resolution is not modelled."
  },
  {
   "property": "C74",
   "status": "proved",
   "theorems": [
    "C74_fresh",
    "C74_never_twice",
    "C74_count",
    "C74_unnoticed",
    "C74_published_while_writing_refuted",
    "C74_late_clock_refuted"
   ],
   "note": "The archive's time is one moment, that of the last write; the versions are assumed to compile (C43, C57 say when). Gap and late clock: C74_published_while_writing_refuted, C74_late_clock_refuted. Calls that fail half way are C51 and C52."
  },
  {
   "property": "C75",
   "status": "proved",
   "theorems": [
    "C75_tag",
    "C75_set",
    "C75_var",
    "C75_reload",
    "C75_reload_fails",
    "C75_exit",
    "C75_node"
   ],
   "note": "Tables are the inductive relations of AnswerSpec.v; the theorems are equivalences, so the tables are complete and unambiguous. Spellings beginning with a null rune after a reload are excluded (C24). What the tag sets of a node are is C16; the number of its collection is read from the item."
  },
  {
   "property": "C76",
   "status": "proved",
   "theorems": [
    "C76_download",
    "C76_unpack",
    "C76_compile",
    "C76_update",
    "C76_success",
    "C76_untouched"
   ],
   "note": "Rules: StageSpec.v, in terms of files only; the theorems are equivalences, so the rules are complete and unambiguous. One moment e_now for all writes of a call; that bytes lost in Close go unnoticed (e_flush) is C50_close_refuted."
  },
  {
   "property": "C77",
   "status": "proved",
   "theorems": [
    "C77_never_stops",
    "C77_reports",
    "C77_how_many",
    "C77_which",
    "C77_silent",
    "C77_clock_set_back_refuted"
   ],
   "note": "Readings are an arbitrary sequence of nanoseconds; int(d.Seconds()) is any function that is the floor or one more. Go's time.Now carries a monotonic reading, so the set-back clock is possible only where there is none; the refuted theorem shows the hypothesis is needed."
  },
  {
   "property": "C78",
   "status": "proved",
   "theorems": [
    "C78_seen",
    "C78_opened_late",
    "C78_same_bytes",
    "C78_load",
    "C78_overtaken_refuted"
   ],
   "note": "Byte steps over-approximate buffered reads and writes. The mixed dictionary is C78_overtaken_refuted: the file is replaced in place, not renamed."
  },
  {
   "property": "C79",
   "status": "proved",
   "theorems": [
    "C79_mixture",
    "C79_same_bytes",
    "C79_alone",
    "C79_two_saves_refuted",
    "C79_finished_refuted"
   ],
   "note": "Positions are per process, as for os.Create without O_APPEND; the removal of an incomplete file is left out. The failures are C79_two_saves_refuted and C79_finished_refuted."
  },
  {
   "property": "C80",
   "status": "proved",
   "theorems": [
    "C80_same_result",
    "C80_kept",
    "C80_try_again",
    "C80_left_over",
    "C80_other_file",
    "C80_spelled_differently_refuted",
    "C80_tags_panic_refuted"
   ],
   "note": "Fill.v reads in place; C80_same_result ties it to index_read, on which the other properties rest. The two refuted theorems are the reasons not to use such an index."
  },
  {
   "property": "C81",
   "status": "proved",
   "theorems": [
    "C81_nodes",
    "C81_answers",
    "C81_tidy",
    "C81_untouched",
    "C81_again",
    "C81_swapped_refuted",
    "C81_beyond_refuted",
    "C81_unknown_refuted"
   ],
   "note": "Stated over the memory model of Share.v, since VariantsIndex.Index sorts the collections it is given in place. The three refuted theorems show that each condition is needed."
  },
  {
   "property": "C82",
   "status": "proved",
   "theorems": [
    "C82_float",
    "C82_int",
    "C82_dictionary",
    "C82_lemma",
    "C82_long_refuted"
   ],
   "note": "The conversions are those of package strconv, written after its sources; that the conversion rounds correctly is part of the contract. The properties about documents hold for any conversions, so for these."
  },
  {
   "property": "C83",
   "status": "proved",
   "theorems": [
    "C83_methods",
    "C83_any_algorithm",
    "C83_children",
    "C83_small",
    "C83_small_children",
    "C83_blind",
    "C83_has",
    "C83_children_order_refuted"
   ],
   "note": "That package sort ends in order for more than 12 elements is its contract; for up to 12 elements its code is modelled. go_sort of the other properties is shown to be what any such function gives."
  },
  {
   "property": "C84",
   "status": "proved",
   "theorems": [
    "C84_every_writing_is_read",
    "C84_every_document_can_be_written",
    "C84_what_is_read_is_a_document",
    "C84_a_part_is_refused",
    "C84_a_part_is_not_compiled",
    "C84_crash_in_unpack_refuted",
    "C84_end_to_end",
    "C84_compile",
    "C84_no_root_is_an_empty_dictionary_refuted"
   ],
   "note": "The decoder of encoding/xml is modelled from its documented behaviour and sources (not in the repository); names in the grammar are ASCII, the tables for other letters are arbitrary. l_C84 theorems ending in _refuted are the two violations."
  },
  {
   "property": "C85",
   "status": "proved",
   "theorems": [
    "C85_is",
    "C85_index",
    "C85_index_outside",
    "C85_opencorpora",
    "C85_opencorpora_not_always_refuted",
    "C85_cause",
    "C85_stop",
    "C85_stays_inside",
    "C85_storage_refuted",
    "C85_parser",
    "C85_parse_update",
    "C85_compile_cause"
   ],
   "note": "The table of return statements is written down by hand from the sources; libxml.ParseXMLFile is taken to return the error of the parser as it is. Theorems ending in _refuted are the violations."
  },
  {
   "property": "C86",
   "status": "proved",
   "theorems": [
    "C86_root",
    "C86_child",
    "C86_missing_child_is_the_root_refuted",
    "C86_tag_set",
    "C86_known_set",
    "C86_table",
    "C86_table_of",
    "C86_variants",
    "C86_size",
    "C86_filter",
    "C86_filter_next_refuted",
    "C86_hex",
    "C86_hex_unique",
    "C86_tagset_stream",
    "C86_domain_file"
   ],
   "note": "Words with the letter 0 are outside the statement about the root. Items.filter is called nowhere in the program. Theorems ending in _refuted are the violations."
  },
  {
   "property": "C87",
   "status": "proved",
   "theorems": [
    "C87_text",
    "C87_panic",
    "C87_go_string",
    "C87_is",
    "C87_wrapped_is_lost_refuted",
    "C87_new",
    "C87_next_id",
    "C87_item",
    "C87_item_of_no_node_refuted",
    "C87_lengths",
    "C87_tables",
    "C87_node_map_cannot_be_written_refuted",
    "C87_tag_string",
    "C87_tag_string_hides_the_parent_refuted",
    "C87_get_item"
   ],
   "note": "fmt.Sprintf is not modelled, texts are given. Theorems ending in _refuted are the violations."
  },
  {
   "property": "C88",
   "status": "proved",
   "theorems": [
    "C88_writes",
    "C88_reads",
    "C88_exchange",
    "C88_callers",
    "C88_writes_all",
    "C88_reads_all"
   ],
   "note": "A call is one step here; steps within calls of goroutines are in C32. Reading means that the content matters; copying an array that grows is not reading."
  },
  {
   "property": "C89",
   "status": "proved",
   "theorems": [
    "C89_accepts_exactly",
    "C89_one_reading",
    "C89_wider_than_XML",
    "C89_refused_files",
    "C89_which_files_compile"
   ],
   "note": "The decoder is the model of encoding/xml in Xml.v. Which runes above 127 may be in names is a parameter. A name with two colons is refused here; versions of Go differ."
  },
  {
   "property": "C90",
   "status": "proved",
   "theorems": [
    "C90_left_alone",
    "C90_without_errors",
    "C90_all_succeed",
    "C90_missing",
    "C90_success_is_kept_refuted"
   ],
   "note": "Model of POSIX files: a name refers to a file, removal removes the name. C90_success_is_kept_refuted shows that success is no promise."
  },
  {
   "property": "C91",
   "status": "proved",
   "theorems": [
    "C91_alone_is_Update",
    "C91_no_updater_fails",
    "C91_when_all_have_ended",
    "C91_four_steps_each",
    "C91_success_means_index_refuted",
    "C91_force_works_refuted"
   ],
   "note": "Stages of different processes do not overlap here; overlapping writes to one file are in C79 and C90."
  },
  {
   "property": "C92",
   "status": "proved",
   "theorems": [
    "C92_runes",
    "C92_symmetric",
    "C92_ascii_name",
    "C92_by_name",
    "C92_hidden",
    "C92_every_name_refuted",
    "C92_encoding"
   ],
   "note": "The orbits of unicode.SimpleFold without ASCII characters are a parameter."
  },
  {
   "property": "C93",
   "status": "proved",
   "theorems": [
    "C93_naturals",
    "C93_integers",
    "C93_padded",
    "C93_one_number"
   ],
   "note": "The formats are those of package fmt, written out in the model."
  },
  {
   "property": "C94",
   "status": "proved",
   "theorems": [
    "C94_same",
    "C94_lookup",
    "C94_lookup_tells",
    "C94_unknown_tag",
    "C94_no_parent",
    "C94_lemma"
   ],
   "note": "The texts of the errors of lookups, additions and taggings, and of the forms of a lemma. C94_lookup_tells is for Unicode scalar values, since other runes are printed alike."
  },
  {
   "property": "C95",
   "status": "proved",
   "theorems": [
    "C95_same",
    "C95_first",
    "C95_start",
    "C95_where",
    "C95_rest"
   ],
   "note": "What packages fmt and strconv say about attributes and numbers are parameters. The texts about lemmas are those of C94."
  }
 ]
}