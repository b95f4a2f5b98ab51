# Formal model of amarin/gomorphy in Rocq (Coq 8.16.1)

The model is a set of total, computable Gallina functions written function by function
from the Go source in /repo; every definition cites the file and lines it models and
states its simplifications.  Properties (C01...) are listed in `properties.jsonl`, their
status and theorem names in `MANIFEST.json`, mutation experiments in `seeded/LOG.jsonl`.

Build: `cd rocq && coq_makefile -f _CoqProject -o Makefile && make -j4`.

## Layout (`rocq/theories`)

| kind | files |
| --- | --- |
| model | `Base` (results, wrap-around, byte strings), `Storage` (pkg/storage), `Bin` (contract of binutils), `Utf8` (string/rune conversions), `Tags` (pkg/dag), `TagSets`, `Variants`, `Items`, `Index` (internal/index), `Streams` (WriterTo/ReaderFrom of the sets), `Alias` (slices with backing arrays), `Share` (arrays that sets and collections share), `Lend` (arrays that callers of pkg/storage share with it), `Parser`, `Loader`, `Paths` (pkg/opencorpora, pkg/common, dag/utils.go), `Cli`, `Strconv`, `Session`, `Screen` (cmd/opencorpora_test), `Flags` (cmd/opencorpora_update), `Conc`, `ConcTags` (goroutines), `Render` (String methods), `Memory` (what the readers ask for), `Float` (strconv.ParseFloat for attributes), `Sorting` (sort.Interface), `Xml` (the tokens of encoding/xml), `Dates` (time.Parse of the Last-Modified header), `Fill` (reading an index in place, with what a failure leaves), `Overlap` (several processes on one file), `Unlink` (the same with errors and the removal of the file), `Together` (several calls of Update, stage by stage), `Report` (the speed report of the parser, with its specification), `Corpus` (relation.go, lemma_list.go, attributes), `Errors` (the error values and where they are returned), `Minor` (package grammemes and small accessors), `Fold` (strings.EqualFold), `Messages` (the texts of the errors of lookups, additions and taggings), `Complaints` (those of the parser), `Footprint` (all calls as one type, with the tables of what each reads and writes) |
| specification | `Spec` (abstract dictionary, histories), `Hist` (histories run on the model, capacity limits), `Limits` (limits in terms of the abstract dictionary only), `DocSpec` (XML documents and what they say), `Calls` (a document as calls), `LoaderSpec` (decision table, crashes), `Numerals` (Go's integer literals), `Browse` (lines typed), `Foreign` (what any index file says), `FlagSpec` (arguments), `PathSpec` (where a path leads), `FileSpec` (the index file as a grammar), `Floats` (how numbers are written), `XmlSpec` (how documents are written), `XmlLang` (the language the decoder accepts), `Tidy` (what Optimize may do to the content of a file), `ScreenSpec`, `RenderSpec` (what is printed), `DateSpec` (the calendar and how dates are written), `ServerSpec` (a server that publishes versions, calls of Update in turn), `AnswerSpec` (what each command of the browser answers), `StageSpec` (the stages of Update as rules), `ErrorSpec` (what it means to recognise an error), `MinorSpec` (chains of errors), `TogetherSpec` (updaters that meet the same server), `FoldSpec` (names in small letters), `FormatSpec` (numerals), `MessageSpec`, `ComplaintSpec` (what errors say) |
| lemmas | `BaseFacts`, `Intern`, `SpecFacts`, `DictFacts`, `TrieFacts`, `NoteFacts`, `OptFacts`, `BinFacts`, `CodecFacts`, `ReloadFacts`, `HistFacts`, `QueryFacts`, `ParserFacts`, `Utf8Facts`, `NumFacts` |
| proofs of the properties | `Thm*` (lemmas `l_Cnn_...`) |
| properties | `Props*`: only `Theorem Cnn_...: ... exact l_Cnn_...`, `Print Assumptions`, and concrete cases (`Example`) |
| tests | `RepoTests`: the tables of the repository's own unit tests, computed on the model |

The specification files refer to no definition of the code's model, except `Hist`, `Calls`,
`LoaderSpec`, `StageSpec` and `ServerSpec`, which say how the code is run, and `AnswerSpec`, whose answers are the type `Session.reply`.

## Representation

* `uint8/16/32` values are `N` with explicit wraps; `int` and lengths are unbounded
  (64-bit `int` assumed); runes are `Z`; strings are byte lists.
* error returns are `Err sentinel`, run-time panics are `Panic`.  State changed before an
  error is returned is kept in the model (functions return the new state and the result).
* an `Index` value is a record of tag list, tag set tables, collection tables, node array,
  next id, children map (map of maps, with presence of empty inner maps visible) and word
  counter.  A `Node` is its identifier.
* `sort.Sort` is any function that uses Less and Swap and ends in order (C83; for up to 12 elements its code is modelled).
* Histories: a list of API calls (add, fetch, register tag, attach tag set, optimise,
  save+load) run from `New()`.  Capacity limits (identifier widths) are guards on the
  states met; C59 proves that every history small enough by `Limits.v` runs and meets them.
  Theorems named `..._refuted` show what happens beyond.
* Goroutines make one access to shared memory per step; memory is sequentially consistent,
  and one operation on a Go map is one step (a real unsynchronised map write may also crash
  the program; the model's races are therefore reported by C32, not given a meaning).
* The loader runs on four files and two directories with an arbitrary environment (clock,
  failures, server, decompressor, tokenizer).  Every function gives the list of elementary
  changes; a crash is any prefix of that list.

## Properties: what is modelled and how it is proved

* C01 bit operations on `N`; arithmetic characterisation, then div/mod reasoning.
* C02-C07 trie operations; invariant on the index (node array and children map describe the
  same tree) preserved by each API call; refinement to a prefix set by induction on histories.
* C08 `Word` with fuel; termination from `parent < id`; equals the UTF-8 encoding of the word.
* C09 encoder and decoder as functions; case analysis on rune ranges, induction on strings.
* C10 `NewChild` with its growth rule; invariant `length >= nextID`.
* C11 tag list; induction on registrations; 257 names refutation by computation.
* C12-C15, C39-C41 interning tables; invariant (sorted, distinct, sized) and injectivity of
  identifiers; refutations by explicit witnesses.
* C16-C20 refinement of annotations to a map word -> set of sorted tag lists.
* C21-C22 Optimize: renumbering is injective on used ids; abstraction unchanged.
* C23-C30 codec: writer/reader pairs, round-trip, prefix rejection and exact consumption
  composed from per-component lemmas; load rebuilds the children map of the same tree.
* C31 fetch only adds empty inner maps; observational equivalence of states.
* C32-C35, C58 small-step interleaving semantics, invariant over all schedules; refutations by
  explicit schedules.
* C36-C37 panic freedom of node methods; byte slicing.
* C38 byte counts of stream readers.
* C42-C47 XML event parser as a state machine over event lists; well-nested streams as an
  inductive grammar; slices with backing arrays and an arbitrary growth policy for C44.
* C48-C53, C55, C56 loader as a program over an explicit file system and an oracle for the
  network; crash points as prefixes of the sequence of file-system effects.
* C54 decision logic of the index browser's argument handling.
* C57, C61 composition: download, unpack, parse, save, load, browse.
* C59 every history within the limits runs, by a counting argument on the abstract dictionary.
* C60 strconv and the command loop; refinement of a line to a request (grammar of Go's
  integers, `Numerals`).
* C62 any file that loads, whoever wrote it: the tree of records that can be reached.
* C63 package flag's parser against a declarative grammar of argument lists.
* C64 path.Clean against walking the pieces of a path.
* C65 tagging from several goroutines against the calls in sequence.
* C66 the index with addresses refines the index with values; frame conditions for any file.
* C67 reader and writer of the index file against a grammar of bytes.
* C68 collections of addresses refine collections of values for callers that leave kept slices
  alone; invariants for all callers.
* C69 the browser's standard output as bytes: unique parsing, independence of the map order.
* C70 String methods as bytes: unique parsing under stated conditions, witnesses otherwise.
* C71 unused code: channel of relation.go, lemma search, attributes.
* C72 readers instrumented with the sizes given to `make`; induction on the loops.
* C73 a calendar counted year by year against Go's closed formula; each field of the parser proved equal to a grammar, both ways.
* C76 by cases along the code; determinism of the rules makes them equivalences.
* C77 by two invariants of the parser with its clock: the pace of the reports, and which lemma each belongs to.
* C78-C79 a file with a position per process; invariants over all interleavings, and schedules for the converse and the refutations.
* C80 fillers agree with the readers of the codec; what is left by induction on the announced lengths.
* C81 invariant of the loop that builds the new tables over shared arrays: every replaced number leads to the sorted collection of the old one, and the collections still to come are unchanged or sorted.
* C82 runs of digits and underscores, then the point and the exponent; each loop of strconv against the grammar, both ways; the cut exponent is bounded by the length of the text.
* C83 a sorting function is a tree of questions and exchanges; each exchange is a permutation, and the sorted permutation of numbers is unique.
* C84 mutual induction over the ways to write a document; each token of markup is read from any text that begins with it, and reading more text cannot change a token already complete, so a part of one is an error.
* C85 the errors of a function are enumerated through the call graph and shown to be all of them; the claims are then decided for each function; the codes of `Parser.v` and `Loader.v` are linked to error values by induction over the events.
* C86 the accessors no other property speaks of are unfolded and reduced to the invariants of the trie and the annotations; hexadecimal numerals by induction over the digits.
* C87 chains of errors by induction over the chain; the accessors by the invariants of the trie.
* C88 frame and dependence of each call by unfolding (lookups and adding by induction over the word, Optimize by induction over what it replaces, reading by sections); exchange of two calls from these two alone; two callers by induction over the order; witnesses for every entry of the tables by computation.
* C89 every reader of the decoder is inverted (what it returns was there in the text, in the form the rule says), then induction over the length of the text for `accepted -> in the language` with the open elements; mutual induction over the rules for the converse; one reading because documents with the same events are the same.
* C90 an invariant of the process that is alone with its file; without errors a simulation by Overlap.v (C79); the loss by a run for any bytes.
* C91 an invariant of the directory and the places of all updaters: once there is an archive, somebody is about to unpack or to compile, or the index is there; a rank that falls with every step.
* C92 by following the orbits of the ASCII characters; the table `tag_says` of C75 with this comparison.
* C93 by induction on numerals.
* C94 by erasing the texts for agreement with `Index` and `Parser`, and by induction on the word along the trie.
* C95 by erasing the texts for agreement with `Parser`, and by cases on the table of positions.
* C75 by cases on the command; that the tables are unambiguous is proved with them (the theorems are equivalences).
* C74 induction on the calls; the state is the last call that fetched the archive and the version it got.

Violated properties: the strongest true variant is proved, and a theorem ending in
`_refuted` gives a concrete witness; the property text in properties.jsonl states the exact
boundary.

## Findings

Behaviour the proofs bring to light (each is a theorem or example named in brackets).

* After a load, letters U+0000 at the start of a word are skipped by the lookup (the root becomes
  its own child under U+0000), so words never added are found [C24].
* An empty tag list attaches the first set of one tag [C19]; a set identifier 0 is both a
  value and "none".
* `TagSetIndex.TableIDs` is off by one for every table [C15].
* `Index.Get(0)` gives a node whose methods panic [C36]; `Node.String` cuts the last byte of
  the word, not its last letter [C37].
* Length prefixes and identifiers wrap silently at 256/65536 entries, such indexes save
  without error and cannot be loaded, or two sets get one identifier [C11-C13, C29, C39].
* `Collection8x8.Find`/`Collection16.Find` panic on sizes never stored [C40].
* `Set16.ReadFrom` does not count an odd last byte [C38].
* Reading into an index that is not empty adds counts and keeps old children [C30].
* Empty names and four spaces come back as `----` [C28].
* A file with unsorted collections: tagging one word reorders the sets of others, because the
  shared slice is sorted in place [C66].
* `storage.Collection8x8`/`Collection16` keep the caller's slice: writing to it later breaks
  uniqueness and lookup [C68].
* Eleven bytes of a damaged index file make the loader ask for 96 GiB [C72].
* A Last-Modified header in one of the two older HTTP date forms is never understood, and the archive is fetched on every run [C73].
* The archive is dated by the time it was written here, not by the server's date: a version published while the archive is fetched, or in the same second, is not noticed until the next one; with a clock that is late the same version is fetched again and again [C74].
* Files are written over in place, without a lock and without renaming: a reader overtaken by a save, or two saves at the same time, can give a dictionary that was never saved [C78, C79].
* An index into which a read has failed mixes two dictionaries: known words may be spelled differently, `TagSets` may panic [C80]. LoadIndex never returns such an index.
* Optimize trusts the number each record of a file carries: with two numbers exchanged it exchanges the tags of two words, with one out of range it panics, and a record that refers to no collection may get that of another word [C81].
* A dictionary whose version is `nan`, `Infinity` or `0x1p-2` is accepted, one with version `1e39` or `0.92b` cannot be compiled [C82].
* The order of children of one parent after `ChildList.Sort` depends on the Go version [C83].
* A dictionary file without root element, such as one left empty by a crash, is compiled without error and replaces the index by one without words; a file cut inside the root is refused, and is not unpacked again [C84].
* What compiles as a dictionary need not be XML: attributes may follow each other without a space, there may be several roots, and a declaration may stand anywhere [C89].
* An updater that fails removes the index by name, even when another updater has written it in the meantime and reported success [C90].
* An updater started while another is between download and compilation reports success when there is no index yet; a forced one fails [C91].
* `tag NAME` shows the first tag with that name up to case, so of ANim and anim the second cannot be shown by name [C92].
* The errors of ParseUpdate and Update are not always opencorpora.Error: an unknown grammeme or an empty form gives index.Error under two layers of text. ErrSet8 and ErrSet16 are wrapped with %w only where the length is written, elsewhere they are only text [C85].
* getChild (called nowhere) gives the root node for a letter that does not follow the word if another letter does; Items.filter (called nowhere) leaves nextID one too large and Get then panics; Table(0) of the lists of sets panics [C86].
* grammemes.Error has no method Unwrap: what WrapErrorf wraps cannot be recognised; wrapping a nil pointer panics when the text is asked for. Node.Item of a number that is no node gives the zero item or panics. NodeMap.BinaryWriteTo only panics [C87].
* No checksum: a changed byte of the index file loads as another dictionary [C62].
* `FetchRunes` writes to the children map of an index that was built in memory, so concurrent
  lookups race [C32]; concurrent `NewChild` can lose a node [C34], concurrent `AddRunes`
  of one word can create it twice [C35] and a new child map can overwrite another's [C58];
  concurrent tagging mixes up sets of different words or panics [C65].
* The parser mistakes element names with dots for nesting [C42, C47] and keeps only the last
  piece of a grammeme's name [C46].
* Update: a failed or interrupted download or parse is not repaired by the next run
  [C52]; `IsUpdateRequired` dereferences a nil file info [C53]; the status of the response is
  not looked at [C55]; a data directory of one's own is not made [C56, C64]; a failed `Close` is
  dropped [C50]; the compiled file is written in place [C51].
* The browser refuses the last node, panics on node 0, wraps negative numbers [C54], cannot
  look up words that are commands [C60].
* `ChildList.Sort` starts a goroutine that can never end and sends duplicates [C71];
  `WordForm.GetTagsFromSet` tests for nil and dereferences all the same [C70].
* `opencorpora_update -f false` leaves force on [C63].

## Trusted base

* Coq's kernel.  No axioms are declared, none of the standard library's are used: `Print
  Assumptions` of every theorem in MANIFEST.json says `Closed under the global context` (list
  at the end of this file).  The seven constants `Coq.ssr.ssrunder.Under_rel.*` some tools
  report belong to a module type of the ssreflect plugin that std++ loads; no theorem depends on them.
* std++ (lists, finite maps, `decide`) as installed; its lemmas are checked by the kernel.
* The reading of the Go source (nothing is extracted or run here).  `RepoTests.v` checks the
  reading against the repository's unit tests.
* The contracts of code outside the repository, each stated where it is modelled: binutils
  (`Bin.v`: big-endian fixed-width integers, short reads are errors), encoding/xml
  (`Xml.v`: how text becomes tokens; only C84 and C89 depend on it, elsewhere the tokens are arbitrary) and libxml
  (`Parser.v`: tokens are delivered in order until the first error), os and net/http and bzip2
  (`Loader.v`), strconv and strings (`Strconv.v`, `Session.v`), flag (`Flags.v`), path and
  path/filepath on Unix (`Paths.v`).
* `strings.EqualFold` of the browser is any relation on names in `Session.v`; in `Fold.v`, used by C92 only, it is written out, with `unicode.SimpleFold` outside the orbits of ASCII characters as a parameter.
* The texts that packages fmt and strconv make for a list of attributes and for a text that is no number are parameters of C95 (`voice` in `Complaints.v`).

## Not modelled

Log output, the text of error messages other than those of C94 and C95, progress bars, time
spent, what happens when memory runs out (how much is asked for while loading is C72), TLS and proxies, signals, Windows paths, symbolic links, the unimplemented or
unused declarations of pkg/dag and pkg/opencorpora (interfaces, links, restrictions).

## Print Assumptions

Output for every theorem of MANIFEST.json (printed by the build):

* C01: `C01_combine16_split`, `C01_split16_combine`, `C01_combine16_injective`, `C01_combine8_split`, `C01_split8_combine`, `C01_combine8_injective`: `Closed under the global context`
* C02: `C02_added_is_found`, `C02_added_string_is_found`: `Closed under the global context`
* C03: `C03_found_iff`, `C03_empty_word`: `Closed under the global context`
* C04: `C04_same_node_iff_same_word`, `C04_node_is_stable`: `Closed under the global context`
* C05: `C05_nodes_count`: `Closed under the global context`
* C06: `C06_add_again`: `Closed under the global context`
* C07: `C07_add_below_node`, `C07_unknown_parent`: `Closed under the global context`
* C08: `C08_word`, `C08_string_word`: `Closed under the global context`
* C09: `C09_runes_round_trip`, `C09_string_round_trip`, `C09_distinct`, `C09_ill_formed`, `C09_ill_formed_collide_refuted`: `Closed under the global context`
* C10: `C10_allocation`, `C10_one_more`: `Closed under the global context`
* C11: `C11_registration`, `C11_overflow_refuted`, `C11_257_names_refuted`: `Closed under the global context`
* C12: `C12_tag_sets`, `C12_overflow_refuted`, `C12_overflow_reachable`: `Closed under the global context`
* C13: `C13_collections`, `C13_empty`, `C13_overflow_refuted`, `C13_overflow_reachable`: `Closed under the global context`
* C14: `C14_known_id`, `C14_following`, `C14_following_order`: `Closed under the global context`
* C15: `C15_table_ids_refuted`, `C15_listed`: `Closed under the global context`
* C16: `C16_tag_sets_exact`: `Closed under the global context`
* C17: `C17_other_words_untouched`: `Closed under the global context`
* C18: `C18_unregistered`, `C18_registered`: `Closed under the global context`
* C19: `C19_empty_list_attaches_refuted`: `Closed under the global context`
* C20: `C20_words_count`: `Closed under the global context`
* C21: `C21_optimize_invisible`: `Closed under the global context`
* C22: `C22_optimize_exact`: `Closed under the global context`
* C23: `C23_save_load_same_answers`, `C23_history_goes_on`: `Closed under the global context`
* C24: `C24_null_words_refuted`: `Closed under the global context`
* C25: `C25_truncated_file_rejected`, `C25_any_accepted_file`, `C25_no_panic`: `Closed under the global context`
* C26: `C26_reads_exactly_what_was_written`, `C26_rest_does_not_matter`: `Closed under the global context`
* C27: `C27_bytes_stable`: `Closed under the global context`
* C28: `C28_marshal`, `C28_unmarshal`, `C28_saving_fails_iff`: `Closed under the global context`
* C29: `C29_tags`, `C29_tag_set`, `C29_set_table`, `C29_set_index`, `C29_collection`, `C29_collection_table`, `C29_collection_index`, `C29_nodes`, `C29_tags_refuted`, `C29_tag_set_refuted`, `C29_set_table_refuted`, `C29_collection_refuted`, `C29_collection_index_refuted`, `C29_256_tags_refuted`, `C29_256_in_set_refuted`, `C29_256_sets_refuted`: `Closed under the global context`
* C30: `C30_counts_add_up_refuted`, `C30_old_letters_refuted`, `C30_over_an_index_without_words`: `Closed under the global context`
* C31: `C31_lookup_has_no_effect`: `Closed under the global context`
* C32: `C32_answers`, `C32_loaded_never_written`, `C32_loaded_no_race`, `C32_every_schedule_ends`, `C32_alone`, `C32_built_race_refuted`: `Closed under the global context`
* C33: `C33_unique_consecutive`, `C33_each_request_one_number`, `C33_no_crash_no_deadlock`, `C33_mutual_exclusion`: `Closed under the global context`
* C34: `C34_enough_room_none_lost`, `C34_alone`, `C34_lost_refuted`: `Closed under the global context`
* C35: `C35_alone`, `C35_twice_refuted`: `Closed under the global context`
* C36: `C36_nodes_usable`, `C36_returned_nodes`, `C36_get_iff`, `C36_root_panics`, `C36_get_zero_refuted`: `Closed under the global context`
* C37: `C37_node_string`, `C37_node_string_refuted`, `C37_any_letter`: `Closed under the global context`
* C38: `C38_set8_write`, `C38_set16_write`, `C38_tagset_write`, `C38_set8_round`, `C38_set16_round`, `C38_set8_read`, `C38_set16_read`, `C38_set8_left`, `C38_set16_left`, `C38_tagset_read`, `C38_set8_long`, `C38_set16_long`, `C38_set16_odd_refuted`: `Closed under the global context`
* C39: `C39_collection16`, `C39_collection8`, `C39_collection16_overflow_refuted`, `C39_collection8_overflow_refuted`, `C39_table8`, `C39_table16`, `C39_table8_overflow_refuted`, `C39_table16_overflow_refuted`, `C39_overflow_reachable`: `Closed under the global context`
* C40: `C40_find_panics`, `C40_find_otherwise`, `C40_find8_otherwise`, `C40_find_panics_refuted`: `Closed under the global context`
* C41: `C41_equal_to`, `C41_equal_to_sorted`: `Closed under the global context`
* C42: `C42_position`, `C42_back_at_start`, `C42_next_element`, `C42_dotted_refuted`: `Closed under the global context`
* C43: `C43_same_as_calls`, `C43_only_known`, `C43_history`, `C43_first_bad_form`, `C43_what_is_found`: `Closed under the global context`
* C44: `C44_exact`, `C44_parser_agrees`, `C44_order_matters`: `Closed under the global context`
* C45: `C45_stops_after_limit`, `C45_limit_not_reached`, `C45_earlier_failure`, `C45_never_without_limit`: `Closed under the global context`
* C46: `C46_one_piece`, `C46_last_piece`, `C46_split_name_refuted`: `Closed under the global context`
* C47: `C47_no_nil_pointer`, `C47_dotted_refuted`: `Closed under the global context`
* C48: `C48_table`, `C48_download`, `C48_unpack`, `C48_compile`, `C48_nothing_to_do`: `Closed under the global context`
* C49: `C49_failed_parse`, `C49_what_fails`, `C49_only_saving_changes_it`: `Closed under the global context`
* C50: `C50_success`, `C50_failure`, `C50_completes`, `C50_no_panic`, `C50_close_refuted`: `Closed under the global context`
* C51: `C51_what_a_crash_leaves`, `C51_crash_safe_refuted`: `Closed under the global context`
* C52: `C52_stuck`, `C52_stuck_forever_refuted`, `C52_crash_in_download_refuted`, `C52_force_recompiles`, `C52_works_without_archive`, `C52_failed_download_refuted`: `Closed under the global context`
* C53: `C53_required`, `C53_check_fails`, `C53_panics_iff`, `C53_only_there`, `C53_panic_refuted`: `Closed under the global context`
* C54: `C54_node`, `C54_node_numbers`, `C54_node_content`, `C54_last_node_refuted`, `C54_node_zero_refuted`, `C54_negative_node_refuted`, `C54_word`, `C54_search`, `C54_tag_numbers`, `C54_table_numbers`, `C54_set_numbers`, `C54_var_numbers`, `C54_unknown_variant_refuted`: `Closed under the global context`
* C55: `C55_status_ignored_refuted`: `Closed under the global context`
* C56: `C56_custom_directory_refuted`: `Closed under the global context`
* C57: `C57_end_to_end`: `Closed under the global context`
* C58: `C58_old_words_stay`, `C58_lost_refuted`: `Closed under the global context`
* C59: `C59_runs`, `C59_answers`, `C59_no_panic`, `C59_no_limit_on_calls`: `Closed under the global context`
* C60: `C60_fields`, `C60_all_lines`, `C60_numbers`, `C60_no_memory`, `C60_search`, `C60_command_words_refuted`, `C60_crashes`, `C60_node_number`: `Closed under the global context`
* C61: `C61_update_then_browse`, `C61_within_limits`: `Closed under the global context`
* C62: `C62_records`, `C62_lookup`, `C62_word_of_found`, `C62_word_of_any`, `C62_tag_sets`: `Closed under the global context`
* C63: `C63_accepted`, `C63_help`, `C63_refused`, `C63_no_other_exit`, `C63_exit_0`, `C63_exit_2`, `C63_exit_codes`, `C63_files`, `C63_no_arguments`, `C63_separate_value`, `C63_then_browse`: `Closed under the global context`
* C64: `C64_same_place`, `C64_unique`, `C64_idempotent`, `C64_shortest`, `C64_files`, `C64_three_files`, `C64_made`, `C64_resolve`, `C64_resolve_fails`: `Closed under the global context`
* C65: `C65_others_kept`, `C65_whole_call`, `C65_alone`, `C65_known_sets`, `C65_count`, `C65_layout`, `C65_mixed_up_refuted`, `C65_later_panic_refuted`, `C65_crash_refuted`, `C65_lost_count_refuted`: `Closed under the global context`
* C66: `C66_step`, `C66_histories`, `C66_no_guard`, `C66_any_file`, `C66_any_file_tags`, `C66_any_file_own`, `C66_held_slices`, `C66_others_order_refuted`, `C66_caller_writes_refuted`: `Closed under the global context`
* C67: `C67_reader`, `C67_unambiguous`, `C67_size`, `C67_writer`: `Closed under the global context`
* C68: `C68_sizes`, `C68_once`, `C68_stable`, `C68_found_now`, `C68_copies`, `C68_write_seen`, `C68_writes_refuted`, `C68_argument_sorted_refuted`: `Closed under the global context`
* C69: `C69_order`, `C69_items`, `C69_unique`, `C69_children`, `C69_set`, `C69_var`, `C69_commas_refuted`, `C69_node`: `Closed under the global context`
* C70: `C70_tagset`, `C70_table`, `C70_collection`, `C70_item`, `C70_idmap`, `C70_nil`, `C70_dag_tagset`, `C70_categories`, `C70_form`, `C70_grammemes`, `C70_lemma`, `C70_order_refuted`, `C70_ambiguous_refuted`: `Closed under the global context`
* C71: `C71_sends`, `C71_one_per_parent`, `C71_stuck`, `C71_finished`, `C71_receiver`, `C71_get`, `C71_search`, `C71_attr`, `C71_grammeme`, `C71_one_per_parent_refuted`: `Closed under the global context`
* C72: `C72_same_reader`, `C72_accepted`, `C72_any_file`, `C72_short_file_refuted`, `C72_bound_reached`: `Closed under the global context`
* C73: `C73_next_second`, `C73_epoch`, `C73_order`, `C73_exact`, `C73_fixdate`, `C73_check`, `C73_old_formats`, `C73_old_formats_download`, `C73_weekday_refuted`: `Closed under the global context`
* C74: `C74_fresh`, `C74_never_twice`, `C74_count`, `C74_unnoticed`, `C74_published_while_writing_refuted`, `C74_late_clock_refuted`: `Closed under the global context`
* C75: `C75_tag`, `C75_set`, `C75_var`, `C75_reload`, `C75_reload_fails`, `C75_exit`, `C75_node`: `Closed under the global context`
* C76: `C76_download`, `C76_unpack`, `C76_compile`, `C76_update`, `C76_success`, `C76_untouched`: `Closed under the global context`
* C77: `C77_never_stops`, `C77_reports`, `C77_how_many`, `C77_which`, `C77_silent`, `C77_clock_set_back_refuted`: `Closed under the global context`
* C78: `C78_seen`, `C78_opened_late`, `C78_same_bytes`, `C78_load`, `C78_overtaken_refuted`: `Closed under the global context`
* C79: `C79_mixture`, `C79_same_bytes`, `C79_alone`, `C79_two_saves_refuted`, `C79_finished_refuted`: `Closed under the global context`
* C80: `C80_same_result`, `C80_kept`, `C80_try_again`, `C80_left_over`, `C80_other_file`, `C80_spelled_differently_refuted`, `C80_tags_panic_refuted`: `Closed under the global context`
* C81: `C81_nodes`, `C81_answers`, `C81_tidy`, `C81_untouched`, `C81_again`, `C81_swapped_refuted`, `C81_beyond_refuted`, `C81_unknown_refuted`: `Closed under the global context`
* C82: `C82_float`, `C82_int`, `C82_dictionary`, `C82_lemma`, `C82_long_refuted`: `Closed under the global context`
* C83: `C83_methods`, `C83_any_algorithm`, `C83_children`, `C83_small`, `C83_small_children`, `C83_blind`, `C83_has`, `C83_children_order_refuted`: `Closed under the global context`
* C84: `C84_every_writing_is_read`, `C84_every_document_can_be_written`, `C84_what_is_read_is_a_document`, `C84_a_part_is_refused`, `C84_a_part_is_not_compiled`, `C84_crash_in_unpack_refuted`, `C84_end_to_end`, `C84_compile`, `C84_no_root_is_an_empty_dictionary_refuted`: `Closed under the global context`
* C85: `C85_is`, `C85_index`, `C85_index_outside`, `C85_opencorpora`, `C85_opencorpora_not_always_refuted`, `C85_cause`, `C85_stop`, `C85_stays_inside`, `C85_storage_refuted`, `C85_parser`, `C85_parse_update`, `C85_compile_cause`: `Closed under the global context`
* C86: `C86_root`, `C86_child`, `C86_missing_child_is_the_root_refuted`, `C86_tag_set`, `C86_known_set`, `C86_table`, `C86_table_of`, `C86_variants`, `C86_size`, `C86_filter`, `C86_filter_next_refuted`, `C86_hex`, `C86_hex_unique`, `C86_tagset_stream`, `C86_domain_file`: `Closed under the global context`
* C87: `C87_text`, `C87_panic`, `C87_go_string`, `C87_is`, `C87_wrapped_is_lost_refuted`, `C87_new`, `C87_next_id`, `C87_item`, `C87_item_of_no_node_refuted`, `C87_lengths`, `C87_tables`, `C87_node_map_cannot_be_written_refuted`, `C87_tag_string`, `C87_tag_string_hides_the_parent_refuted`, `C87_get_item`: `Closed under the global context`
* C88: `C88_writes`, `C88_reads`, `C88_exchange`, `C88_callers`, `C88_writes_all`, `C88_reads_all`: `Closed under the global context`
* C89: `C89_accepts_exactly`, `C89_one_reading`, `C89_wider_than_XML`, `C89_refused_files`, `C89_which_files_compile`: `Closed under the global context`
* C90: `C90_left_alone`, `C90_without_errors`, `C90_all_succeed`, `C90_missing`, `C90_success_is_kept_refuted`: `Closed under the global context`
* C91: `C91_alone_is_Update`, `C91_no_updater_fails`, `C91_when_all_have_ended`, `C91_four_steps_each`, `C91_success_means_index_refuted`, `C91_force_works_refuted`: `Closed under the global context`
* C92: `C92_runes`, `C92_symmetric`, `C92_ascii_name`, `C92_by_name`, `C92_hidden`, `C92_every_name_refuted`, `C92_encoding`: `Closed under the global context`
* C93: `C93_naturals`, `C93_integers`, `C93_padded`, `C93_one_number`: `Closed under the global context`
* C94: `C94_same`, `C94_lookup`, `C94_lookup_tells`, `C94_unknown_tag`, `C94_no_parent`, `C94_lemma`: `Closed under the global context`
* C95: `C95_same`, `C95_first`, `C95_start`, `C95_where`, `C95_rest`: `Closed under the global context`
