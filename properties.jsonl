{"id": "C01", "title": "Identifier packing is lossless", "statement": "Combining an upper and a lower half identifier and then taking the upper (lower) half gives back the upper (lower) half, and splitting any combined identifier and recombining it gives the identifier back; so two different (table, position) pairs never share an identifier.", "quantifier": "all pairs of uint16 (uint8) halves and all uint32 (uint16) identifiers", "why_tests_cant": "2^32 values; the unit tests sample three", "anchors": ["pkg/storage/id16.go: Upper, Lower, Combine8", "pkg/storage/id32.go: Upper16, Lower16, Combine16"]}
{"id": "C02", "title": "A word just added is found", "statement": "After AddString/AddRunes of a non-empty word succeeds, FetchString/FetchRunes of the same word succeeds and returns the same node, at any later moment, whatever was added, fetched, tagged or optimised in between.", "quantifier": "all words (rune sequences), all histories of API calls before and after the add", "why_tests_cant": "quantifies over unbounded words and unbounded call histories", "anchors": ["internal/index/idx.go: AddRunes, AddString, AddToNode, FetchRunes, FetchString, FetchFromItem"]}
{"id": "C03", "title": "Lookup is exact: found iff a prefix was added", "statement": "FetchRunes(w) succeeds if and only if w is non-empty and is a prefix of some word added before; in particular nothing that was never added (as a prefix) is ever found, and the empty word is always an error.", "quantifier": "all query words, all histories of API calls", "why_tests_cant": "a negative over an infinite set of words and histories", "anchors": ["internal/index/idx.go: FetchFromItem, AddToNode, GetChildrenIDMap"]}
{"id": "C04", "title": "Node identity coincides with word identity", "statement": "Two lookups return the same node if and only if the looked-up words are equal; and the node a word resolves to never changes as more words, tags or lookups follow.", "quantifier": "all pairs of words, all histories and all their extensions", "why_tests_cant": "pairs of words times histories is unbounded", "anchors": ["internal/index/idx.go: FetchFromItem, AddToNode", "internal/index/items.go: NewChild"]}
{"id": "C05", "title": "NodesCount counts distinct prefixes", "statement": "NodesCount() equals the number of distinct non-empty prefixes of the words added so far (maximal prefix sharing, no duplicate nodes).", "quantifier": "all histories of API calls", "why_tests_cant": "a counting identity over every history; tests check a handful of word lists", "anchors": ["internal/index/idx.go: NodesCount, AddToNode", "internal/index/items.go: NewChild, NextID"]}
{"id": "C06", "title": "Re-adding is idempotent", "statement": "Adding a word that is already present (as a word or as a prefix) returns the node it already had and changes nothing observable: NodesCount, WordsCount, every lookup and every tag list stay the same.", "quantifier": "all words, all reachable indexes", "why_tests_cant": "must hold in every reachable state", "anchors": ["internal/index/idx.go: AddToNode"]}
{"id": "C07", "title": "Adding below a node equals adding the concatenated word; an unknown parent is rejected without effect", "statement": "If p resolves to node id, AddToNode(id, r) returns the same node and leaves the same index as AddRunes(p ++ r). If id is not a node of the index, AddToNode returns an error and the index is unchanged.", "quantifier": "all parents, all rune suffixes, all reachable indexes", "why_tests_cant": "an algebraic law over all states and inputs", "anchors": ["internal/index/idx.go: AddToNode"]}
{"id": "C08", "title": "Word() returns the word the node was reached by", "statement": "For every node obtained by adding or fetching a word w, Word() terminates and returns exactly the UTF-8 encoding of w; for AddString of a valid UTF-8 string it returns that very string.", "quantifier": "all words, all reachable indexes (termination of the parent walk included)", "why_tests_cant": "termination and correctness of an unbounded recursion over every reachable tree", "anchors": ["internal/index/node.go: Word", "internal/index/idx.go: AddString, FetchString"]}
{"id": "C09", "title": "UTF-8 conversion round-trips", "statement": "Converting a valid rune sequence to a string and back yields the same runes, and converting a valid UTF-8 string to runes and back yields the same bytes, so distinct valid strings are distinct words; ill-formed bytes become U+FFFD, so distinct ill-formed strings can collide.", "quantifier": "all rune sequences and all byte strings", "why_tests_cant": "infinite domain", "anchors": ["internal/index/idx.go: AddString, FetchString ([]rune conversion)", "internal/index/node.go: Word (string(rune))"]}
{"id": "C10", "title": "Node storage never runs out of room and never moves data", "statement": "Allocating a node never writes outside the node storage, never reuses an identifier that is in use, hands out identifiers 1,2,3,... consecutively and leaves all previously stored nodes unchanged, for any number of allocations below 2^32.", "quantifier": "all sequences of allocations (any parents and letters)", "why_tests_cant": "the growth rule uses 2^i (xor in Go) and must give room at every length", "anchors": ["internal/index/items.go: NewItems, NewChild, Extend, Get"]}
{"id": "C11", "title": "Tag registration is stable and idempotent", "statement": "TagID(name, parent) returns the identifier the name already has, or the next free one; identifiers are dense from 0, resolve back to the first registration (name and first parent) and never change later. Holds for up to 256 distinct names; with a 257th the new name silently gets identifier 0 (refuted beyond the limit).", "quantifier": "all sequences of registrations", "why_tests_cant": "history-quantified; the overflow needs 257 registrations", "anchors": ["pkg/dag/idx.go: Index, Find, Get, NewIndex", "internal/index/idx.go: TagID"]}
{"id": "C12", "title": "Tag sets are interned up to order", "statement": "Indexing a tag set returns an identifier from which exactly the sorted tag set is retrieved; two tag sets get the same identifier iff they are permutations of one another; identifiers stay valid forever; looking up a sorted set without registering finds it iff it was indexed. Holds while each size class has at most 65536 sets and sets have at most 65536 elements; refuted beyond.", "quantifier": "all tag sets, all sequences of Index calls", "why_tests_cant": "permutations, injectivity and histories are unbounded", "anchors": ["internal/index/tagset_index.go: Index, Find, Get", "internal/index/tagset_table.go: Index, Find, Get", "internal/index/tagset_def.go: EqualTo, Sort"]}
{"id": "C13", "title": "Tag set collections are interned up to order", "statement": "Indexing a non-empty collection returns a non-zero identifier from which exactly the sorted collection is retrieved; equal identifiers iff permutations; the empty collection has identifier 0 and 0 resolves to the empty collection; identifiers stay valid; Find agrees with Index.", "quantifier": "all collections, all sequences of Index calls (at most 65536 per size class, sizes below 65536)", "why_tests_cant": "permutations, injectivity and histories are unbounded", "anchors": ["internal/index/variant_idx.go: Index, Find, Get", "internal/index/variant_table.go: Index, Find, Get"]}
{"id": "C14", "title": "KnownID enumerates exactly the stored collections", "statement": "KnownID lists, without repetition, exactly the identifiers returned by Index calls made so far, and each of them can be retrieved.", "quantifier": "all sequences of Index calls", "why_tests_cant": "enumeration exactness over all histories", "anchors": ["internal/index/variant_idx.go: KnownID, Index, Get"]}
{"id": "C15", "title": "The list of known tag set identifiers resolves", "statement": "Every identifier listed by TagSetIndex.TableIDs is the identifier some indexed tag set was given. Refuted: the listed table number is one too high, so listed identifiers never denote the set they were generated for, and none of them resolves when there is a single size class.", "quantifier": "all non-empty tag set indexes", "why_tests_cant": "no test covers it; the shift is total, over every index", "anchors": ["internal/index/tagset_index.go: TableIDs, Get"]}
{"id": "C16", "title": "TagSets returns exactly the tag sets attached to the word", "statement": "After any history, the tag sets returned for a word are exactly the distinct (up to order) tag lists successfully attached to it by AddTagSet, each listed once, tags within a set ordered by tag identifier, nothing else. (Tag lists must be non-empty, see C19.)", "quantifier": "all words, all histories of API calls within the capacity limits", "why_tests_cant": "full functional specification over every history", "anchors": ["internal/index/node.go: TagSets, AddTagSet", "internal/index/variant_def.go: Add, Has", "internal/index/idx.go: Variants"]}
{"id": "C17", "title": "Tagging one word never affects another", "statement": "AddTagSet on a node changes the tag sets of that node only; every other word keeps the same node and the same tag sets, in the same order, and no lookup result changes, even though tag sets and collections are shared between words.", "quantifier": "all reachable indexes, all pairs of nodes, all tag lists", "why_tests_cant": "shared storage: a frame property over all states", "anchors": ["internal/index/node.go: AddTagSet", "internal/index/variant_idx.go: Index"]}
{"id": "C18", "title": "A rejected AddTagSet has no effect", "statement": "AddTagSet with a tag name that was never registered returns an error and leaves the whole index unchanged; with all names registered it succeeds.", "quantifier": "all reachable indexes, nodes and tag name lists", "why_tests_cant": "atomicity in every state", "anchors": ["internal/index/node.go: AddTagSet", "pkg/dag/idx.go: Find"]}
{"id": "C19", "title": "An empty tag list attaches no foreign tags", "statement": "Attaching an empty list of tags to a word must not attach somebody else's tags. Refuted: the empty set is given identifier 0, which is also the identifier of the first one-element tag set ever indexed, so the word silently acquires that set.", "quantifier": "all reachable indexes", "why_tests_cant": "needs a history in which an unrelated one-tag set was indexed first", "anchors": ["internal/index/tagset_index.go: Index, Get", "internal/index/node.go: AddTagSet"]}
{"id": "C20", "title": "WordsCount counts tagged words", "statement": "WordsCount() equals the number of distinct words that have at least one tag set attached.", "quantifier": "all histories of API calls", "why_tests_cant": "counting identity over every history", "anchors": ["internal/index/idx.go: WordsCount", "internal/index/node.go: AddTagSet", "internal/index/idx.go: rebuildChildrenIndex"]}
{"id": "C21", "title": "Optimize is invisible", "statement": "Optimize never panics and changes no observable: every word keeps its node, its Word(), its tag sets (same order), and WordsCount/NodesCount are unchanged.", "quantifier": "all reachable indexes", "why_tests_cant": "renumbering of shared identifiers must be right in every state", "anchors": ["internal/index/idx.go: Optimize"]}
{"id": "C22", "title": "Optimize removes exactly the unused collections and is idempotent", "statement": "After Optimize every stored collection is used by some word, every used one is still stored, and a second Optimize changes nothing at all.", "quantifier": "all reachable indexes", "why_tests_cant": "must hold in every state", "anchors": ["internal/index/idx.go: Optimize", "internal/index/variant_idx.go: KnownID"]}
{"id": "C23", "title": "Save then load gives back the same dictionary", "statement": "Writing an index and reading the bytes into a fresh index succeeds and yields an index with the same lookups, the same nodes, the same Word(), the same tag sets, the same WordsCount and NodesCount, for every word not beginning with U+0000 and every index within the on-disk limits (255 tags, 255 tags per set, 255 sets per word, 65535 sets per size class).", "quantifier": "all reachable indexes, all words", "why_tests_cant": "round-trip over all reachable indexes", "anchors": ["internal/index/idx.go: BinaryWriteTo, BinaryReadFrom, rebuildChildrenIndex", "internal/index/items.go: BinaryWriteTo, BinaryReadFrom", "internal/index/item_def.go: BinaryWriteTo, BinaryReadFrom"]}
{"id": "C24", "title": "Loading invents no words", "statement": "A loaded index finds exactly the words the saved one found. Refuted for words beginning with U+0000: the root placeholder is re-indexed as its own child, so after loading FetchString(\"\\x00\") succeeds and every word is also found with any number of leading U+0000; the node returned for it panics in TagSets.", "quantifier": "all reachable indexes, all words beginning with U+0000", "why_tests_cant": "needs the one rune equal to the placeholder's letter", "anchors": ["internal/index/idx.go: rebuildChildrenIndex, FetchFromItem, Get", "internal/index/node.go: TagSets"]}
{"id": "C25", "title": "A truncated index file is never accepted", "statement": "Reading any strict prefix of a saved index fails with an error (no panic, no silently incomplete dictionary), whatever the truncation point.", "quantifier": "all savable indexes, all truncation points", "why_tests_cant": "every crash/truncation point of every file", "anchors": ["internal/index/idx.go: BinaryReadFrom and the read*Definitions helpers", "internal/index/items.go: BinaryReadFrom"]}
{"id": "C26", "title": "Reading consumes exactly what was written", "statement": "Reading a saved index followed by arbitrary bytes gives the same index and leaves exactly the following bytes unread.", "quantifier": "all savable indexes, all trailing byte strings", "why_tests_cant": "infinite domain", "anchors": ["internal/index/idx.go: BinaryReadFrom"]}
{"id": "C27", "title": "Saving is stable across save/load cycles", "statement": "Loading a saved index and saving it again produces byte-for-byte the same file, for any number of cycles.", "quantifier": "all savable reachable indexes", "why_tests_cant": "infinite domain", "anchors": ["internal/index/idx.go: BinaryWriteTo, BinaryReadFrom"]}
{"id": "C28", "title": "Tag names are stored in exactly four bytes", "statement": "Marshalling a tag name yields exactly 4 bytes or an error; it fails iff the name is neither empty nor 4 bytes long; unmarshalling gives the name back except that the empty name and four spaces come back as \"----\". Saving an index fails iff some registered tag (or parent) name has a bad length.", "quantifier": "all byte strings as names, all tag indexes", "why_tests_cant": "infinite domain", "anchors": ["pkg/dag/name.go: MarshalBinary, UnmarshalBinary", "pkg/dag/tag.go", "pkg/dag/idx.go: BinaryWriteTo"]}
{"id": "C29", "title": "Length prefixes do not lose data", "statement": "Every component (tag list, tag set, tag set table, tag set index, collection, collections table, collections index, node list) is read back exactly as written. Refuted at the exact width of each length prefix: 256 tags (all usable in memory) are written as a list of length 0.", "quantifier": "all component values within the prefix widths; the boundary values themselves", "why_tests_cant": "round-trips over infinite domains plus wrap-around at 2^8 and 2^16", "anchors": ["pkg/dag/idx.go: BinaryWriteTo, BinaryReadFrom", "internal/index/tagset_def.go", "internal/index/tagset_table.go", "internal/index/tagset_index.go", "internal/index/variant_def.go", "internal/index/variant_table.go", "internal/index/variant_idx.go"]}
{"id": "C30", "title": "Loading replaces the previous content", "statement": "Reading an index into an Index value replaces what it held. Refuted: word counts accumulate and lookups of words of the previous content keep resolving, to nodes of the new content or to out-of-range nodes, when the Index was not empty.", "quantifier": "all non-empty indexes read over", "why_tests_cant": "state left over from an arbitrary earlier history", "anchors": ["internal/index/idx.go: BinaryReadFrom, rebuildChildrenIndex"]}
{"id": "C31", "title": "Lookups have no observable effect", "statement": "A lookup, successful or not, never changes the result of any later operation: lookups, NodesCount, WordsCount, tag sets, saved bytes.", "quantifier": "all reachable indexes, all queries, all later operations", "why_tests_cant": "the lookup writes to the children map as a side effect, in every state", "anchors": ["internal/index/idx.go: FetchFromItem, GetChildrenIDMap"]}
{"id": "C32", "title": "Concurrent lookups agree with sequential ones, and are race free on a loaded index", "statement": "Whatever the index, the number of goroutines and the schedule, every lookup gives the answer it gives alone and every schedule ends. On an index obtained by loading, no lookup writes to shared memory, so there is no data race. On an index that was built and not loaded there is one: a lookup below a leaf writes to the shared map.", "quantifier": "all indexes, any number of goroutines, all words, all schedules", "why_tests_cant": "schedule quantifier", "anchors": ["internal/index/idx.go: FetchFromItem, GetChildrenIDMap, rebuildChildrenIndex"]}
{"id": "C33", "title": "Concurrent node allocation gives unique consecutive identifiers", "statement": "Whatever the interleaving of any number of goroutines allocating nodes, and however the storage grows, no two allocations get the same identifier, the identifiers are the next ones in a row, each request gets one, no access is out of range, the goroutines never all wait, and at most one is between lock and unlock (as long as 2^32 is not reached).", "quantifier": "any number of goroutines and requests, all growth policies, all schedules", "why_tests_cant": "schedule quantifier", "anchors": ["internal/index/items.go: NewChild"]}
{"id": "C34", "title": "When concurrent node allocation loses a node", "statement": "If the storage has room for all nodes to come, each finished allocation is stored as requested, whatever the interleaving. Without room this is false: the node is written after the lock is released, so a concurrent growth that copies the storage loses it. One goroutine alone stores what the sequential function stores.", "quantifier": "any number of goroutines, all schedules", "why_tests_cant": "schedule quantifier; needs a precise interleaving", "anchors": ["internal/index/items.go: NewChild, Extend"]}
{"id": "C35", "title": "Concurrent adds of a word may create it twice", "statement": "One goroutine adding words does exactly what the sequential function does. Two goroutines adding the same word can create two nodes and be given different ones, because lookup and creation are not atomic.", "quantifier": "all indexes and words; a schedule of two goroutines", "why_tests_cant": "schedule quantifier", "anchors": ["internal/index/idx.go: AddToNode"]}
{"id": "C36", "title": "Nodes handed out are usable", "statement": "Every node returned without error by add, fetch or Get on an index that was built by adding words can be asked for Word(), TagSets() and AddTagSet without panicking. Refuted for identifier 0: Get(0) succeeds but the node panics in TagSets and AddTagSet.", "quantifier": "all reachable indexes, all node identifiers", "why_tests_cant": "panic freedom over all states", "anchors": ["internal/index/idx.go: Get, GetItem", "internal/index/node.go: TagSets, AddTagSet, Word", "internal/index/items.go: Get"]}
{"id": "C37", "title": "Node.String shows the word", "statement": "Node.String() shows the prefix, the last letter in brackets and the identifiers. Holds for words ending in an ASCII letter; refuted for other words: a multi-byte last letter is cut in the middle and the output is not valid UTF-8.", "quantifier": "all nodes of all reachable indexes", "why_tests_cant": "depends on the byte length of the last letter of any word", "anchors": ["internal/index/node.go: String", "internal/index/item_def.go: String"]}
{"id": "C38", "title": "Set8/Set16 streams round-trip with exact byte counts", "statement": "Writing a set of at most 255 (65535) elements and reading it back gives the same set. The returned byte count of Set8 and TagSet equals the bytes actually transferred, also when the destination fails or the input ends at any point; for Set16 it is that number rounded down to whole 16-bit values (a transferred odd byte is not counted). Reading succeeds iff the input starts with the layout of some set. Longer sets are written without an error and never read back.", "quantifier": "all sets, all inputs including truncated ones", "why_tests_cant": "infinite domain and every truncation point", "anchors": ["pkg/storage/set8.go: WriteTo, ReadFrom", "pkg/storage/set16.go: WriteTo, ReadFrom", "internal/index/tagset_def.go: WriteTo, ReadFrom"]}
{"id": "C39", "title": "storage tables and collections intern sets", "statement": "Table8/Table16/Collection8x8/Collection16: Index returns an identifier that resolves to the sorted set, the same one for permutations, a different one otherwise, forever; within 256 (65536) sets per table and set sizes up to 256 (65536).", "quantifier": "all sets, all sequences of Index calls", "why_tests_cant": "infinite histories", "anchors": ["pkg/storage/table8.go", "pkg/storage/table16.go", "pkg/storage/collection8.go", "pkg/storage/collection16.go"]}
{"id": "C40", "title": "Searching a storage collection never panics", "statement": "Collection8x8/Collection16.Find reports not found for a set that is not stored. Refuted: for any set longer than every stored one Find indexes outside the collection and panics.", "quantifier": "all collections and sets", "why_tests_cant": "all collection/set shapes", "anchors": ["pkg/storage/collection8.go: Find", "pkg/storage/collection16.go: Find"]}
{"id": "C41", "title": "EqualTo decides equality", "statement": "EqualTo returns true iff both sequences have the same elements in the same order; on sorted sequences iff they hold the same elements with the same multiplicity.", "quantifier": "all pairs of sequences", "why_tests_cant": "infinite domain", "anchors": ["pkg/storage/set8.go: EqualTo", "pkg/storage/set16.go: EqualTo", "internal/index/tagset_def.go: EqualTo", "internal/index/variant_def.go: EqualTo"]}
{"id": "C42", "title": "The parser tracks element nesting exactly", "statement": "For every well-nested stream of XML events whose element names contain no dot, the position the parser acts on is the stack of currently open elements, and it is back at the document level at the end; an element outside the known structure stops the parse with an error.", "quantifier": "all well-nested event streams", "why_tests_cant": "unbounded documents", "anchors": ["pkg/opencorpora/parser.go: ProcessStartElement, ProcessEndElement, ProcessCharData, newParser"]}
{"id": "C43", "title": "Parsing a dictionary indexes every form with lemma and form grammemes", "statement": "Parsing any dictionary document registers its grammemes in order and, for every form of every lemma in order, adds the form's word and attaches the lemma's grammemes followed by the form's own; the result is the same as making these API calls directly, and parsing fails at the first form that is empty or uses an unregistered grammeme.", "quantifier": "all dictionary documents (any number of grammemes, lemmas, forms, ignorable text)", "why_tests_cant": "unbounded documents", "anchors": ["pkg/opencorpora/parser.go: onGrammeme, onGrammemeName, onDictionaryLemmataLemma, onDictionaryLemmataLemmaL, LG, F, FG", "pkg/opencorpora/form_item.go: GetTagsFromSet"]}
{"id": "C44", "title": "Forms of a lemma do not leak grammemes into each other", "statement": "Although all forms of a lemma are extended from the lemma's own grammeme slice (append, possibly sharing the backing array), each form is indexed with exactly the lemma's grammemes followed by its own, whatever the slice capacities and growth policy.", "quantifier": "all lemmas, all slice capacities and growth policies", "why_tests_cant": "aliasing depends on runtime slice capacities", "anchors": ["pkg/opencorpora/parser.go: onDictionaryLemmataLemma (append)"]}
{"id": "C45", "title": "Parse limit stops after exactly that many lemmas", "statement": "With a positive limit n the parser stops with the controlled-stop error right after n lemmas have been indexed, having indexed exactly the first n; without a limit it never raises it.", "quantifier": "all documents, all limits", "why_tests_cant": "unbounded documents", "anchors": ["pkg/opencorpora/parser.go: SetMaxLemmas, onDictionaryLemmataLemma"]}
{"id": "C46", "title": "A grammeme's name is its whole text", "statement": "The name registered for a grammeme is the text of its name element. Refuted: when the text reaches the parser in several pieces (comment or CDATA inside), only the last piece is kept.", "quantifier": "all splits of the text of a name element", "why_tests_cant": "all event streams for the same document", "anchors": ["pkg/opencorpora/parser.go: onGrammemeName"]}
{"id": "C47", "title": "Malformed nesting never crashes the parser", "statement": "No event stream makes the parser dereference a missing lemma, form or grammeme. Holds for well-nested streams without dots in element names; refuted with a dotted element name, which is taken for two nested elements.", "quantifier": "all well-nested event streams", "why_tests_cant": "unbounded documents", "anchors": ["pkg/opencorpora/parser.go: ProcessStartElement and handlers"]}
{"id": "C48", "title": "Update follows its decision table", "statement": "Update downloads iff an update is required, unpacks iff it downloaded or was forced to after a failed check with only the archive present, compiles iff it unpacked or recompilation is forced with nothing new, and reports the first failure; with no update required and no force it changes nothing.", "quantifier": "all combinations of remote responses, local files and the force flag", "why_tests_cant": "all environment responses", "anchors": ["pkg/opencorpora/loader.go: Update, IsUpdateRequired, DownloadUpdate, UnpackUpdate"]}
{"id": "C49", "title": "A failed parse keeps the previous compiled index", "statement": "If parsing the dictionary fails (missing file, malformed XML, unknown element or grammeme, panic in a handler), the compiled index file is exactly what it was before.", "quantifier": "all inputs, all previous files", "why_tests_cant": "all failure points", "anchors": ["pkg/opencorpora/loader.go: ParseUpdate, SaveIndex"]}
{"id": "C50", "title": "SaveIndex: success means a loadable file, failure means the old file or none", "statement": "If SaveIndex returns nil (and closing the file succeeds) LoadIndex yields the same dictionary; if it returns an error, either the file could not be created and is unchanged, or no file is left at the path (if it can be removed), wherever the write failed. It never panics. Refuted without the condition on closing: a failure to close is not reported.", "quantifier": "all indexes, all write failure points", "why_tests_cant": "every failure point", "anchors": ["pkg/opencorpora/loader.go: SaveIndex, LoadIndex"]}
{"id": "C51", "title": "Replacing the compiled index is crash safe", "statement": "A crash at any point of SaveIndex leaves either the old or the new index. Refuted: the old file is truncated first; but no crash point ever leaves a file that loads as a different dictionary: what is left is the old file, the new file, or something LoadIndex rejects.", "quantifier": "all indexes, all crash points", "why_tests_cant": "crash point quantifier", "anchors": ["pkg/opencorpora/loader.go: SaveIndex, LoadIndex"]}
{"id": "C52", "title": "Update recovers from an interrupted update", "statement": "After a crash at any point of Update, or a failed Update, running Update again (remote unchanged) eventually yields a compiled index. Refuted: a crash from the creation of the archive on and before a complete unpacked file exists, or a download that breaks off, leaves a state in which every later Update(false) returns success without doing anything, and Update(true) fails. It holds if the archive does not exist, and for a crash during compilation with Update(true).", "quantifier": "all crash points of Update", "why_tests_cant": "crash point and history quantifier", "anchors": ["pkg/opencorpora/loader.go: Update, IsUpdateRequired, DownloadUpdate, UnpackUpdate"]}
{"id": "C53", "title": "Checking for updates never panics", "statement": "IsUpdateRequired returns a decision or an error for every state of the local file and every remote response. Refuted: if the local file cannot be examined for a reason other than absence and the remote reports a modification time, a nil file info is dereferenced. Update as a whole panics exactly for this reason (in its own check or in that of DownloadUpdate); a panic while parsing or saving is turned into an error.", "quantifier": "all local file states and remote responses", "why_tests_cant": "all environment responses", "anchors": ["pkg/opencorpora/loader.go: IsUpdateRequired, ParseUpdate, Update"]}
{"id": "C54", "title": "The index browser accepts exactly the existing identifiers", "statement": "In the opencorpora_test tool, a numeric node, tag, set-table, set or variant argument is answered if it exists and rejected with a message otherwise; a node shows its word, tag sets, parent and children. Refuted: the last node is rejected, node 0, negative tag and table numbers and unknown variants crash the tool, and some negative node numbers are answered; the exact rule is proved for every command. It holds for sets, words and searches.", "quantifier": "all numeric arguments, all loaded indexes", "why_tests_cant": "boundary behaviour over all indexes", "anchors": ["cmd/opencorpora_test/main.go: processNode, processTag, processSet, processVar"]}
{"id": "C55", "title": "Only a successful response is stored as the dictionary", "statement": "DownloadUpdate keeps the response body only if the server answered with success. Refuted: the status is not examined; Update does the same whatever it is, an error page becomes the archive, and later checks find it up to date.", "quantifier": "all responses, all environments", "why_tests_cant": "all environment responses", "anchors": ["pkg/opencorpora/loader.go: DownloadUpdate"]}
{"id": "C56", "title": "Update makes the directory it writes to", "statement": "When nothing fails outside, Update succeeds although the data directory does not exist yet. Refuted for a loader with its own data directory: the default directory is created instead and Update fails; it holds for the default directory.", "quantifier": "all environments in which nothing fails, all file states", "why_tests_cant": "all environment responses", "anchors": ["pkg/opencorpora/loader.go: DownloadUpdate, UnpackUpdate", "pkg/common/utils.go: MakeDomainDataPath"]}
{"id": "C57", "title": "From download to answers", "statement": "After Update on a directory without an archive, when nothing fails outside, LoadIndex gives an index in which exactly the non-empty prefixes of the forms of the downloaded document are found, each under its own spelling, and a found word has exactly the tag sets of the forms that spell it, and looking up any other word (one that does not begin with U+0000) gives an error and never a panic.", "quantifier": "all documents within the capacity limits, all environments in which nothing fails", "why_tests_cant": "all documents", "anchors": ["pkg/opencorpora/loader.go: Update, LoadIndex", "pkg/opencorpora/parser.go", "internal/index/idx.go"]}
{"id": "C58", "title": "Concurrent adds keep the words that were there, but not each other's", "statement": "While any number of goroutines add words, at every moment of every schedule each word found before they started is found with the same node (as long as there are identifiers left). A word being added can be lost: a goroutine that is about to create the map of a node throws away what another has entered in it meanwhile.", "quantifier": "all indexes, any number of goroutines and words, all schedules", "why_tests_cant": "schedule quantifier; the loss needs a precise interleaving", "anchors": ["internal/index/idx.go: AddToNode, GetChildrenIDMap"]}
{"id": "C59", "title": "Every history within the limits runs and answers as the abstract dictionary", "statement": "Take any sequence of calls (add, fetch, register tag, attach tag set, optimise, save and load) on a new index in which the words added have at most 4294967280 letters in total, at most 256 distinct tag names are registered (255 with save and load), at most 65536 different tag sets of each size are attached (65535 with save and load), at most 65536 different annotations of each size occur on any word at any moment, a word has at most 65535 tag sets at the end (255 with save and load), AddTagSet gets non-empty lists of at most 65536 names (255 with save and load), letters are 32-bit and, with save and load, no word starts with U+0000 and tag names are not empty or four spaces. Then every call returns what the abstract dictionary (a list of words, of tags and of annotations) returns, and no call panics. The number of calls is not limited: repeating an AddTagSet call keeps a history within the limits.", "quantifier": "all finite sequences of calls within the limits", "why_tests_cant": "all sequences of calls, of any length", "anchors": ["internal/index/idx.go", "internal/index/items.go", "pkg/storage", "pkg/dag"]}
{"id": "C60", "title": "A line typed into the browser", "statement": "A line is split at every single space. tag and node take a number exactly when the argument is a decimal numeral with an optional sign that fits int64; set and var take exactly the integer literals of Go (0x, 0o, 0b, leading 0, underscores where Go allows them). A line whose first field is not a command word is searched as a whole and shown with exactly its tag sets, or with one message when it is not in the dictionary. What is shown for a line does not depend on the lines before it (except that reload replaces the index). The browser crashes exactly for: tag and set table with a negative number, node with a number below the count that is a multiple of 2^32, var with a number of at least 65536 that is no stored variant. A dictionary word that is a command word, or starts with one and a space, cannot be searched.", "quantifier": "all lines without NUL, all reachable indexes, all sequences of lines", "why_tests_cant": "all strings and all indexes; the crash set is an exact characterisation", "anchors": ["cmd/opencorpora_test/main.go", "internal/index/idx.go", "internal/index/tagset_index.go"]}
{"id": "C61", "title": "From the server to the screen", "statement": "After Update of a directory without an archive, when nothing fails outside, the browser started on what is on the disk shows for every line that does not begin with a command word exactly what the downloaded document says: the tag sets of the forms that spell the line (none when it is only a prefix of forms), or a message when no form begins with it; it never crashes on such lines and ends with code 0.", "quantifier": "all documents within the limits, all environments in which nothing fails, all sequences of lines without NUL that are not commands", "why_tests_cant": "all documents and all inputs, through the whole chain download, unpack, parse, build, save, load, search", "anchors": ["cmd/opencorpora_test/main.go", "pkg/opencorpora/loader.go", "pkg/opencorpora/parser.go", "internal/index/idx.go"]}
{"id": "C62", "title": "Any index file that loads", "statement": "Whatever bytes BinaryReadFrom accepts, the nodes of the index are the 16-byte records of the last section, a lookup finds exactly the record its letters lead to (each letter to the last record with that parent and letter) and never panics, and Word of a found node is the looked-up word from its last return to number 0 on. Word of a node taken by number fails to terminate exactly when its chain of parents never ends. TagSets panics exactly for number 0, numbers without a record and records whose variant number is not stored. Nothing of this is checked when the file is read: files with such records load without an error, as does a file in which a letter was changed.", "quantifier": "all byte strings, all words, all node numbers", "why_tests_cant": "all files, including ones no version of the program would write", "anchors": ["internal/index/idx.go: BinaryReadFrom, rebuildChildrenIndex, FetchFromItem", "internal/index/node.go: Word, TagSets", "internal/index/items.go"]}
{"id": "C63", "title": "The arguments and the exit code of the updater", "statement": "opencorpora_update accepts exactly the argument lists that consist of switches (-f, -d, -h with one or two dashes, with an optional =value that strconv.ParseBool knows) followed by nothing, by an operand or by --; the last occurrence of a switch counts and force is on by default. It ends with 0 on a -help argument and with 2 on any other argument that starts with a dash. Otherwise it exits with 0 exactly if -h is on or Update succeeds, with 2 exactly if Update panics, else with 1; files are changed only by Update with force as given. Run without arguments on a working system it ends with 0 and the browser then shows what the document says. A separate value as in -f false does not count: force stays on.", "quantifier": "all argument lists, files and environments", "why_tests_cant": "the argument lists are unbounded; main calls os.Exit and cannot be called from a test", "anchors": ["cmd/opencorpora_update/main.go", "pkg/opencorpora/loader.go"]}
{"id": "C64", "title": "Where the data files lie", "statement": "path.Clean as used for every path of the loader keeps the place a path leads to from every working directory; it maps two paths to the same path exactly when they lead to the same place from every directory, and to the shortest such path. For every data path given to the loader, the archive, the unpacked file and the compiled file lie directly in the directory that path leads to and are three different files; with no path it is the directory MakeDomainDataPath makes, .data/opencorpora below the working directory (with a path of its own it need not be). dag.ResolveFilePath splits the clean absolute path of the file into directory, name and extension, which put together lead to the same place, and reports no error exactly when that path exists and is not the root.", "quantifier": "all byte strings as paths, all working directories", "why_tests_cant": "the paths are unbounded, and being the same place concerns every working directory", "anchors": ["pkg/common/utils.go", "pkg/opencorpora/loader.go", "pkg/dag/utils.go"]}
{"id": "C65", "title": "Tagging words from several goroutines", "statement": "When goroutines call Node.AddTagSet on one index at the same time, in every interleaving of their reads and writes and however append grows the slices, a word that nobody tags keeps its tag sets, and the number of tagged words never falls and never grows by more than the number of calls. A call that is not interrupted does what it does alone, and so does one goroutine on its own. Goroutines that tag different words, with sets and collections the index has already, write nothing to the shared tables, never panic, and leave each word tagged as if its goroutine were alone. With new sets none of this holds: there are interleavings in which all calls succeed and a word has the tags of another, in which a later TagSets panics, in which AddTagSet itself panics, and in which a word is not counted.", "quantifier": "all reachable indexes, all layouts of the slices in memory, all growth rules, all lists of calls per goroutine, all interleavings", "why_tests_cant": "a race shows in a few of very many interleavings, and the result depends on how append grows the slices", "anchors": ["internal/index/node.go", "internal/index/tagset_index.go", "internal/index/tagset_table.go", "internal/index/variant_idx.go", "internal/index/variant_table.go"]}
{"id": "C66", "title": "Slices shared between words, tables and callers", "statement": "Tag sets and collections are slices that the tables keep as they were given, hand out as they are, and sort in place. In every history of an index made by this program nothing of this shows: every call gives the result and leaves the index that it would if slices were copied, and no array that a caller may hold is ever changed by a later call. For an index loaded from any file, in whatever order its collections are, tagging a word leaves every other word with the sets it had, possibly in another order (in the same order if its collection was sorted), keeps the content of every numbered set, and leaves the word itself with the sets it had and the new one, in order of their numbers. It is not true that the order of the sets of other words stays for every file, and a caller that writes into the slice Index.Variants returned changes the tags of all words with that collection.", "quantifier": "all histories of calls, all index files, all words and tag lists, all arrays in memory", "why_tests_cant": "whether two slices share an array is not visible in the values a test compares, and which words share a collection depends on the whole history", "anchors": ["internal/index/node.go", "internal/index/variant_def.go", "internal/index/variant_idx.go", "internal/index/variant_table.go", "internal/index/tagset_index.go", "internal/index/tagset_table.go", "internal/index/idx.go"]}
{"id": "C67", "title": "The index file is a grammar of bytes", "statement": "The index file consists of the sections TD, TI, CD and ID, each after its two letters and a zero byte: tags of eight bytes behind a one-byte count (four spaces standing for ----), tag sets by size (counts of four, two and one bytes, one byte per tag), collections by size (counts of one, four and one bytes, four bytes per set number), nodes of sixteen bytes behind a four-byte count, all numbers with the most significant byte first. BinaryReadFrom accepts exactly the byte strings that begin with such a file, takes it and not a byte more, and fills its tables with what it says; BinaryWriteTo of every index within the limits of the counts writes such a file with the content of the index. No file stands for two contents, no file is a proper beginning of another, and the length of a file is a sum over its content.", "quantifier": "all byte strings, all contents, all histories of calls", "why_tests_cant": "a test compares a few files with themselves after a round trip, and a format with swapped or missing parts passes a round trip as well", "anchors": ["internal/index/idx.go", "internal/index/items.go", "internal/index/item_def.go", "internal/index/tagset_index.go", "internal/index/tagset_table.go", "internal/index/tagset_def.go", "internal/index/variant_idx.go", "internal/index/variant_table.go", "internal/index/variant_def.go", "pkg/dag/idx.go", "pkg/dag/tag.go", "pkg/dag/name.go"]}
{"id": "C68", "title": "Slices kept by storage collections", "statement": "Collection8x8 and Collection16 keep the slice they are given. While the caller writes into no slice after it was kept, every Index, Find and Get answers as if the collection had copies (Index also sorts the argument). Whatever the caller writes, a slice is kept once and stays under its number, stored sets keep the size of their column, Index of a set with elements never fails and within the width of the identifiers its number gives that set back sorted, and a write into a kept slice shows in Get. After such a write a set may not be found, and two numbers may stand for equal sets.", "quantifier": "all sequences of slices made, elements written and methods called, both widths", "why_tests_cant": "the tests index literals that nobody else holds; the effect needs a second reference and a write between calls", "anchors": ["pkg/storage/collection8.go", "pkg/storage/collection16.go", "pkg/storage/table8.go", "pkg/storage/table16.go", "pkg/storage/set8.go", "pkg/storage/set16.go"]}
{"id": "C69", "title": "What the browser prints is unambiguous", "statement": "The standard output of the index browser for a line does not depend on the order in which Go walks maps. If tag names are not empty and have no comma or line feed and the words have no line feed, the text printed for a node determines its number, word, parent, variants, tag sets and children, whatever index and line it came from. The number printed before item(s) is the number of sets listed. Children whose letters are code points are listed in the order of the code points. The text for a set or a collection lists exactly the names of the reply in order, and NOT FOUND is never printed for an index made by this program. With commas in tag names different nodes can be printed alike.", "quantifier": "all histories of calls, all lines, all orders of walking the map of children", "why_tests_cant": "the order of a Go map differs from run to run, and that no two nodes share a text is a statement about all pairs", "anchors": ["cmd/opencorpora_test/main.go"]}
{"id": "C70", "title": "String methods are unambiguous, or exactly when not", "statement": "TagSet.String, TagSetTable.String and TagSetIDCollection.GoString of internal/index give different texts for different values; Item.String does up to what string conversion keeps of a letter that is no code point. IdMap.String shows the entries in the order of the walk for fewer than ten entries, and their number otherwise, and texts are equal only then. dag.TagSet, CategoryList, WordForm, Grammemes and Lemma give different texts for different values if names are not empty and no part contains the byte that ends it. Their methods, GrammemeNames and GetTagsFromSet panic exactly on a nil entry. Without those conditions texts coincide: an empty list and an empty name, a comma in a word, two walks of a map.", "quantifier": "all values, all orders of walking a map", "why_tests_cant": "that no two values share a text is a statement about all pairs, and the order of a map changes from run to run", "anchors": ["internal/index/tagset_def.go", "internal/index/tagset_table.go", "internal/index/variant_def.go", "internal/index/item_def.go", "pkg/dag/map.go", "pkg/dag/tagset.go", "pkg/opencorpora/category_list.go", "pkg/opencorpora/form_item.go", "pkg/opencorpora/grammeme_item.go", "pkg/opencorpora/grammeme_dict.go", "pkg/opencorpora/lemma_item.go"]}
{"id": "C71", "title": "Children lists, lemma search and integer attributes", "statement": "ChildList.Sort sends one message for every child (not one for every parent), with the parents in ascending order and the positions from 0, independent of how sort.Sort orders equal parents; its result is a send-only channel, so no value ever passes and the goroutine ends only for an empty list. Get panics exactly for an index outside of the list. LemmaList.Search gives exactly the lemmas with that base form, in order, and skips nil. GetInt gives the value of the first attribute with that local name exactly if it is a decimal number with optional sign within int64. Grammeme.Tag keeps name and parent and puts ---- for an empty parent.", "quantifier": "all lists, all sorting algorithms, all callers of the channel, all attribute lists", "why_tests_cant": "nothing in the repository runs this code; a goroutine that never ends fails no test, and an unstable sort shows only on some lists", "anchors": ["internal/index/relation.go", "pkg/opencorpora/lemma_list.go", "pkg/opencorpora/lemmata.go", "pkg/opencorpora/xmlutils.go", "pkg/opencorpora/grammeme_item.go", "pkg/dag/tag.go"]}
{"id": "C72", "title": "Memory asked for while loading", "statement": "Loading an index file that is accepted asks (by make) for exactly the memory of the tables and nodes it returns, at most 24 bytes for every byte read. Any file, accepted or not, makes the loader ask for at most 24 bytes per byte plus 103080788175 bytes. The second term is needed: each slice is made with the length in its header before an element is read, so a file of 11 bytes asks for 24*(2^32-1) bytes, and a file of 14 bytes reaches the bound.", "quantifier": "all byte strings given as an index file", "why_tests_cant": "tests read files the program wrote; a damaged count is one of 2^32 values and ends the process without an error to compare", "anchors": ["internal/index/tagset_index.go", "internal/index/tagset_table.go", "internal/index/tagset_def.go", "internal/index/variant_idx.go", "internal/index/variant_table.go", "internal/index/variant_def.go", "internal/index/items.go", "pkg/dag/idx.go", "pkg/opencorpora/loader.go"]}
{"id": "C73", "title": "Dates of the Last-Modified header", "statement": "The text of the Last-Modified header is accepted exactly when it is a date of the grammar (weekday name, day, month name, year, time, optional fraction, zone; with a day that exists in that month), and the value compared is the number of seconds of that date since 1970, less the zone's offset, plus the fraction. That number grows by one for each second of the calendar and orders dates. The fixed form every HTTP server has to send is always accepted and the check answers whether the archive's time is before it. The two older forms of RFC 7231 are always refused, and then an update is always required. The day of the week need not match the date.", "quantifier": "all header values, all civil dates of the years 0-9999, all archive times, all zone tables in which GMT is 0", "why_tests_cant": "the test of the loader would need a server; there are 3*10^11 dates, and leap years and month ends are where date code goes wrong", "anchors": ["pkg/opencorpora/loader.go", "pkg/common/constants.go"]}
{"id": "C74", "title": "Keeping up with the server", "statement": "A server publishes versions at any times and tells their dates in whole seconds. Calls of Update are made one after the other, nothing fails, and the local clock differs from the server's by at most some skew. After every call the archive, the unpacked file and the compiled file are made of one version, the one current when it was asked for; every newer version published before the check was published after that request and less than skew plus one second after the archive was written. With no skew the fetched versions are strictly newer each time, so there are at most as many downloads as versions. A version whose date does not exceed the archive's time is never noticed by any later call.", "quantifier": "all histories of versions, all sequences of calls with all times of the requests, forced or not, all clock differences", "why_tests_cant": "needs a server, two clocks and many publication times; the fault is a race between a publication and a download", "anchors": ["pkg/opencorpora/loader.go"]}
{"id": "C75", "title": "What every command of the index browser answers", "statement": "For every line of the browser that begins with one of the commands tag, set, var, node (or their first letters), with any arguments, what is printed and whether the browser goes on or crashes is exactly what a table of the command says: which argument counts as a number and in which notation, the first tag of a given name, the set and the collection at a number, the word, parent, children and tag sets of a node given by number or by spelling, the usage message for the wrong number of arguments, and a crash for the listed numbers. A reload answers all later lines from the index just read; a reload that fails ends the browser with code 1; exit ends it with code 0.", "quantifier": "all commands and all argument lists; tag, set, reload, exit: all index states; var, node: all states reached by any history of operations", "why_tests_cant": "the commands take any strings; wrap-around of negative and huge numbers and notations such as 0x1_0 need all inputs", "anchors": ["cmd/opencorpora_test/main.go", "internal/index/idx.go"]}
{"id": "C76", "title": "The stages of Update as rules", "statement": "For every combination of failures outside (stat, HEAD and GET answers, creation, room on the disk, broken streams, lost bytes on closing), what the download, unpack and compile stages leave in the three files and what they return is given by a set of rules, and so is a whole call of Update. If Update returns nil, then either there was nothing to do and no file was changed, or the compiled file is made from the unpacked file that is now there, and if a check asked for an update then the archive is the complete body of the answer and the unpacked file its complete unpacking. A file is changed only in its own stage.", "quantifier": "all environments, all states of the directory, forced or not", "why_tests_cant": "each failure must be provoked at each point, in combination with the files left by earlier runs", "anchors": ["pkg/opencorpora/loader.go", "pkg/common/utils.go"]}
{"id": "C77", "title": "The report of the parsing speed does not disturb the parse", "statement": "If the clock does not go back, then whatever the document, the parser that reports its speed ends in the same state with the same result as one that never reports; the division by the seconds passed is never by zero. The reports are more than ten seconds apart and the first comes more than ten seconds after the parser was made; each shows the number of lemmas so far divided by the whole seconds since the parser was made. A lemma at whose end nothing is reported ended at most ten seconds after the last report before it. With a clock that is set back the division can be by zero, which stops the parse of a good document.", "quantifier": "all documents, all monotone sequences of clock readings, all roundings of the seconds", "why_tests_cant": "a test would have to run for tens of seconds, and the moments of the readings cannot be chosen", "anchors": ["pkg/opencorpora/parser.go"]}
{"id": "C78", "title": "Loading an index while it is being saved", "statement": "What a reader can have seen of a file that another process writes over is exactly a piece of the old content followed, from the same position on, by a piece of the new one. If the reader opened the file after the writer had created it, what it saw is a beginning of the new file, and loading gives an error unless it saw the whole. If old and new content are the same, what it saw is a beginning of it. A reader that opened the file before can load a dictionary that is neither the old nor the new one.", "quantifier": "all old and new contents, all interleavings of a writer and a reader, stopping anywhere", "why_tests_cant": "the interleavings of two processes cannot be enumerated, and the mixed case needs an exact moment", "anchors": ["pkg/opencorpora/loader.go", "internal/index/idx.go"]}
{"id": "C79", "title": "Two updaters writing the same file", "statement": "However the steps of several processes that write the same file fall, when all have finished, every byte of the file is one that some of them wrote at this place or a zero in a gap, and there is no gap up to the length of what the last one to create the file wrote. If all write the same bytes, the file is these bytes. A writer whose work no other interrupts leaves exactly what it wrote. Otherwise two saves can leave a dictionary that none of them saved, and a save that has ended with success can be undone by one that has just begun.", "quantifier": "any number of writers, all contents, all interleavings, stopping anywhere", "why_tests_cant": "the interleavings of several processes cannot be enumerated", "anchors": ["pkg/opencorpora/loader.go"]}
{"id": "C80", "title": "An index after a read that failed", "statement": "Reading a file into an existing index with BinaryReadFrom: if it fails, the parts of the file before the failing one (tags, tag sets, collections, nodes, in this order) have replaced those of the index, the parts after it are the old ones, and the failing one is either untouched (its header or length is missing) or has the announced length, the elements that could be read, at most one read in part, and zero values; letters and word counter are the old ones. A file that does not begin as an index file changes nothing. A later read gives the same result as if the failed one had not happened. Until then a known word may be spelled differently and asking for its tags may panic, so the index must not be used, which LoadIndex ensures by dropping it.", "quantifier": "all indexes, all byte sequences", "why_tests_cant": "every point of failure in every file must be tried", "anchors": ["internal/index/idx.go", "internal/index/items.go", "internal/index/item_def.go", "internal/index/tagset_index.go", "internal/index/tagset_table.go", "internal/index/tagset_def.go", "internal/index/variant_idx.go", "internal/index/variant_table.go", "internal/index/variant_def.go", "pkg/dag/idx.go", "pkg/dag/tag.go", "pkg/dag/name.go"]}
{"id": "C81", "title": "Optimize on an index read from any file", "statement": "For any file that loads, whatever wrote it, in which every node that refers to a collection carries its own number and refers to an existing collection and in which no size has more than 65536 collections: Optimize succeeds; tags, sets, number of nodes and words, parents, letters, lookups, spelled words and children stay the same; every node keeps its collection up to the order of its members, so that tag sets come in another order at most; if some collection was referred to by no node the new tables hold each collection once, in order, by size, and referred to; otherwise nothing changes, even if tables hold equal or unordered collections; doing it again changes nothing. Without the conditions Optimize may exchange the tags of two words, give a word the tags of another, or panic.", "quantifier": "all byte sequences that load", "why_tests_cant": "files written by other versions or programs are unlimited in number", "anchors": ["internal/index/idx.go", "internal/index/variant_idx.go", "internal/index/variant_table.go", "internal/index/items.go"]}
{"id": "C82", "title": "Which numbers a dictionary may contain", "statement": "The parser accepts the revision of the dictionary and the id and rev of a lemma exactly if they are decimal digits with an optional sign that fit 64 bits, and the version (up to 2000 characters) exactly if it is a number written as in Go (decimal, or hexadecimal with an exponent, underscores only between digits, optional sign, point and exponent) whose value is below 2^128-2^103, or inf, infinity with an optional sign, or nan, in any case. The start of a dictionary element succeeds iff all its version and revision attributes are of this kind, the start of a lemma iff its first id and rev attributes exist and are. For longer texts the exponent is cut after five digits and a number out of range can be accepted.", "quantifier": "all attribute texts", "why_tests_cant": "the set of texts is infinite and the grammar has many corners", "anchors": ["pkg/opencorpora/dictionary.go", "pkg/opencorpora/xmlutils.go", "pkg/opencorpora/parser.go"]}
{"id": "C83", "title": "Sorting through sort.Interface", "statement": "The methods Less and Swap of the six sortable slice types panic exactly for places outside of the slice; Less compares the elements at the two places and Swap exchanges them and nothing else. Any sorting function that only asks Less and calls Swap and ends with no element Less than the one before it leaves the one sorted permutation of a slice of numbers, and a permutation of a list of children with non-decreasing parents. The code of package sort for at most 12 elements ends like this on every slice. Any such function treats two slices in the same order in the same way. The order of children of one parent depends on the algorithm.", "quantifier": "all slices and all functions that use the interface", "why_tests_cant": "tests run one algorithm of one Go version on a few slices", "anchors": ["pkg/storage/set8.go", "pkg/storage/set16.go", "internal/index/tagset_def.go", "internal/index/variant_def.go", "internal/index/variant_idx.go", "internal/index/relation.go"]}
{"id": "C84", "title": "From the text of the dictionary to the parser", "statement": "The XML decoder gives the parser the document for every way to write it (references, CDATA, comments, instructions, declarations, quotes, line ends, prefixes, white space); every document with proper names and texts can be written; whatever is accepted is the events of a document. A file that ends inside an element is refused wherever it is cut, and the index is not touched. With this decoder, Update of a written dictionary ends in an index with exactly its forms. Violated: a crash while unpacking leaves a part that is never unpacked again, and a file without root element (an empty one) is compiled without error to an index without words.", "quantifier": "all documents, all ways to write them, all places to cut the file", "why_tests_cant": "a document has infinitely many spellings and each file as many prefixes as bytes", "anchors": ["pkg/opencorpora/loader.go", "pkg/opencorpora/parser.go"]}
{"id": "C85", "title": "Which errors can be recognised", "statement": "errors.Is finds exactly the errors in the chain. Every error of reading, writing, adding to or searching an index is index.Error, every error of LoadIndex and SaveIndex is opencorpora.Error, and their causes cannot be recognised; the functions that let a cause out are exactly sixteen. ErrControlledStop is recognised only in itself and never returned by ParseUpdate. From the error of ParseUpdate one can tell whether the file could not be opened and whether the index refused a word. Violated: errors of ParseUpdate and Update caused by the index (unknown grammeme, empty form) or another package are not opencorpora.Error; ErrSet8, ErrSet16 and storage.Error are found only when the length cannot be written.", "quantifier": "all functions of the program that return errors, all return statements, all environments of ParseUpdate", "why_tests_cant": "it is about all paths an error can take through the call graph; the tests of the project never call errors.Is", "anchors": ["internal/index/idx.go", "internal/index/items.go", "internal/index/tagset_def.go", "pkg/opencorpora/loader.go", "pkg/opencorpora/parser.go", "pkg/storage/set8.go", "pkg/storage/set16.go", "pkg/dag/name.go"]}
{"id": "C86", "title": "The remaining accessors", "statement": "The nodes of the root are the one letter prefixes of the words; getChild of a node gives the node of the word one letter longer, and nothing for a node without children. TagSet turns numbers into tags and fails for an unknown number, never for a set held by the index. Variants.Table counts from 1; every node's list of sets is found in it. TagSetIndex.Size counts the different sets. The browser's hexadecimal numbers have no zeros in front and determine the number. A tag set in the documented layout is read back. A file of a domain lies in the directory of the domain. Violated: getChild gives the root for a letter that does not follow the word when another does; Items.filter leaves nextID one too large, so that Get of the item before it panics; Table(0) panics.", "quantifier": "all histories of operations, all nodes, letters, numbers, lists of tag numbers, filters, streams and names", "why_tests_cant": "the functions are called by no test, and the answers depend on the whole history of the index", "anchors": ["internal/index/idx.go", "internal/index/items.go", "internal/index/variant_idx.go", "internal/index/tagset_index.go", "internal/index/tagset_def.go", "pkg/common/utils.go", "cmd/opencorpora_test/main.go"]}
{"id": "C87", "title": "Errors of package grammemes and small accessors", "statement": "The text of an error of package grammemes is the texts of the chain of wrapped errors joined by colons; asking for it panics exactly for a nil error and when a nil pointer is wrapped. errors.Is finds what Unwrap reaches, and two errors with the same text are different. NextID is the number of nodes plus one; Node.Item reads the item of a node; Len and Tables describe exactly the numbers that are answered; GetItem agrees with Get; within one index the text of a tag determines the tag. Violated: what WrapErrorf wraps is in the text but is never found by errors.Is, because there is no Unwrap; Node.Item of a number that is no node gives the zero item or panics; the text of a tag does not show its parent; NodeMap.BinaryWriteTo always panics.", "quantifier": "all chains of errors and all histories of operations, all node, tag and table numbers", "why_tests_cant": "package grammemes has no tests; the accessors depend on the whole history of the index", "anchors": ["internal/grammemes/errors.go", "internal/index/items.go", "internal/index/node.go", "internal/index/idx.go", "internal/index/tagset_table.go", "internal/index/variant_idx.go", "pkg/dag/idx.go", "pkg/dag/tag.go", "pkg/dag/map.go"]}
{"id": "C88", "title": "What each call reads and writes, and which calls can be exchanged", "statement": "For every method of an index and of its nodes there is a table of the parts of the index it may change and of the parts its answer and its changes depend on: no other part changes, and two indexes that agree on the parts read give the same answer and the same changes. The tables are tight: each entry is needed for some reachable index. Two calls neither of which writes what the other reads or writes can be executed in either order with the same answers and the same index; two callers with only such calls get the answers they would get alone, whatever the order. Looking up a word (FetchRunes, FetchString, idMap) is not read-only: it writes the map of children.", "quantifier": "all calls, all indexes, all orders of the calls of two callers", "why_tests_cant": "a test compares answers for some calls; that a call leaves the other parts alone, and does not depend on them, concerns all indexes and all arguments", "anchors": ["internal/index/idx.go", "internal/index/node.go", "internal/index/items.go"]}
{"id": "C89", "title": "Exactly which dictionary files are accepted", "statement": "The decoder accepts a text exactly if it is in a language given by rules (names, attributes, references, CDATA, comments, instructions, directives, nesting), and then reports the document that the rules say it is a text of; no text is a text of two documents. Every text of the language of C84 is in it. A dictionary file outside the language is refused and nothing is written. One inside it, with no dot in element names, compiles exactly if every element is known with the attributes it needs and the calls it stands for succeed, and the index is what these calls make.", "quantifier": "all byte sequences, all documents, all environments and disks", "why_tests_cant": "a test shows that some texts are read or refused; that nothing else is accepted, and that nothing accepted has a second meaning, concerns all texts", "anchors": ["pkg/opencorpora/parser.go", "pkg/opencorpora/loader.go"]}
{"id": "C90", "title": "An updater that fails while another is writing", "statement": "SaveIndex removes the index file by its name after an error. With several updaters at once, an updater can report success and the file be missing afterwards, because another has failed and removed it (refuted, for any old file and any bytes). The file is missing only if an updater has failed. If none fails the file is as in C79, in particular updaters with the same bytes leave these bytes. An updater that creates the file when nobody has the file of that name open, and reports success, leaves exactly its bytes if no other creates or removes the file from then on, whatever others go on writing.", "quantifier": "all numbers of updaters, all bytes, all orders of their steps, all old files", "why_tests_cant": "a test sees some orders of the steps; the claim concerns every order of any number of processes", "anchors": ["pkg/opencorpora/loader.go"]}
{"id": "C91", "title": "Several updaters on one directory, stage by stage", "statement": "A process that does the first check and the stages of Update one after the other does what Update does. If any number of processes start Update on a directory without archive and meet the same server, with nothing failing, then in whatever order their stages follow each other no process ends with an error, each has ended after four steps, and when all have ended the archive, the unpacked dictionary and the index are the right ones. A success alone does not mean that there is an index (refuted): a process that checks between the download and the compilation of another ends with success at once; with force it fails.", "quantifier": "all numbers of processes, all orders of their stages, all directories without archive, all dictionaries that compile", "why_tests_cant": "a test tries some orders; the claim concerns all orders of any number of processes", "anchors": ["pkg/opencorpora/loader.go"]}
{"id": "C92", "title": "Tags by name, up to case", "statement": "strings.EqualFold compares the characters of both strings in step, however it reads them, and is symmetric. With a name of ASCII characters it accepts exactly the strings that are the same in small letters, where the kelvin sign counts as k and the long s as s. In the browser a tag can be shown by typing a name exactly if its name is not a number and has no space, and no earlier tag has the same name in small letters. That every tag can be shown by its name is refuted: ANim and anim are both tags of the dictionary, and whatever is typed, anim is only shown by its number. The comparison of the encoding of a document with utf-8 is the one of the model of the XML decoder.", "quantifier": "all strings, all lists of tags with ASCII names, all typed arguments, all values of unicode.SimpleFold outside the orbits of ASCII characters", "why_tests_cant": "a test tries some names; that nothing typed shows a hidden tag is a claim about all strings", "anchors": ["cmd/opencorpora_test/main.go"]}
{"id": "C93", "title": "How numbers are printed", "statement": "In the output of the browser and in the String methods a number is printed as the shortest numeral in base 10 (%d, %v) or 16 (%X), with a minus sign exactly if it is below zero, and for %02d and %03d with zeros in front exactly up to the width. Nothing else is printed for it, and the printed text determines the number.", "quantifier": "all numbers, all widths", "why_tests_cant": "a test prints some numbers", "anchors": ["cmd/opencorpora_test/main.go"]}
{"id": "C94", "title": "What errors say", "statement": "The text of the error of a failed lookup splits the word at the first letter that does not continue a stored prefix, and determines the prefix and the letter. The text of a failed tagging names the first tag that was not registered, that of an addition below a missing node names the node, and for a lemma the parser reports of the first bad form whether its text is empty or which tag is unknown. In everything but the text the functions are those the other properties speak of.", "quantifier": "all histories, all words, all lists of tag names, all lemmas", "why_tests_cant": "a test reads the text of some errors", "anchors": ["internal/index/idx.go", "internal/index/node.go", "pkg/opencorpora/parser.go"]}
{"id": "C95", "title": "What the parser says about a document it refuses", "statement": "In a document as the decoder gives it, without dots in names, the start of an element is refused exactly if its position is unknown, or an attribute required at that position is missing or not a number; the text of the error says where the unknown element is, or names the first bad attribute. Texts, comments and the ends of elements other than lemmas are never refused, and the parse ends with what is said about the first refused event.", "quantifier": "all event sequences of a decoder, all attribute lists, all indexes, all conversions of numbers", "why_tests_cant": "a test gives the parser some wrong documents", "anchors": ["pkg/opencorpora/parser.go", "pkg/opencorpora/xmlutils.go", "pkg/opencorpora/dictionary.go"]}
