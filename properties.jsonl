{"id": "C01", "title": "Parsing then writing a record is the identity on bytes", "statement": "If a byte string is accepted as a record, then writing the resulting record produces exactly the same byte string: no byte is normalised, dropped, reordered or added.", "quantifier": "every byte string b accepted by RecordRef::from_bytes / ByteRecord::from_bytes", "why_tests_cant": "The input space is unbounded (any number of fields, subfields, value bytes incl. newlines and non-UTF-8); samples only exercise a few shapes.", "anchors": ["src/primitives/parse.rs: parse_record_ref, parse_field_ref, parse_subfield_ref", "src/primitives/record.rs: RecordRef::write_to", "src/primitives/field.rs: FieldRef::write_to", "src/record.rs: ByteRecord::write_to"]}
{"id": "C02", "title": "Writing then parsing a record is the identity on records", "statement": "Every non-empty record built from valid tags, occurrences, subfield codes and values serialises to bytes that parse, consuming everything, to the same sequence of fields and subfields.", "quantifier": "every non-empty list of fields made of valid components (any length, any values without 0x1e/0x1f)", "why_tests_cant": "Needs the parser to be unambiguous on every possible serialised text, including values that look like tags, separators or newlines.", "anchors": ["src/primitives/record.rs: RecordRef::new, write_to, from_bytes", "src/primitives/field.rs: FieldRef", "src/primitives/subfield.rs: SubfieldRef"]}
{"id": "C03", "title": "A byte string is accepted as a record exactly when it is in the PICA+ grammar", "statement": "from_bytes accepts b iff b is one or more fields followed by one newline and nothing else, where a field is tag, optional '/'+2..3 digits, space, subfields (0x1f, alphanumeric code, bytes other than 0x1e/0x1f), 0x1e. Everything else, including empty input, a missing newline, or trailing bytes, is rejected; and the record read is the unique one described by the grammar.", "quantifier": "every byte string", "why_tests_cant": "Rejecting all malformed inputs is a claim about an infinite complement; tests list a few malformed strings.", "anchors": ["src/primitives/parse.rs: parse_record_ref, parse_field_ref, parse_tag_ref, parse_occurrence_ref, parse_subfield_code, parse_subfield_value_ref"]}
{"id": "C04", "title": "Constructors and parsers of the primitives agree", "statement": "A subfield code, subfield value, tag, occurrence can be built through its checked constructor from some input iff the byte parser accepts that input, and both give the same value.", "quantifier": "every byte / byte string", "why_tests_cant": "Agreement of two independent code paths on all inputs.", "anchors": ["src/primitives/subfield.rs: SubfieldCode::new, SubfieldValueRef::new", "src/primitives/tag.rs: TagRef", "src/primitives/occurrence.rs: OccurrenceRef", "src/primitives/parse.rs"]}
{"id": "C05", "title": "A record that was edited writes its current content, never stale bytes", "statement": "After reading a ByteRecord from bytes and applying any sequence of retain / keep / discard operations, write_to emits the serialisation of the fields the record currently has (nothing if no field is left), and sha256 is computed over those same bytes.", "quantifier": "every accepted byte string and every finite history of retain/keep/discard calls with arbitrary predicates", "why_tests_cant": "The cached raw bytes make this history dependent; one must consider every interleaving of edits.", "anchors": ["src/record.rs: ByteRecord::{from_bytes,write_to,retain,keep,discard,sha256}"]}
{"id": "C06", "title": "Equal byte records hash equally", "statement": "For records obtained by from_bytes, From<RecordRef> and edits, equality is reflexive, symmetric and transitive, coincides with having the same fields, and equal records feed the same bytes to Hash and to sha256, so they can be used as hash map keys.", "quantifier": "all pairs/triples of reachable byte records", "why_tests_cant": "Relational property between different representations (cached bytes vs. parsed fields).", "anchors": ["src/record.rs: PartialEq for ByteRecord, Hash for ByteRecord, sha256"]}
{"id": "C07", "title": "keep and discard select fields exactly", "statement": "keep(preds) leaves exactly the fields matched by at least one (tag, occurrence) predicate, discard(preds) exactly those matched by none, in original order and with content unchanged; an empty predicate list changes nothing; for non-empty lists the two results partition the fields; both are idempotent and commute.", "quantifier": "all records and all predicate lists", "why_tests_cant": "Order preservation, complementarity and idempotence for all lists of predicates and fields.", "anchors": ["src/record.rs: ByteRecord::keep, ByteRecord::discard", "crates/pica-cli/src/utils.rs: parse_predicates"]}
{"id": "C08", "title": "String records contain only valid UTF-8", "statement": "Converting a byte record into a string record succeeds iff every subfield value is well-formed UTF-8, and then reading values through a path as str never panics.", "quantifier": "all byte strings and paths", "why_tests_cant": "UTF-8 well-formedness over all byte strings; the ASCII shortcut must agree with the full validation.", "anchors": ["src/record.rs: StringRecord TryFrom", "src/primitives/subfield.rs: SubfieldRef::validate", "src/path.rs: StringRecord::path"]}
{"id": "C09", "title": "The reader yields one result per input line, in order, losing no byte", "statement": "Reading a source to the end yields exactly one result per maximal newline-terminated chunk (plus a final unterminated chunk), in order; concatenating the chunks gives the input; each result is the parse of its chunk, and a parse error reports the 1-based number of its line.", "quantifier": "every input byte string", "why_tests_cant": "All inputs, any number of lines, line counter as state over the whole run.", "anchors": ["src/reader.rs: Reader::next_byte_record, ReadPicaError"]}
{"id": "C10", "title": "Records written to a plain file are read back unchanged", "statement": "Writing a sequence of non-empty records with the plain writer and reading the file yields the same records in order without errors, provided no subfield value contains a newline; with a newline inside a value the read-back differs.", "quantifier": "every list of records", "why_tests_cant": "Composition of writer and reader for unbounded sequences, including the condition when it fails.", "anchors": ["src/writer.rs: PlainWriter", "src/reader.rs: Reader::next_byte_record"]}
{"id": "C11", "title": "UTF-8 errors of the string reader name the right line", "statement": "If reading string records fails on a line because of invalid UTF-8, the error names the same 1-based line that a parse error on that line would name.", "quantifier": "every input byte string and every line in it", "why_tests_cant": "Depends on the reader's counter over the whole history of preceding lines.", "anchors": ["src/reader.rs: Reader::next_string_record"]}
{"id": "C12", "title": "concat writes exactly the valid lines", "statement": "`pica concat` without --unique writes, byte for byte, the concatenation of the valid input lines of all files in order; with skip-invalid off, it fails at the first invalid line after having written exactly the valid lines before it.", "quantifier": "all lists of input files, all contents", "why_tests_cant": "Whole-program input/output relation over unbounded inputs.", "anchors": ["crates/pica-cli/src/commands/concat.rs: Concat::execute", "crates/pica-cli/src/commands/convert/mod.rs"]}
{"id": "C13", "title": "invalid and skip-invalid split the input into complementary parts", "statement": "`pica invalid` writes exactly the lines that the skip-invalid mode of the other commands drops: each input line goes, unchanged and in order, to exactly one of the two outputs.", "quantifier": "all lists of input files, all contents", "why_tests_cant": "Two commands with separate reading loops must agree on every line of every input.", "anchors": ["crates/pica-cli/src/commands/invalid.rs: Invalid::execute", "src/reader.rs: skip_parse_err"]}
{"id": "C14", "title": "Occurrence matchers match exactly the denoted occurrences", "statement": "A parsed occurrence matcher: absent or '/00' matches fields without occurrence and with '00' only; '/*' matches every field; '/xx' matches exactly that occurrence; '/x-y' matches occurrences between x and y; reversed, equal or different-width ranges are rejected.", "quantifier": "every occurrence matcher text and every optional occurrence", "why_tests_cant": "All texts and all occurrences; comparison is on bytes while users think of numbers.", "anchors": ["src/matcher/occurrence.rs: OccurrenceMatcher::is_match, parse_occurrence_matcher"]}
{"id": "C15", "title": "Occurrence matchers survive printing and reparsing", "statement": "Printing a parsed occurrence matcher and parsing the text again gives the same matcher.", "quantifier": "every occurrence matcher produced by the parser", "why_tests_cant": "Round trip over the full set of parser results.", "anchors": ["src/matcher/occurrence.rs: Display, parse_occurrence_matcher"]}
{"id": "C16", "title": "Tag matchers match exactly the denoted tags", "statement": "A tag pattern matches a tag iff each of the four positions is in the set denoted at that position ('.' all allowed bytes of that position, a literal, or a bracket list with ranges); a plain tag matches only itself; a text is accepted iff it denotes one set per position.", "quantifier": "every matcher text and every tag", "why_tests_cant": "All patterns x all tags.", "anchors": ["src/matcher/tag.rs: TagMatcher::is_match, parse_tag_matcher"]}
{"id": "C17", "title": "Combining matchers combines their meaning", "statement": "For subfield, field and record matchers the operators &, |, ^, ! (and their assigning forms) yield a matcher that, on every record and with every option, matches iff the boolean combination of the operands' results says so.", "quantifier": "all matchers a, b, all records, all options", "why_tests_cant": "Universal over infinite syntax trees; grouping inserted by the operators must never change meaning.", "anchors": ["src/matcher/subfield/mod.rs: BitAnd, BitOr, BitXor, Not for SubfieldMatcher", "src/matcher/field/mod.rs: same for FieldMatcher", "src/matcher/record.rs"]}
{"id": "C18", "title": "A printed matcher means the same when parsed again", "statement": "For every matcher built by parsing and by the operators &, |, ^, !, printing it and parsing the text (as serde does) succeeds and yields a matcher that matches the same records.", "quantifier": "all matcher expressions of any size and nesting", "why_tests_cant": "Infinite set of expression trees; precedence and grouping interplay.", "anchors": ["src/matcher/field/mod.rs: Display, BitAnd, BitOr, BitXor, Not", "src/matcher/field/parser.rs: parse_field_matcher", "src/matcher/subfield/mod.rs", "src/matcher/subfield/parser.rs"]}
{"id": "C19", "title": "Quantifiers ALL and ANY mean for-all and exists", "statement": "A subfield comparison with ANY (default) holds iff some selected subfield satisfies the comparison, with ALL iff every selected one does (vacuously true when none is selected); the same for fields.", "quantifier": "all quantifiers, operators, code sets, field contents", "why_tests_cant": "Semantic claim over all records including empty selections.", "anchors": ["src/matcher/subfield/mod.rs: RelationMatcher, ContainsMatcher, RegexMatcher, InMatcher", "src/matcher/field/mod.rs: SubfieldsMatcher::is_match"]}
{"id": "C20", "title": "Cardinality matchers count exactly", "statement": "'#tag{...} op n' compares the number of fields that match tag, occurrence and the optional subfield condition with n, and '#c op n' the number of subfields with that code.", "quantifier": "all records, all operators, all n", "why_tests_cant": "Counting over unbounded records.", "anchors": ["src/matcher/field/mod.rs: CardinalityMatcher::is_match", "src/matcher/subfield/mod.rs: CardinalityMatcher"]}
{"id": "C21", "title": "Parsing an expression does not depend on what was parsed before", "statement": "Parsing the same matcher or format text gives the same result no matter which texts were parsed earlier on the same thread.", "quantifier": "all finite histories of previous parses and all texts", "why_tests_cant": "Hidden thread-local state: only a history can expose it.", "anchors": ["src/matcher/field/parser.rs: increment_group_level, decrement_group_level", "src/matcher/subfield/parser.rs: same", "src/fmt/parser.rs: same"]}
{"id": "C22", "title": "Parentheses are limited only by nesting depth", "statement": "An otherwise valid matcher whose parentheses are nested fewer than 256 deep is accepted (formats: fewer than 32).", "quantifier": "all nestings below the documented limit", "why_tests_cant": "Backtracking re-enters groups many times; the number of re-entries grows with depth and shape.", "anchors": ["src/matcher/field/parser.rs: parse_field_group_matcher", "src/matcher/subfield/parser.rs: parse_group_matcher", "src/fmt/parser.rs"]}
{"id": "C23", "title": "== and in agree, with and without case folding", "statement": "'c == v' and 'c in [v]' match the same records under the same options, and '!=' with ANY/ALL is the dual of '=='.", "quantifier": "all values, all records, both case modes", "why_tests_cant": "Agreement of separately coded comparisons on all byte strings.", "anchors": ["src/matcher/subfield/mod.rs: RelationMatcher::compare, InMatcher::is_match"]}
{"id": "C24", "title": "A path returns exactly the selected values, in record order", "statement": "record.path(p) returns the values of all subfields whose code is selected, of all fields matching tag, occurrence and subfield condition, in record order, each once; first/idn (003@ $0) is the head of that list.", "quantifier": "all records and all paths", "why_tests_cant": "Exactness and order for unbounded records.", "anchors": ["src/path.rs: RecordRef::path, RecordRef::ppn"]}
{"id": "C25", "title": "Query results are rectangular and total", "statement": "Evaluating a query on any record never panics, yields at least one row, and every row has exactly as many columns as the query has (sum of the columns of its fragments), for every separator/squash/merge setting (one column for a squashed fragment is still the same count).", "quantifier": "all queries, options and records", "why_tests_cant": "Shape invariant across all combinations of matching and non-matching fields.", "anchors": ["src/query.rs: RecordRef::query, Fragment::query, Outcome Mul/Add/squash/merge"]}
{"id": "C26", "title": "Query rows are the cross product of the fragments' rows", "statement": "Without merge, the rows of a query are exactly the concatenations of one row of each fragment in lexicographic order; the rows of a path fragment are, field by field, the cross product of the value lists per column, with the empty string standing for a missing value.", "quantifier": "all queries and records", "why_tests_cant": "Exact multiset and order of an unbounded product.", "anchors": ["src/query.rs: Mul for Outcome, Add for Outcome, Fragment::query"]}
{"id": "C27", "title": "Squash and merge collapse to single values losslessly", "statement": "Squash joins all values of a column of one field with the separator in order; merge collapses all rows of a fragment to a single row joining column-wise in order, so a merged query has exactly one row.", "quantifier": "all queries, separators, records", "why_tests_cant": "All sizes of outcomes.", "anchors": ["src/query.rs: Outcome::squash, Outcome::merge"]}
{"id": "C28", "title": "Formatting a field follows the format's structure", "statement": "A format fragment's output is the concatenation given by its structure: a value fragment emits at most its bound of values of selected codes in order with prefix and suffix, '<*>' concatenates, '<$>' stops at the first empty part, and a field contributes an output iff that text is non-empty.", "quantifier": "all formats and fields", "why_tests_cant": "Nested structures of any size.", "anchors": ["src/fmt/mod.rs: FormatOptions, Value::fmt_field, List::fmt_field, Group::fmt_field, RecordRef::format"]}
{"id": "C29", "title": "A group bound limits the group's repetitions", "statement": "The '..n' bound on a format group limits how many values the group emits.", "quantifier": "all formats with bounded groups, all fields", "why_tests_cant": "Requires relating bound and output for all inputs.", "anchors": ["src/fmt/parser.rs: parse_group", "src/fmt/mod.rs: Group::fmt_field"]}
{"id": "C30", "title": "Formatting never hits the unreachable branch", "statement": "A format obtained from the parser never reaches the code path declared unreachable (a group directly inside a group) and formatting never panics.", "quantifier": "all format texts and all records", "why_tests_cant": "Absence of a panic over all parser results.", "anchors": ["src/fmt/mod.rs: Group::fmt_field", "src/fmt/parser.rs: parse_group, parse_fragments"]}
{"id": "C31", "title": "A writer is never configured to append gzip", "statement": "No sequence of builder calls yields a writer with both gzip and append set; the builder panics exactly when a call would combine them.", "quantifier": "all finite sequences of builder calls", "why_tests_cant": "Histories of setter calls.", "anchors": ["src/writer.rs: WriterBuilder::gzip, WriterBuilder::append"]}
{"id": "C32", "title": "split distributes the records over the chunks in order", "statement": "`pica split n` produces chunk files 0,1,..; concatenating them in order gives the selected records in input order, every chunk but the last has exactly n records, the last between 1 and n (or a single empty file when nothing is selected).", "quantifier": "all chunk sizes, inputs, filters, limits", "why_tests_cant": "Counting and file switching over unbounded inputs.", "anchors": ["crates/pica-cli/src/commands/split.rs: Split::execute"]}
{"id": "C33", "title": "partition writes each record to the file of each of its values", "statement": "`pica partition path` writes to the file of value v exactly the selected records having v among the path values, in input order, once per record; no file is created for other values.", "quantifier": "all inputs and paths (distinct file names)", "why_tests_cant": "All inputs; the map of open writers is built incrementally.", "anchors": ["crates/pica-cli/src/commands/partition.rs: Partition::execute"]}
{"id": "C34", "title": "sample draws a fair sample without replacement", "statement": "`pica sample n` writes min(n, m) of the m selected records, each at most once, every one of them an input record, and every record has the same chance to be drawn.", "quantifier": "all inputs, sizes and random choices", "why_tests_cant": "Fairness is a property of all random outcomes, not of one seed.", "anchors": ["crates/pica-cli/src/commands/sample.rs: Sample::execute"]}
{"id": "C35", "title": "slice returns the requested index range", "statement": "`pica slice --start s --end e` (or --length l) writes exactly the selected records with index s <= i < e (resp. s+l), whether or not invalid lines are skipped in between.", "quantifier": "all inputs with any mixture of valid and invalid lines, all ranges", "why_tests_cant": "Interaction of two counters over arbitrary interleavings of valid/invalid lines.", "anchors": ["crates/pica-cli/src/commands/slice.rs: Slice::execute"]}
{"id": "C36", "title": "explode splits a record by level without inventing or misplacing fields", "statement": "For records ordered main, then per library local fields each followed by its copies, exploding at local level gives one record per library consisting of all main fields plus that library's fields; at copy level one record per copy consisting of main, the library's local fields and the copy's fields; at main level the record itself.", "quantifier": "all records of the main/local/copy shape, of any size", "why_tests_cant": "Unbounded nesting of libraries and copies.", "anchors": ["crates/pica-cli/src/commands/explode.rs: process_main, process_local, process_copy"]}
{"id": "C37", "title": "frequency counts and orders values correctly", "statement": "`pica frequency` lists each value row with at least one non-empty cell with the exact number of times it occurs in the query results (once per record with --unique), sorted by descending (ascending with --reverse) frequency and then by value, listing exactly those that reach the threshold.", "quantifier": "all inputs, queries, thresholds, both orders", "why_tests_cant": "Counts over all inputs, independent of hash map iteration order.", "anchors": ["crates/pica-cli/src/commands/frequency.rs: Frequency::execute"]}
{"id": "C38", "title": "filter writes exactly the matching records up to the limit", "statement": "`pica filter` writes the first `limit` (0: all) records that pass allow/deny lists and match the expression, in order; --invert-match selects the complement, so both runs together cover each admissible record exactly once.", "quantifier": "all inputs, matchers, limits", "why_tests_cant": "Whole-run input/output relation.", "anchors": ["crates/pica-cli/src/commands/filter.rs: Filter::execute"]}
{"id": "C39", "title": "Allow and deny lists decide by set membership, deny wins", "statement": "A record passes iff none of its source values is on a deny list and, if allow lists are given, at least one value is on them; an empty allow list lets nothing pass.", "quantifier": "all records and lists", "why_tests_cant": "All combinations of lists and multi-valued paths.", "anchors": ["crates/pica-cli/src/utils.rs: FilterSet::check, FilterSetBuilder"]}
{"id": "C40", "title": "The ISNI check accepts exactly valid ISNIs", "statement": "The isni rule flags a value iff, after removing the prefix and formatting characters, it is not 16 characters (15 digits and a digit or X) with correct ISO 7064 mod 11-2 check character; any single wrong digit and any swap of adjacent digits is detected.", "quantifier": "all values", "why_tests_cant": "Checksum algebra over all digit strings.", "anchors": ["crates/pica-cli/src/commands/check/checks/isni.rs: Isni::check"]}
{"id": "C41", "title": "The link check reports exactly the dangling references, in any record order", "statement": "After all records were processed the link rule reports, per source record id, exactly the values that occur as reference but nowhere as target; the result does not depend on the order of the records.", "quantifier": "all multisets of records in every order", "why_tests_cant": "Two-phase stateful algorithm over all permutations.", "anchors": ["crates/pica-cli/src/commands/check/checks/link.rs: Link::{preprocess,check,finish}"]}
{"id": "C42", "title": "The duplicates check reports rows, not accidental concatenations", "statement": "The duplicates rule flags a record iff some query row occurs at least `threshold` times.", "quantifier": "all records, queries, separators", "why_tests_cant": "Separator collisions only show for particular values.", "anchors": ["crates/pica-cli/src/commands/check/checks/duplicates.rs: Duplicates::check"]}
{"id": "C43", "title": "List checks flag every value that is not on the list", "statement": "The allow / iso639-2b / jelc rules flag a record iff at least one selected value is not on the list, and the message names exactly these values.", "quantifier": "all records and lists", "why_tests_cant": "All values including the empty one.", "anchors": ["crates/pica-cli/src/commands/check/checks/allow.rs", "crates/pica-cli/src/commands/check/checks/iso639.rs", "crates/pica-cli/src/commands/check/checks/jelc.rs"]}
{"id": "C44", "title": "Binary conversion is reversible", "statement": "A sequence of records converted to PICA binary can be split and decoded unambiguously: two different sequences of records never give the same output.", "quantifier": "all sequences of records, arbitrary values", "why_tests_cant": "Injectivity is a statement about all pairs of inputs.", "anchors": ["crates/pica-cli/src/commands/convert/binary.rs: BinaryWriter::write_byte_record"]}
{"id": "C45", "title": "Plain conversion is reversible", "statement": "For values without newlines, a record's plain text determines its fields: '$' in values is escaped so that no two different field lists give the same text.", "quantifier": "all pairs of field lists", "why_tests_cant": "Injectivity over all pairs.", "anchors": ["crates/pica-cli/src/commands/convert/plain.rs: PlainWriter::write_byte_record"]}
{"id": "C46", "title": "Import conversion is reversible", "statement": "For values without newlines, a sequence of records converted to PICA import format determines the records.", "quantifier": "all pairs of record sequences", "why_tests_cant": "Injectivity over all pairs.", "anchors": ["crates/pica-cli/src/commands/convert/import.rs: ImportWriter::write_byte_record"]}
{"id": "C47", "title": "JSON conversion is well-formed and reversible for UTF-8 records", "statement": "The JSON output is one array with one array per record, and for records with valid UTF-8 values it determines the records.", "quantifier": "all sequences of records", "why_tests_cant": "Escaping of every possible string.", "anchors": ["crates/pica-cli/src/commands/convert/json.rs: JsonWriter"]}
{"id": "C48", "title": "XML conversion keeps the occurrence", "statement": "The PICA XML output distinguishes fields that differ in their occurrence.", "quantifier": "all pairs of records", "why_tests_cant": "Relational claim over pairs of inputs.", "anchors": ["crates/pica-cli/src/commands/convert/xml.rs: XmlWriter::write_byte_record"]}
{"id": "C49", "title": "count totals are exact and additive", "statement": "`pica count` reports the number of selected records and the exact total number of their fields and subfields; counting several files equals the sum of counting each.", "quantifier": "all lists of files", "why_tests_cant": "Additivity over all partitions of the input.", "anchors": ["crates/pica-cli/src/commands/count.rs: Count::execute"]}
{"id": "C50", "title": "concat --unique keeps exactly the first record per key", "statement": "With --unique the output contains, for each distinct non-empty key, exactly the first record with that key, in input order; running it again on the output changes nothing.", "quantifier": "all inputs and both key strategies (records without id: see statement of failure)", "why_tests_cant": "Stateful dedup over unbounded inputs.", "anchors": ["crates/pica-cli/src/commands/concat.rs: Concat::execute, record_key"]}
{"id": "C51", "title": "Predicate lists of --keep/--discard are parsed item by item", "statement": "A comma separated list is accepted iff every non-blank item is a tag matcher optionally followed by an occurrence matcher; the result has exactly one predicate per non-blank item, in order.", "quantifier": "all texts", "why_tests_cant": "All texts.", "anchors": ["crates/pica-cli/src/utils.rs: parse_predicates"]}
{"id": "C52", "title": "select writes each non-empty result row once, in order", "statement": "`pica select` writes the query rows in record order, without rows that are entirely empty (and without rows having an empty cell under --no-empty-columns), and with --unique each distinct row exactly once.", "quantifier": "all inputs and queries", "why_tests_cant": "Set based filtering across the whole run; the set stores 64-bit hashes.", "anchors": ["crates/pica-cli/src/commands/select.rs: Select::execute"]}
{"id": "C53", "title": "describe counts every subfield of every field", "statement": "`pica describe` reports for each tag and code the exact number of occurrences in the selected records after keep/discard.", "quantifier": "all inputs", "why_tests_cant": "Nested map counters over unbounded inputs.", "anchors": ["crates/pica-cli/src/commands/describe.rs: Describe::execute"]}
{"id": "C54", "title": "The matcher builder conjoins, disjoins and negates as its options say", "statement": "A matcher built from an expression with and/or/not lists matches iff the expression matches and all 'and' expressions match (resp. or at least one 'or' expression matches) and no 'not' expression matches, in call order.", "quantifier": "all lists of expressions", "why_tests_cant": "Folds over lists of any length.", "anchors": ["src/matcher/builder.rs: RecordMatcherBuilder"]}
{"id": "C55", "title": "Quoted strings denote their content", "statement": "For every UTF-8 text there is a quoted form (escaping quote and backslash) that the string parser reads back to exactly this text, for single and double quotes, leaving the rest of the input untouched.", "quantifier": "all UTF-8 texts, both quote styles, all following input", "why_tests_cant": "Escape handling for every string.", "anchors": ["src/parser.rs: parse_string, parse_quoted_string, parse_literal, parse_escaped_char"]}
{"id": "C56", "title": "Config set/get/unset behave like a map", "statement": "After `config name value` a `config --get name` prints value, other options are untouched; --unset restores the default.", "quantifier": "all histories of config commands", "why_tests_cant": "Histories.", "anchors": ["crates/pica-cli/src/commands/config.rs: Config::execute"]}
{"id": "C57", "title": "Appending to an output keeps what was there", "statement": "Writing with append to an existing output and reading it back yields the old records followed by the new ones, for plain and for gzip-compressed files.", "quantifier": "all existing and new record sequences, all file names", "why_tests_cant": "History of writer sessions; interplay of writer (by extension) and reader (single gzip member).", "anchors": ["src/writer.rs: WriterBuilder::from_path", "src/reader.rs: ReaderBuilder::from_path"]}
{"id": "C58", "title": "Commands fed non-UTF-8 values fail cleanly", "statement": "print and the XML conversion process every record accepted by the reader without panicking.", "quantifier": "all records accepted by the reader", "why_tests_cant": "Panic freedom over all accepted inputs.", "anchors": ["crates/pica-cli/src/commands/print.rs: Print::execute", "crates/pica-cli/src/commands/convert/xml.rs"]}
{"id": "C59", "title": "Parsing is total and a parsed matcher never panics", "statement": "Parsing any text as matcher terminates with a matcher or an error, and evaluating a parsed matcher on any record returns a truth value (the unreachable!() branches are never reached), the one given by the logical reading of the matcher, provided the regular expressions accepted one by one also compile with the case flag used and as a set.", "quantifier": "all texts, all records, both case modes", "why_tests_cant": "The unreachable branches exclude combinations the parser must never build; tests only try the combinations written down.", "anchors": ["src/matcher/subfield/mod.rs", "src/matcher/field/mod.rs", "src/matcher/subfield/parser.rs", "src/matcher/field/parser.rs"]}
{"id": "C60", "title": "Printing a path, query or format gives back its text", "statement": "to_string of a parsed path or query is the text it was parsed from; for a format it is that text without surrounding whitespace.", "quantifier": "all texts", "why_tests_cant": "All texts, including whitespace in every position.", "anchors": ["src/path.rs: Display for Path", "src/query.rs: Display for Query", "src/fmt/mod.rs: Display for Format"]}
{"id": "C61", "title": "String records and byte records answer queries and formats alike", "statement": "For a record whose values are UTF-8, the query result and the formatted values of the string record are those of the byte record, i.e. the lossy conversion to strings never changes them.", "quantifier": "all queries, formats, options and string records", "why_tests_cant": "Modifiers and joins could cut multi-byte characters; requires closure of UTF-8 under every operation used.", "anchors": ["src/query.rs: StringRecord::query", "src/fmt/mod.rs: StringRecord::format", "src/fmt/mod.rs: Modifier::modify"]}
{"id": "C62", "title": "hash lists identifier and digest of every selected record", "statement": "`pica hash` writes for each selected record, in order and up to the limit, a row with its identifier (empty if it has none) and the lower-case hexadecimal digest of the line as it was read.", "quantifier": "all inputs, filters, limits and digest functions", "why_tests_cant": "tests check a handful of fixed digests; the claim covers all inputs and that the digest is taken of the unmodified line", "anchors": ["crates/pica-cli/src/commands/hash.rs: Hash::execute", "src/record.rs: ByteRecord::sha256"]}
{"id": "C63", "title": "A check run writes exactly the rows of the flagging rules", "statement": "For every input, check writes for each selected record, rule set by rule set, one row per rule whose condition flags the record (only the first one for rule sets with fast termination), with the record's first identifier, the rule's id and level and its message, and after the last record the reports of the link rules; records outside the scope of a rule set get no rows from it; no record makes the program panic; a run that fails writes no link reports.", "quantifier": "all inputs, filter options, rule sets and hash orders", "why_tests_cant": "Whole-run behaviour over all rule sets and inputs, including stateful rules and early termination.", "anchors": ["crates/pica-cli/src/commands/check/mod.rs: Check::execute", "crates/pica-cli/src/commands/check/set.rs: RuleSet::{preprocess,check,finish}"]}
{"id": "C64", "title": "--rule and --tags keep exactly the rules asked for", "statement": "After selection each rule set contains, in order, exactly the rules whose id matches the --rule expression and that carry one of the comma-separated --tags; scope and fast termination are unchanged, rule sets without remaining rules are dropped.", "quantifier": "all rule sets, expressions and tag lists", "why_tests_cant": "All combinations of tags and rules.", "anchors": ["crates/pica-cli/src/commands/check/mod.rs: Check::execute"]}
{"id": "C65", "title": "Every matcher expression of the documented language is accepted", "statement": "For every text built from the documented conditions (tag, occurrence, quantifier, subfield codes, the relational, contains, in, regex, existence and cardinality operators, braces) with !, &&, ^/XOR, || and parentheses in their order of precedence, FieldMatcher::new / RecordMatcher::new succeeds, and the matcher matches a record exactly when the text's meaning holds of it.", "quantifier": "all texts of the language (GrammarSpec.v), all records, all options", "why_tests_cant": "the language is infinite and blanks, nesting and operator combinations multiply; tests fix a handful of texts", "anchors": ["src/matcher/field/parser.rs: parse_field_matcher", "src/matcher/subfield/parser.rs: parse_subfield_matcher", "src/matcher/record.rs: RecordMatcher::new"]}
{"id": "C66", "title": "Every accepted matcher text is of the documented language and means what it says", "statement": "If FieldMatcher::new / RecordMatcher::new accepts a text, the text belongs to the documented language, and the matcher matches a record exactly when the meaning of the text (given by its derivation) holds of it.", "quantifier": "all byte strings, all states of the thread, all records", "why_tests_cant": "says that nothing outside the language is ever accepted, a statement on all byte strings", "anchors": ["src/matcher/field/parser.rs: parse_field_matcher", "src/matcher/subfield/parser.rs: parse_subfield_matcher"]}
{"id": "C67", "title": "The matcher language is unambiguous", "statement": "Two ways of reading a matcher text according to the grammar (precedence, grouping, blanks, quantifiers) give the same set of matching records.", "quantifier": "all texts, all pairs of derivations, all records", "why_tests_cant": "tests look at one reading of a text only", "anchors": ["src/matcher/field/parser.rs: parse_field_composite_matcher", "src/matcher/subfield/parser.rs: parse_subfield_composite_matcher"]}
{"id": "C68", "title": "Lookups in fields and records", "statement": "FieldRef::contains is true exactly if a subfield has the code; FieldRef::find yields the first subfield satisfying the predicate, and None exactly if none does; RecordRef::retain keeps exactly the fields satisfying the predicate, in order; the level of a field is determined by the first character of its tag (0, 1, 2) and is defined for every valid tag.", "quantifier": "all fields, records, predicates, codes, tags", "why_tests_cant": "first match, none-before and order are statements on lists of any length and arbitrary predicates", "anchors": ["src/primitives/field.rs: FieldRef::contains", "src/primitives/field.rs: FieldRef::find", "src/primitives/record.rs: RecordRef::retain", "src/primitives/tag.rs: TagRef::level"]}
{"id": "C69", "title": "From the arguments of a command to its output", "statement": "If the texts given on the command line (expression, --and/--or/--not, --keep/--discard, --filter-set-source, allow and deny lists, query, header) belong to their languages, filter, count, select and frequency run and write exactly what these texts describe for the records of the input; conversely, whenever filter or select run, the texts have a meaning and the output is the one they describe.", "quantifier": "all argument values, all input files, all allow/deny tables, all transformation functions", "why_tests_cant": "combines parsing, building, evaluation, list lookup, limits and output; no test covers all texts, records and combinations of options", "anchors": ["crates/pica-cli/src/commands/filter.rs: Filter::execute", "crates/pica-cli/src/cli.rs: FilterOpts::matcher", "crates/pica-cli/src/utils.rs: parse_predicates", "crates/pica-cli/src/utils.rs: FilterSetBuilder::build", "crates/pica-cli/src/commands/select.rs: Select::execute", "crates/pica-cli/src/commands/frequency.rs: Frequency::execute"]}
{"id": "C70", "title": "Exit codes of filter", "statement": "filter ends with exit code 0 or 2 without panic (regular expressions compiling); with 0 exactly if the run completed, in which case all selected records have been written; arguments without a meaning are refused before any record is read.", "quantifier": "all argument values and all input files", "why_tests_cant": "absence of panics and wrongly reported success is a statement on all inputs", "anchors": ["crates/pica-cli/src/main.rs: main", "crates/pica-cli/src/commands/filter.rs: Filter::execute"]}
{"id": "C71", "title": "The language of paths: what is accepted and what it selects", "statement": "Every text Path::new accepts has the form of a path (tag, occurrence, '.' and codes, or braces with groups of codes and an optional condition, blanks in the documented places) and selects exactly the values this text describes; conversely every such text (with a condition of the strict matcher language, the group counter of the thread being zero) is accepted.", "quantifier": "all byte strings, all records, all states of the thread (soundness)", "why_tests_cant": "a statement on all texts and all records; tests cover a handful of paths", "anchors": ["src/path.rs: parse_path", "src/path.rs: Path::new", "src/path.rs: RecordRef::path"]}
{"id": "C72", "title": "The language of formats: what is accepted and what it writes", "statement": "Every text Format::new accepts is a format (modifiers, prefixes, suffixes, bounds, groups, '<$>' binding stronger than '<*>', optional condition) and formatting writes exactly the texts it describes; conversely every such text with parentheses nested less than 32 deep is accepted.", "quantifier": "all byte strings, all records, all options", "why_tests_cant": "precedence, modifier boundaries, backtracking between alternatives and nesting are statements on all texts", "anchors": ["src/fmt/parser.rs: parse_format", "src/fmt/parser.rs: parse_fragments", "src/fmt/mod.rs: FormatExt::format"]}
{"id": "C73", "title": "The language of queries: what is accepted and which rows result", "statement": "Every text Query::new accepts is a comma separated list of paths, quoted texts and formats (a format that is also a path is read as a path), and the rows are the product of the tables these describe; conversely every text of the strict language is accepted; a text has one meaning.", "quantifier": "all byte strings, all records, all query options", "why_tests_cant": "the choice between path, literal and format by backtracking has to be right for all texts", "anchors": ["src/query.rs: parse_query", "src/query.rs: parse_fragment", "src/query.rs: QueryExt::query"]}
{"id": "C74", "title": "Tables written as CSV read back as the same tables", "statement": "The text `pica select`, `frequency` and `hash` write for their rows, read as CSV, consists of exactly these rows (header first), with any delimiter option and quote style other than never, whatever the cells contain.", "quantifier": "all tables, cells, quote styles, inputs and options", "why_tests_cant": "Cells are arbitrary byte strings: delimiters, quotes, line ends and empty cells combine in unboundedly many ways.", "anchors": ["crates/pica-cli/src/commands/select.rs: Select::execute", "crates/pica-cli/src/commands/frequency.rs: Frequency::execute", "crates/pica-cli/src/commands/hash.rs: Hash::execute"]}
{"id": "C75", "title": "A check report contains exactly the rows of the run, in the format its name asks for", "statement": "A report of `pica check` named *.txt lists the identifiers of the rows of the run; a report named *.tsv is a tab-separated table of the rows, every other report a comma-separated one, with a header exactly if there is a row; the text determines the rows.", "quantifier": "all rule sets, inputs, output names", "why_tests_cant": "Messages and identifiers are arbitrary texts, and runs may fail at any record.", "anchors": ["crates/pica-cli/src/commands/check/writer/mod.rs: Writer::from_path", "crates/pica-cli/src/commands/check/writer/mod.rs: CsvWriter::write_record", "crates/pica-cli/src/commands/check/writer/mod.rs: TxtWriter::write_record"]}
{"id": "C76", "title": "Matchers of one kind accept exactly the texts of that kind and decide what they say", "statement": "Each constructor of a matcher of one kind (exists, relation, contains, in, regex, regex set, cardinality; for fields exists, subfields, cardinality) accepts every text of that kind and nothing else, the matcher matches exactly what the text says, no text belongs to two kinds of subfield matchers, SingletonMatcher::new accepts exactly the union, and a printed subfield matcher is read back as an equivalent one.", "quantifier": "all texts, subfield lists, field lists, options and regex engines", "why_tests_cant": "Texts combine quantifiers, code lists, blanks, quoted strings and numbers without bound; that nothing else is accepted cannot be sampled.", "anchors": ["src/matcher/subfield/mod.rs: ExistsMatcher::new", "src/matcher/subfield/mod.rs: RelationMatcher::new", "src/matcher/subfield/mod.rs: ContainsMatcher::new", "src/matcher/subfield/mod.rs: RegexMatcher::new", "src/matcher/subfield/mod.rs: RegexSetMatcher::new", "src/matcher/subfield/mod.rs: InMatcher::new", "src/matcher/subfield/mod.rs: CardinalityMatcher::new", "src/matcher/subfield/mod.rs: SingletonMatcher::new", "src/matcher/field/mod.rs: ExistsMatcher::new", "src/matcher/field/mod.rs: SubfieldsMatcher::new", "src/matcher/field/mod.rs: SingletonMatcher::new", "src/matcher/field/mod.rs: CardinalityMatcher::new"]}
{"id": "C77", "title": "The code lists of the check command have the shape of their standards and are closed under categories", "statement": "Every code the JEL check accepts is a capital and one or two figures, every code the ISO 639 check accepts is three small letters and is listed once; a record with a non-empty value of another shape is flagged. If a three-character JEL code is accepted, so is its two-character category, and every accepted category has an accepted code.", "quantifier": "all values, records, paths and options", "why_tests_cant": "About 1500 list entries and all other texts would have to be tried; the existing tests try a handful.", "anchors": ["crates/pica-cli/src/commands/check/checks/jelc.rs: CODES", "crates/pica-cli/src/commands/check/checks/jelc.rs: Jel::check", "crates/pica-cli/src/commands/check/checks/iso639.rs: CODES", "crates/pica-cli/src/commands/check/checks/iso639.rs: Iso639::check"]}
{"id": "C78", "title": "Owned and borrowed records are interchangeable", "statement": "Converting a borrowed tag, occurrence, subfield, field or record into an owned one loses nothing; comparing a borrowed with an owned value, in either order, is true exactly if the owned one is the converted borrowed one; an owned record writes the same bytes as the borrowed one, so a record that is read, converted and written gives the bytes it was read from; and the constructors of owned values accept exactly the valid parts.", "quantifier": "all records, fields, subfields, tags, occurrences, values and texts", "why_tests_cant": "Twelve hand-written comparison, conversion and writer implementations must agree on all records, whatever their number of fields and subfields.", "anchors": ["src/primitives/tag.rs: Tag", "src/primitives/occurrence.rs: Occurrence", "src/primitives/subfield.rs: SubfieldValue", "src/primitives/subfield.rs: Subfield", "src/primitives/field.rs: Field", "src/primitives/record.rs: Record"]}
{"id": "C79", "title": "A printed tag or occurrence reads back and does not depend on ownership", "statement": "The text that Display gives for a tag or an occurrence, borrowed or owned, is accepted by the constructor and gives the same value, and a value and its owned copy print the same text.", "quantifier": "all tags and occurrences", "why_tests_cant": "Ten thousand tags times two representations times constructors; existing tests print a single value of each type.", "anchors": ["src/primitives/tag.rs: TagRef::fmt", "src/primitives/tag.rs: Tag::fmt", "src/primitives/occurrence.rs: OccurrenceRef::fmt", "src/primitives/occurrence.rs: Occurrence::fmt", "src/primitives/tag.rs: Level::from_str"]}
{"id": "C80", "title": "How an input arrives makes no difference", "statement": "Whatever the sizes of the pieces in which the operating system delivers the inputs, and however often a read is interrupted, every command does exactly what it does for the contents of the inputs; so does the reader of the library, call by call.", "quantifier": "all inputs, all ways to cut them into non-empty pieces with interruptions, all commands that read records", "why_tests_cant": "Tests read small files that arrive in one piece; a record split across pieces at an arbitrary byte, with interruptions, cannot be provoked with files.", "anchors": ["src/reader.rs: Reader::next_byte_record", "crates/pica-cli/src/commands/concat.rs: Concat::execute", "crates/pica-cli/src/commands/invalid.rs: Invalid::execute"]}
{"id": "C81", "title": "A failing read is never taken for the end of the input", "statement": "If a read fails, a command processes exactly the lines that were complete before, then ends with the I/O error and status 2, also if invalid records are skipped; what the source would deliver later and the remaining inputs make no difference; status 0 is possible only if a limit was reached before. If an input cannot be opened, the inputs before it are processed completely. The command invalid does the same, except that its error counts as success if it is of the kind of a broken pipe.", "quantifier": "all inputs, positions and kinds of the fault, all commands that read records, all options", "why_tests_cant": "Failing reads cannot be provoked with files; that the cut line is not processed as a record matters for every position of the fault.", "anchors": ["src/reader.rs: Reader::next_byte_record", "src/reader.rs: ReadPicaError::skip_parse_err", "crates/pica-cli/src/main.rs: main", "crates/pica-cli/src/commands/invalid.rs: Invalid::execute"]}
{"id": "C82", "title": "Reading on after a failing read yields only records of the input", "statement": "A program that continues to call the reader after an I/O error gets only records that are lines of the input.", "quantifier": "all inputs and faults", "why_tests_cant": "Needs a source that fails once and then recovers, with the fault inside of a line.", "anchors": ["src/reader.rs: Reader::next_byte_record"]}
{"id": "C83", "title": "An output is always a beginning of what was to be written", "statement": "However the output accepts data (in pieces of any size, with interruptions) and whenever a write fails, what arrives in every output is a prefix of what the command would have written without faults.", "quantifier": "all inputs, all behaviours of the outputs, all sizes of the buffers; filter, concat, slice, explode, print, convert, sample, hash, select, frequency, check", "why_tests_cant": "Short and failing writes cannot be provoked with files; every position of the fault matters.", "anchors": ["src/writer.rs: PlainWriter", "src/writer.rs: WriterBuilder::from_path", "crates/pica-cli/src/commands/select.rs: Select::execute", "crates/pica-cli/src/commands/hash.rs: Hash::execute", "crates/pica-cli/src/commands/filter.rs: Filter::execute"]}
{"id": "C84", "title": "Success means that the output is complete", "statement": "If a command ends with status 0, all its outputs contain everything it had to write, unless an output was a closed pipe (or an input could not be opened for that reason).", "quantifier": "all inputs, all behaviours of the outputs, all sizes of the buffers", "why_tests_cant": "A full disk at an arbitrary byte, in particular in the last flush, is not reachable by tests on files.", "anchors": ["src/writer.rs: PlainWriter::finish", "crates/pica-cli/src/main.rs: main", "crates/pica-cli/src/commands/convert/xml.rs: XmlWriter::finish", "crates/pica-cli/src/commands/check/writer/mod.rs: Writer::finish"]}
{"id": "C85", "title": "A closed pipe ends a command quietly", "statement": "If the reader of a pipe goes away, and nothing else is wrong, the command ends with status 0.", "quantifier": "all inputs, all moments at which the pipe is closed", "why_tests_cant": "The moment at which the pipe is found closed depends on buffers and timing.", "anchors": ["crates/pica-cli/src/main.rs: main", "crates/pica-cli/src/error.rs: CliError", "crates/pica-cli/src/commands/hash.rs: Hash::execute", "crates/pica-cli/src/commands/convert/xml.rs: XmlWriter::write_byte_record"]}
{"id": "C86", "title": "How an output accepts data makes no difference", "statement": "If no write fails, then whatever the sizes of the pieces the outputs accept, however often a write is interrupted, and whatever the sizes of the buffers, all outputs contain exactly what the command had to write, and the status is the same.", "quantifier": "all inputs, all behaviours of outputs without faults, all sizes of the buffers; all commands that write records, tables or reports", "why_tests_cant": "Short and interrupted writes do not occur with files.", "anchors": ["src/writer.rs: PlainWriter", "src/writer.rs: WriterBuilder::from_path", "crates/pica-cli/src/commands/check/writer/mod.rs: Writer"]}
{"id": "C87", "title": "A refused command changes no file", "statement": "If a command ends with an error before it has read the first record (an invalid expression, query or option, or an output that cannot be opened), all files are as they were before. With --append no file ever loses content, however the command ends.", "quantifier": "all arguments, all states of the file system, all sets of files that can be opened for writing, all behaviours of the external functions", "why_tests_cant": "Tests of refused commands look at the exit status and stderr, in a fresh directory; an output that already exists is not among the cases.", "anchors": ["crates/pica-cli/src/commands/hash.rs: Hash::execute", "crates/pica-cli/src/commands/select.rs: Select::execute", "crates/pica-cli/src/commands/filter.rs: Filter::execute", "crates/pica-cli/src/commands/count.rs: Count::execute", "crates/pica-cli/src/commands/concat.rs: Concat::execute", "crates/pica-cli/src/commands/check/mod.rs: Check::execute", "crates/pica-cli/src/commands/explode.rs: Explode::execute", "crates/pica-cli/src/commands/split.rs: Split::execute", "crates/pica-cli/src/commands/partition.rs: Partition::execute", "crates/pica-cli/src/commands/convert/mod.rs: Convert::execute", "crates/pica-cli/src/commands/invalid.rs: Invalid::execute", "crates/pica-cli/src/commands/describe.rs: Describe::execute"]}
{"id": "C88", "title": "Outputs receive exactly what belongs to the inputs, all other files stay", "statement": "A command changes no file but its outputs. If no output is among its inputs and it ends with a status, every output contains what belongs to the arguments and the contents of the inputs (after the earlier content with --append, alone otherwise, compressed if asked for by --gzip or the name), and stdout received only what belongs there. With arguments of the strict language, readable inputs and writable outputs a command does end with a status.", "quantifier": "all arguments, all states of the file system, all inputs including stdin and compressed files, all combinations of outputs", "why_tests_cant": "Tests compare single outputs of single runs; the frame condition is a statement about all other files, and the contents of outputs depend on the order of opening, reading and writing for all inputs.", "anchors": ["crates/pica-cli/src/commands/filter.rs: Filter::execute", "crates/pica-cli/src/commands/concat.rs: Concat::execute", "crates/pica-cli/src/commands/count.rs: Count::execute", "crates/pica-cli/src/commands/explode.rs: Explode::execute", "crates/pica-cli/src/commands/hash.rs: Hash::execute", "crates/pica-cli/src/commands/print.rs: Print::execute", "crates/pica-cli/src/commands/slice.rs: Slice::execute", "crates/pica-cli/src/commands/sample.rs: Sample::execute", "crates/pica-cli/src/commands/select.rs: Select::execute", "crates/pica-cli/src/commands/frequency.rs: Frequency::execute", "crates/pica-cli/src/commands/check/mod.rs: Check::execute", "src/writer.rs: WriterBuilder::from_path", "src/reader.rs: ReaderBuilder::from_path", "crates/pica-cli/src/commands/split.rs: Split::execute", "crates/pica-cli/src/commands/partition.rs: Partition::execute", "crates/pica-cli/src/commands/convert/mod.rs: Convert::execute", "crates/pica-cli/src/commands/invalid.rs: Invalid::execute", "crates/pica-cli/src/commands/describe.rs: Describe::execute"]}
{"id": "C89", "title": "Appending the output for further inputs is the same as one run for all", "statement": "Running a command for some inputs and then with --append for further ones leaves the same files as running it once for all inputs in that order.", "quantifier": "all arguments, all states of the file system, all splittings of the list of inputs", "why_tests_cant": "Tests of --append use one record in each run and options without state.", "anchors": ["crates/pica-cli/src/commands/filter.rs: Filter::execute", "crates/pica-cli/src/commands/concat.rs: Concat::execute", "crates/pica-cli/src/commands/select.rs: Select::execute", "src/writer.rs: WriterBuilder::append"]}
{"id": "C90", "title": "An input is never destroyed", "statement": "After a command that reports success every input is still there with its content.", "quantifier": "all arguments, all states of the file system", "why_tests_cant": "Tests never use the same file as input and output.", "anchors": ["crates/pica-cli/src/commands/concat.rs: Concat::execute", "crates/pica-cli/src/commands/filter.rs: Filter::execute", "crates/pica-cli/src/commands/split.rs: Split::execute"]}
{"id": "C91", "title": "No accepted combination of output options panics", "statement": "The options --append and --gzip, in any combination that the command line parser accepts, never lead to a panic before the first record.", "quantifier": "all arguments of filter and slice, all states of the file system", "why_tests_cant": "A panic of the builder needs both options at once; tests use them one at a time.", "anchors": ["crates/pica-cli/src/commands/slice.rs: Slice::execute", "crates/pica-cli/src/commands/filter.rs: Filter::execute", "src/writer.rs: WriterBuilder::gzip", "src/writer.rs: WriterBuilder::append"]}
{"id": "C92", "title": "What a command wrote is what the next command reads", "statement": "After a command has written a text into a file, a command that reads this file gets that text (after the earlier content with --append).", "quantifier": "all texts, all states of the file system, all compression functions whose first member can be read back", "why_tests_cant": "Tests decompress outputs with the same library in one run; reading after a second run with --append, or under another name, is not tested.", "anchors": ["src/writer.rs: WriterBuilder::from_path", "src/reader.rs: ReaderBuilder::from_path", "crates/pica-cli/src/commands/concat.rs: Concat::execute"]}
{"id": "C93", "title": "split and partition write only into the output directory", "statement": "split and partition change no file outside of the directory given with --outdir, whatever the records contain.", "quantifier": "all arguments, all inputs, all states of the file system", "why_tests_cant": "Tests use values that are plain words; that a value leads out of the directory depends on the data.", "anchors": ["crates/pica-cli/src/commands/split.rs: Split::execute", "crates/pica-cli/src/commands/partition.rs: Partition::execute"]}
{"id": "C94", "title": "The chunks of split, concatenated, are the records that were split", "statement": "After split has ended, concat of the chunk files in order, compressed or not, gives exactly the records that were selected from the inputs, in their order.", "quantifier": "all arguments, all inputs, all sizes of chunks, all templates with a placeholder, all states of the file system", "why_tests_cant": "The number of chunks and the place of the cuts depend on the input; tests have a few records, and do not read the chunks again.", "anchors": ["crates/pica-cli/src/commands/split.rs: Split::execute", "crates/pica-cli/src/commands/concat.rs: Concat::execute", "src/writer.rs: WriterBuilder::from_path", "src/reader.rs: ReaderBuilder::from_path"]}
{"id": "C95", "title": "partition puts every record into the file of each of its values", "statement": "After partition has reported success, each selected record is in the file of each of its values, in the order of the input, and these files contain nothing else.", "quantifier": "all arguments, all inputs, all values of records, all states of the file system", "why_tests_cant": "Tests use distinct values that are plain words.", "anchors": ["crates/pica-cli/src/commands/partition.rs: Partition::execute"]}
{"id": "C96", "title": "A rule of a rule file is accepted if and only if its entries mean something", "statement": "Every rule of a rule file whose entries are as documented (the kind of the check, its path, query, filter or list, the options with their defaults, level and tags) is accepted with this name, level and tags; every other rule is refused; loading rule files never panics.", "quantifier": "all TOML tables, all oracles for regular expressions, similarity and polars, all states of the parsers' counters", "why_tests_cant": "The nine kinds of checks have many optional entries; tests have a few files with a few rules each, nearly all of them valid.", "anchors": ["crates/pica-cli/src/commands/check/rule.rs: Rule", "crates/pica-cli/src/commands/check/set.rs: RuleSet::new", "crates/pica-cli/src/commands/check/mod.rs: Check::execute", "crates/pica-cli/src/commands/check/checks/allow.rs: Allow", "crates/pica-cli/src/commands/check/checks/datetime.rs: DateTime", "crates/pica-cli/src/commands/check/checks/duplicates.rs: Duplicates", "crates/pica-cli/src/commands/check/checks/filter.rs: Filter", "crates/pica-cli/src/commands/check/checks/isni.rs: Isni", "crates/pica-cli/src/commands/check/checks/iso639.rs: Iso639", "crates/pica-cli/src/commands/check/checks/jelc.rs: Jel", "crates/pica-cli/src/commands/check/checks/link.rs: Link", "crates/pica-cli/src/commands/check/checks/unicode.rs: Unicode"]}
{"id": "C97", "title": "The report of check follows from its rule files and options", "statement": "If rule files and options mean something, check ends with the report their rules call for: the rows of each record in scope, in the order of the records, then the rows of the link checks; rules are chosen by --rule and --tags; if check ends with a status, files and options mean something, and the report is the one they call for; files without meaning are refused.", "quantifier": "all rule files, options, inputs, states of the file system, orders of hash maps", "why_tests_cant": "Tests check single rules on single files; the way from the text of the rules to the text of the report has many combinations.", "anchors": ["crates/pica-cli/src/commands/check/mod.rs: Check::execute", "crates/pica-cli/src/commands/check/set.rs: RuleSet::new", "crates/pica-cli/src/commands/check/set.rs: RuleSet::check", "crates/pica-cli/src/commands/check/rule.rs: Rule", "crates/pica-cli/src/commands/check/writer/mod.rs: Writer"]}
{"id": "C98", "title": "Entries of a rule file that have no meaning are reported", "statement": "A rule file with an entry that has no meaning (a misspelt key, an unknown kind of check, an unknown level) is refused.", "quantifier": "all TOML tables", "why_tests_cant": "That a misspelt option is ignored shows only if someone misspells it.", "anchors": ["crates/pica-cli/src/commands/check/rule.rs: Rule", "crates/pica-cli/src/commands/check/set.rs: RuleSet"]}
{"id": "C99", "title": "check leaves the files it reads as they are", "statement": "Whatever its arguments are, check changes no rule file, and applies the rules that were in the files when it was started.", "quantifier": "all arguments, all inputs, all states of the file system", "why_tests_cant": "No test gives the same name twice.", "anchors": ["crates/pica-cli/src/commands/check/mod.rs: Check::execute"]}
{"id": "C100", "title": "Parsing an expression takes time polynomial in its length", "statement": "The number of times the parsers call each other while a filter expression is parsed is bounded by a polynomial of small degree in the length of the expression.", "quantifier": "all texts, all oracles for regular expressions and similarity", "why_tests_cant": "Tests use expressions with at most two or three pairs of parentheses, for which the repeated parsing is not noticed.", "anchors": ["src/matcher/field/parser.rs: parse_field_group_matcher", "src/matcher/field/parser.rs: parse_field_or_matcher", "src/matcher/field/parser.rs: parse_field_xor_matcher", "src/matcher/field/parser.rs: parse_field_and_matcher", "src/matcher/field/parser.rs: parse_field_composite_matcher", "src/matcher/field/parser.rs: parse_field_matcher"]}
{"id": "C101", "title": "The nesting of matchers is bounded, so recursion does not exhaust the stack", "statement": "Every matcher that is accepted is nested at most a constant number of levels deep (as the limit on parentheses is meant to ensure), so parsing, evaluating and dropping it need bounded stack.", "quantifier": "all texts, all oracles for regular expressions and similarity", "why_tests_cant": "Needs an expression with tens of thousands of operators.", "anchors": ["src/matcher/field/parser.rs: parse_field_not_matcher", "src/matcher/field/parser.rs: group_level_inc", "src/matcher/field/mod.rs: FieldMatcher::is_match"]}
{"id": "C102", "title": "A configuration file that cannot be used is reported", "statement": "If the configuration file exists but cannot be read or is not a valid configuration, every command fails and leaves the file as it is; it never runs with other options than those in the file.", "quantifier": "all contents of the file, all commands, both ways to name the file", "why_tests_cant": "Needs files that are not UTF-8 or not readable; the tests have valid files only.", "anchors": ["crates/pica-cli/src/main.rs: run", "crates/pica-cli/src/config.rs: Config::from_path", "crates/pica-cli/src/config.rs: Config::discover"]}
{"id": "C103", "title": "Setting an option changes nothing else in the configuration file", "statement": "After `config NAME VALUE` the file differs from the one before only in the entry of NAME.", "quantifier": "all contents of the file, all options and values, any TOML reader", "why_tests_cant": "The test files hold nothing but the two options.", "anchors": ["crates/pica-cli/src/commands/config.rs: Config::execute", "crates/pica-cli/src/config.rs: Config::save"]}
{"id": "C104", "title": "A failed save leaves the old or the new configuration", "statement": "If saving the configuration fails, the options in effect afterwards are those before or those that were to be saved.", "quantifier": "all configurations, all points at which creating or writing the file fails, all later commands", "why_tests_cant": "Needs a full disk at the right moment.", "anchors": ["crates/pica-cli/src/config.rs: Config::save", "crates/pica-cli/src/config.rs: Config::from_path"]}
{"id": "C105", "title": "Every command comes to an end", "statement": "Every run of filter, concat, count, explode, check, hash, print, slice, sample, select, frequency, split, partition, convert, invalid and describe comes to an end, whatever its arguments and the contents of its inputs are. If it is neither refused nor panics, its exit status is 0 or 2.", "quantifier": "all commands, arguments, file systems, standard inputs, pieces in which a compressed input is delivered, regular expressions and outputs that cannot be opened", "why_tests_cant": "A test that ends shows that one run ends; that no run hangs needs an argument about all inputs.", "anchors": ["src/reader.rs: next_byte_record", "crates/pica-cli/src/main.rs: main", "crates/pica-cli/src/commands/filter.rs: Filter::execute", "crates/pica-cli/src/commands/invalid.rs: Invalid::execute", "crates/pica-cli/src/commands/split.rs: Split::execute"]}
{"id": "C106", "title": "Which commands cannot panic", "statement": "If the regular expressions that are accepted can be compiled, no run panics of count, explode, check, hash, sample, select, frequency, split, partition, invalid or describe, of concat without --unique idn, of convert to another format than XML, and of filter and slice unless both --append and --gzip are given.", "quantifier": "all arguments, file systems, inputs, and outputs that cannot be opened", "why_tests_cant": "The unwraps and explicit panics have to be shown unreachable for all records and arguments.", "anchors": ["crates/pica-cli/src/commands/explode.rs: Explode::execute", "crates/pica-cli/src/commands/select.rs: Select::execute", "crates/pica-cli/src/commands/partition.rs: Partition::execute", "src/writer.rs: WriterBuilder::gzip"]}
{"id": "C107", "title": "The feature compat changes no expression without a bare dollar sign", "statement": "The cargo feature \"compat\" does not change how expressions without a dollar sign are read. For every text without a dollar sign outside of quotes and operators, the parsers of subfield matchers, record matchers, paths, formats and queries give the same result with and without the feature. Every expression accepted without the feature is accepted with it and means the same, and no expression with a bare dollar sign is accepted without the feature.", "quantifier": "all texts, all states of the thread's nesting counters, all regular expressions", "why_tests_cant": "Added alternatives of a backtracking parser can change the reading of texts that were accepted before; the tests with the feature use a handful of expressions.", "anchors": ["src/parser.rs: parse_subfield_codes_compat", "src/matcher/subfield/parser.rs: parse_relation_matcher", "src/matcher/subfield/parser.rs: parse_contains_matcher", "src/matcher/field/parser.rs: parse_subfields_matcher_dollar", "src/matcher/field/parser.rs: parse_field_exists_matcher", "src/path.rs: parse_path_simple"]}
{"id": "C108", "title": "With the feature compat a dollar sign may stand for the dot and in front of codes", "statement": "With the cargo feature \"compat\", a dollar sign may be written in place of the dot of a path or a matcher and in front of the codes of every condition between braces, and the expression means the same as without the dollar sign.", "quantifier": "all paths, matchers and conditions, all records, all regular expressions", "why_tests_cant": "The alternatives were added to some parsers only; tests check the forms that their authors thought of.", "anchors": ["src/path.rs: parse_path_simple", "src/matcher/field/parser.rs: parse_subfields_matcher_dollar", "src/matcher/subfield/parser.rs: parse_relation_matcher", "src/matcher/subfield/parser.rs: parse_contains_matcher"]}
{"id": "C109", "title": "A run depends on the files it needs and on nothing else", "statement": "What a run of the program does is determined by its arguments, stdin, the configuration file and the files it is told to read: inputs, allow and deny lists, the file of the expression, rule files and the lists named in them. If these are the same on two disks, the runs end alike and do the same: each file is left alone by both, or gets the same content from both, or (with --append) the same text is added to it; the same is written to stdout.", "quantifier": "all commands with all arguments, all pairs of disks, all external functions", "why_tests_cant": "A dependence on the former content of an output, on another file or on the order of the files of a directory only shows on disks that differ in just that.", "anchors": ["crates/pica-cli/src/main.rs: run", "crates/pica-cli/src/main.rs: main", "crates/pica-cli/src/config.rs: Config::discover", "crates/pica-cli/src/commands/concat.rs: Concat::execute", "crates/pica-cli/src/commands/split.rs: Split::execute", "crates/pica-cli/src/commands/partition.rs: Partition::execute", "crates/pica-cli/src/commands/check/mod.rs: Check::execute"]}
{"id": "C110", "title": "A run changes only the files it is told to write", "statement": "However a run ends, every file stays as it is except for its --output and --tee, the chunk files of split, the files that partition names after values, and the configuration file if config sets or unsets an option. This holds for every session of runs, too.", "quantifier": "all commands, all sessions of any length, all disks", "why_tests_cant": "Tests look at the files they expect to change.", "anchors": ["crates/pica-cli/src/main.rs: run", "crates/pica-cli/src/main.rs: main", "crates/pica-cli/src/commands/config.rs: Config::execute", "crates/pica-cli/src/commands/split.rs: Split::execute", "crates/pica-cli/src/commands/partition.rs: Partition::execute"]}
{"id": "C111", "title": "The same run again does the same again", "statement": "If a run without --append needs no file that it may change, then running it again with the same stdin ends in the same way, leaves all files as the first run has left them, and writes the same to stdout.", "quantifier": "all commands, all disks", "why_tests_cant": "It must hold whatever the first run has left behind, also after a failure.", "anchors": ["crates/pica-cli/src/main.rs: run", "crates/pica-cli/src/main.rs: main", "crates/pica-cli/src/commands/concat.rs: Concat::execute", "crates/pica-cli/src/commands/partition.rs: Partition::execute"]}
{"id": "C112", "title": "Runs that do not touch each other's files can be exchanged", "statement": "If neither of two runs may change a file that the other needs or may change, both orders give the same ends and the same disk.", "quantifier": "all pairs of commands with their own environments, all disks", "why_tests_cant": "All pairs of commands and all ways in which they end would have to be tried.", "anchors": ["crates/pica-cli/src/main.rs: run", "crates/pica-cli/src/main.rs: main"]}
{"id": "C113", "title": "To configure skip-invalid is to give --skip-invalid", "statement": "After \"config skip-invalid true\" every command does what it does with the flag --skip-invalid before.", "quantifier": "all commands but config, all former configurations, all disks", "why_tests_cant": "Each command combines flag and configuration on its own; every command has to be tried with both.", "anchors": ["crates/pica-cli/src/main.rs: run", "crates/pica-cli/src/main.rs: main", "crates/pica-cli/src/commands/config.rs: Config::execute", "crates/pica-cli/src/commands/concat.rs: Concat::execute", "crates/pica-cli/src/commands/convert/mod.rs: Convert::execute", "crates/pica-cli/src/commands/filter.rs: Filter::execute"]}
{"id": "C114", "title": "With a configured normal form the spelling of expressions does not matter", "statement": "If a normal form is configured, a command does the same for all spellings of its expressions that have the same normal form.", "quantifier": "all commands, all expressions and respellings, all disks", "why_tests_cant": "Tests use one pair of spellings with filter.", "anchors": ["crates/pica-cli/src/main.rs: run", "crates/pica-cli/src/main.rs: main", "crates/pica-cli/src/translit.rs: translit", "crates/pica-cli/src/cli.rs: FilterOpts::matcher", "crates/pica-cli/src/commands/partition.rs: Partition::execute", "crates/pica-cli/src/commands/select.rs: Select::execute", "crates/pica-cli/src/commands/filter.rs: Filter::execute"]}
{"id": "C115", "title": "Every start of the program ends", "statement": "Every start of the program, also in a session, comes to an end with status 0 or 2 or with a panic.", "quantifier": "all commands, all arguments, all disks, sessions of any length", "why_tests_cant": "Termination on all inputs.", "anchors": ["crates/pica-cli/src/main.rs: run", "crates/pica-cli/src/main.rs: main", "src/reader.rs: Reader::next_byte_record"]}
{"id": "C116", "title": "A run does what its command line, its configuration and the files say", "statement": "From the command line to the bytes in the files: the configuration is read from the file given with --config or from the home directory; the expressions mean what the grammar says, after the configured normalization and with the similarity threshold of the command line; the allow and deny lists and the rule files are those on the disk; and with the records of the inputs the outputs get exactly what the command is for. A run whose arguments have a meaning ends with it; a run that ends had arguments with a meaning. A configuration that cannot be used keeps every command but config from doing anything.", "quantifier": "all commands but config, all arguments, configurations, disks and external functions within the stated conditions", "why_tests_cant": "It ties the parsers, the options, the configuration, the lists, the reader, the commands and the writers together; a mix-up of two arguments anywhere on the way (allow and deny, --and and --or, two thresholds) is a run that does something else for some input.", "anchors": ["crates/pica-cli/src/main.rs: run", "crates/pica-cli/src/config.rs: Config::discover", "crates/pica-cli/src/cli.rs: FilterOpts::matcher", "crates/pica-cli/src/commands/filter.rs: Filter::execute", "crates/pica-cli/src/commands/select.rs: Select::execute", "crates/pica-cli/src/commands/frequency.rs: Frequency::execute", "crates/pica-cli/src/commands/check/mod.rs: Check::execute", "crates/pica-cli/src/commands/count.rs: Count::execute"]}
{"id": "C117", "title": "The configuration of a run is what was configured last", "statement": "In a session of commands, each run finds the options skip-invalid and normalization exactly as the config commands before it have left them, whatever other commands were run in between; an option that was never set, or was unset last, has its default. config shows the value that was set last, and writes to no other file than the configuration.", "quantifier": "all sessions of any length, all interleavings of config with the other commands (that do not write to the configuration file), all arguments of config", "why_tests_cant": "The history is unbounded and the file is read and written anew by every config command; losing the other option when one is set, or a default written back as a value, shows only after certain histories.", "anchors": ["crates/pica-cli/src/main.rs: run", "crates/pica-cli/src/commands/config.rs: Config::execute", "crates/pica-cli/src/config.rs: Config::save", "crates/pica-cli/src/config.rs: Config::discover"]}
{"id": "C118", "title": "A pipe does what a file in between does", "statement": "What a command writes to stdout is byte for byte what it writes to a file given with --output, with the same end. A command that reads \"-\" does what it does with a file that has the same content. So two commands connected by a pipe end alike and do the same to all files as the two commands with a file in between.", "quantifier": "all commands with an output (but describe), all commands with inputs, all arguments, configurations, disks and external functions; file names that do not ask for compression or another report", "why_tests_cant": "The number of pairs of commands with their options is unbounded; a writer that treats stdout otherwise than a file (compression, appended output, buffering that is not flushed) or a reader that treats stdin otherwise shows only in some of them.", "anchors": ["src/writer.rs: WriterBuilder::from_path_or_stdout", "src/reader.rs: ReaderBuilder::from_path", "crates/pica-cli/src/commands/filter.rs: Filter::execute", "crates/pica-cli/src/commands/count.rs: Count::execute", "crates/pica-cli/src/commands/select.rs: Select::execute", "crates/pica-cli/src/commands/split.rs: Split::execute", "crates/pica-cli/src/commands/partition.rs: Partition::execute", "crates/pica-cli/src/main.rs: run"]}
{"id": "C119", "title": "What the words after pica ask for", "statement": "A command line is accepted exactly if it consists of an optional --config, a word for one command (its name, an alias, or an unambiguous beginning) and options and names in one of the spellings that clap has, with values in their ranges, no option given twice that can be given once, nothing missing that is required and no two options that exclude each other. The command that is started has exactly the arguments that the line says. No line asks for two things.", "quantifier": "all command lines (any words, any bytes), all environments", "why_tests_cant": "There are infinitely many lines: every combination of options, spellings, abbreviations and values. A wrong letter, a missing conflict, an option that is connected to the wrong field or a default that is wrong shows only for lines that use it.", "anchors": ["crates/pica-cli/src/cli.rs: Args", "crates/pica-cli/src/cli.rs: Command", "crates/pica-cli/src/cli.rs: FilterOpts", "crates/pica-cli/src/commands/filter.rs: Filter", "crates/pica-cli/src/commands/select.rs: Select", "crates/pica-cli/src/commands/count.rs: Count", "crates/pica-cli/src/main.rs: run"]}
{"id": "C120", "title": "The program does what its command line asks for", "statement": "A line that asks for a run starts this run with the configuration it names; a line that asks for completions writes them to stdout or to a file and changes nothing else; any other line changes no file and consumes nothing of stdin, and the program ends with status 2 or has only printed a text of clap.", "quantifier": "all command lines, all environments, disks and texts of clap", "why_tests_cant": "The lines that are not accepted cannot be enumerated; that none of them touches a file is a statement about all of them.", "anchors": ["crates/pica-cli/src/main.rs: run", "crates/pica-cli/src/main.rs: main", "crates/pica-cli/src/commands/completions.rs: Completions::execute"]}
{"id": "C121", "title": "Order and spelling of options do not matter", "statement": "Two command lines with the same command that say the same (the same switches, for every option the same values in the same order, and the same names in the same order) ask for the same run, however options are spelled, abbreviated, grouped and mixed with names.", "quantifier": "all command lines of all commands", "why_tests_cant": "The number of orders and spellings of one line grows exponentially with its options.", "anchors": ["crates/pica-cli/src/cli.rs: Args", "crates/pica-cli/src/cli.rs: Command", "crates/pica-cli/src/cli.rs: FilterOpts", "crates/pica-cli/src/commands/filter.rs: Filter", "crates/pica-cli/src/commands/select.rs: Select", "crates/pica-cli/src/commands/count.rs: Count", "crates/pica-cli/src/main.rs: run"]}
{"id": "C122", "title": "The commands get only arguments they are made for", "statement": "Whatever the command line is, no command gets arguments that exclude each other or are outside of their ranges: sizes of chunks and samples are at least 1, thresholds below 100, there is at least one input, config gets one of --get, --set, --unset with a fitting value, and no writer is asked to append to compressed output, which would panic.", "quantifier": "all command lines", "why_tests_cant": "It is a statement about all lines that clap lets through; the attributes are checked by no test as a whole.", "anchors": ["crates/pica-cli/src/commands/slice.rs: Slice", "crates/pica-cli/src/commands/filter.rs: Filter", "crates/pica-cli/src/commands/config.rs: Config", "src/writer.rs: WriterBuilder::append", "src/writer.rs: WriterBuilder::gzip"]}
{"id": "C123", "title": "--where is filter in front", "statement": "For every command with --where, `pica CMD --where W ... FILES` ends with the same status and leaves the same files and the same stdout as `pica filter W ... FILES | pica CMD ...`, where filter gets the options that choose records (--and, --or, --not, the lists, --source, --column, --ignore-case, --strsim-threshold, --skip-invalid) and CMD keeps the others (--limit among them), if filter comes to its end.", "quantifier": "all commands with --where, all options, all conditions, all inputs and files, all configurations, all external functions", "why_tests_cant": "Every command evaluates the conditions in its own loop, next to its own counters, limits and outputs; the equality relates two programs for all commands, records and options at once, and the tests run one command at a time.", "anchors": ["crates/pica-cli/src/cli.rs: FilterOpts", "crates/pica-cli/src/commands/filter.rs: Filter::execute", "crates/pica-cli/src/commands/count.rs: Count::execute", "crates/pica-cli/src/commands/explode.rs: Explode::execute", "crates/pica-cli/src/commands/slice.rs: Slice::execute"]}
{"id": "C124", "title": "Concat in front changes nothing", "statement": "`pica CMD FILES` ends with the same status and leaves the same files and the same stdout as `pica concat FILES | pica CMD`, if concat comes to its end, for every command that reads valid records: check, concat, convert, count, describe, explode, filter, frequency, hash, partition, print, sample, select, slice (if it has no --length or skips no lines) and split.", "quantifier": "all these commands with all their options, all lists of inputs, all configurations, all external functions", "why_tests_cant": "The statement is about every way of distributing records over files, gzip files and stdin; the readers of the files, the line counters and what is skipped must not show in any command.", "anchors": ["crates/pica-cli/src/commands/concat.rs: Concat::execute", "src/reader.rs: ReaderBuilder::from_path", "crates/pica-cli/src/commands/convert/mod.rs: Convert::execute", "crates/pica-cli/src/commands/split.rs: Split::execute"]}
{"id": "C125", "title": "Explode with conditions is explode with filter behind", "statement": "`pica explode L --where W ... FILES` ends with the same status as `pica explode L FILES | pica filter W ...` and, unless the options are refused, leaves the same files and the same stdout, if explode comes to its end; filter gets all other options of explode, --limit, --keep, --discard, --gzip and --output among them.", "quantifier": "all levels, options, conditions, inputs and configurations, all external functions", "why_tests_cant": "Explode builds new records, evaluates conditions, --keep and --discard on them and counts them for --limit in the opposite order of what filter does; that the orders cannot be told apart is a statement about all records and options.", "anchors": ["crates/pica-cli/src/commands/explode.rs: Explode::execute", "crates/pica-cli/src/commands/filter.rs: Filter::execute", "src/record.rs: ByteRecord::keep", "src/record.rs: ByteRecord::discard"]}
{"id": "C126", "title": "What is serialised is read back", "statement": "With the feature serde, every record (borrowed, owned, ByteRecord, StringRecord), level, path, query, format and tag matcher is read back equal from what a serialisation format makes of it: structs as maps in any order, with further keys and without absent options, or as sequences; newtypes and options with or without their wrapper; characters as strings; byte strings as bytes, strings or sequences of numbers. A matcher of fields, records or subfields is read back as one that matches the same.", "quantifier": "all values of these types, all ways in which a format may hand back what was serialised", "why_tests_cant": "The repository serialises a handful of texts and no record at all; the claim ranges over all records and over all formats, and fails only for some pairs of them.", "anchors": ["src/record.rs: ByteRecord, StringRecord", "src/primitives/record.rs: RecordRef, Record", "src/primitives/field.rs: FieldRef, Field", "src/primitives/subfield.rs: SubfieldRef, Subfield", "src/primitives/tag.rs: TagRef, Tag, Level", "src/path.rs: Serialize for Path, Deserialize for Path", "src/query.rs: Serialize for Query", "src/fmt/mod.rs: Serialize for Format", "src/matcher/tag.rs: Serialize for TagMatcher", "src/matcher/field/mod.rs: Serialize for FieldMatcher", "src/matcher/record.rs: Serialize for RecordMatcher", "src/matcher/subfield/mod.rs: Serialize for SubfieldMatcher"]}
{"id": "C127", "title": "What is deserialised is a valid record", "statement": "A record, ByteRecord or StringRecord that deserialisation accepts has valid tags, occurrences, codes and values; raw data of a ByteRecord are those of its fields; a StringRecord is valid UTF-8.", "quantifier": "all serialised values", "why_tests_cant": "No test deserialises a record, and the values that break the invariants are those no serialiser of valid records writes.", "anchors": ["src/record.rs: ByteRecord, StringRecord", "src/primitives/tag.rs: TagRef, Tag", "src/primitives/subfield.rs: SubfieldCode, SubfieldValueRef", "src/primitives/occurrence.rs: OccurrenceRef"]}
{"id": "C128", "title": "Every orderly run can be asked for", "statement": "A run of a command can be asked for by some command line, with any configuration file or without one, if and only if its numbers fit, it reads at least one file, no two of its options exclude each other, its texts are UTF-8, its path expressions are read by the library and its lists and files have names. In particular every list of files and every text, also one that begins with a hyphen, can be written.", "quantifier": "all runs of all commands, all configuration files, all environments", "why_tests_cant": "Tests run lines that somebody wrote down; that no run is out of reach ranges over all runs and needs a line for each.", "anchors": ["crates/pica-cli/src/cli.rs: Args", "crates/pica-cli/src/cli.rs: FilterOpts", "crates/pica-cli/src/main.rs: run", "crates/pica-cli/src/commands/filter.rs: Filter", "crates/pica-cli/src/commands/select.rs: Select", "crates/pica-cli/src/commands/slice.rs: Slice"]}
{"id": "C129", "title": "split and partition leave beginnings of their files when an output fails", "statement": "If an output of split cannot be opened or written at any moment, the chunk files that exist are the first ones, all of them but the last are complete, and the last is a beginning of its chunk. If an output of partition fails, every file that exists is a beginning of the file of its value. Either command ends with status 0 only if all files are complete or one of them is a pipe whose reader has gone, a pipe whose reader has gone is no reason for another status, and if no output fails the files are exactly the expected ones whatever the sizes of the writes are.", "quantifier": "all inputs, options, templates, chunk sizes, paths, buffer sizes, and all results of every open and write of every output; for split at most 2^32 selected records (beyond that see C32)", "why_tests_cant": "The tests write to a disk that neither refuses nor shortens a write; the claim ranges over all failures at all moments of any number of outputs, including those hidden in a drop.", "anchors": ["crates/pica-cli/src/commands/split.rs: Split::execute", "crates/pica-cli/src/commands/partition.rs: Partition::execute", "src/writer.rs: WriterBuilder::from_path", "src/writer.rs: PlainWriter", "crates/pica-cli/src/main.rs: main"]}
{"id": "C130", "title": "Filters after each other are one filter", "statement": "`pica filter A --and B .. --not C .. FILES` ends and does what `pica filter A FILES | pica filter B --and .. --not C ..` ends and does, if the first comes to its end; `pica filter A --not C --not C2 .. FILES` is `pica filter A FILES | pica filter -v C --or C2 ..`; and `pica filter -v A --or B .. FILES` is `pica filter -v A FILES | pica filter -v B --or ..`. The allow and deny lists belong to the first run, --limit, --keep, --discard, --append, --gzip, --tee and --output to the second.", "quantifier": "all expressions, options, configurations, file systems, inputs and results of the external functions", "why_tests_cant": "The tests run single filters on a few files; the claim relates two processes to one for every expression and every input, including the ends that are errors.", "anchors": ["crates/pica-cli/src/commands/filter.rs: Filter::execute", "src/matcher/builder.rs: RecordMatcherBuilder::and", "src/matcher/builder.rs: RecordMatcherBuilder::or", "src/matcher/builder.rs: RecordMatcherBuilder::not", "src/matcher/field/mod.rs: BitAndAssign"]}
{"id": "C131", "title": "The progress bar counts the lines that have been read", "statement": "With --progress the numbers shown are the number of records and of invalid lines read so far (modulo 2^64), in decimal and in groups of three digits, and the progress bar changes neither what is written nor how the run ends: the record at which a run stops is counted, the invalid line at which it fails is not.", "quantifier": "all commands (loop bodies), options, inputs and states", "why_tests_cant": "The tests never look at the progress bar, which goes to a terminal; the claim is about every prefix of every input and every way a run can end.", "anchors": ["crates/pica-cli/src/progress.rs: Progress::update", "crates/pica-cli/src/commands/concat.rs: Concat::execute", "crates/pica-cli/src/commands/invalid.rs: Invalid::execute", "crates/pica-cli/src/commands/slice.rs: Slice::execute", "crates/pica-cli/src/commands/filter.rs: Filter::execute"]}
{"id": "C132", "title": "Limits and slices after each other", "statement": "If the first run comes to its end, `pica filter W --limit N FILES` ends and does what `pica filter W FILES | pica slice --length N` ends and does, and `pica slice --start a --end b FILES | pica slice --start c --end d` what one slice from a + c to the smaller one of b and a + d does, provided that the second slice starts within the first (b = 0 or a + c <= b) and the sums fit in 64 bits.", "quantifier": "all expressions, limits, ranges, options, configurations, file systems, inputs and results of the external functions", "why_tests_cant": "The tests run single commands on a few files; the claim relates two processes to one for every input, with the records the one leaves unread because it stops early.", "anchors": ["crates/pica-cli/src/commands/filter.rs: Filter::execute", "crates/pica-cli/src/commands/slice.rs: Slice::execute"]}
{"id": "C133", "title": "--limit is filter --limit in front", "statement": "For every command that takes --limit: `pica CMD --where W --limit N ... FILES` ends and does what `pica filter W --limit N ... FILES | pica CMD` ends and does, if filter comes to its end; both stop reading at the same record.", "quantifier": "all commands, expressions, limits, options, configurations, file systems, inputs and results of the external functions", "why_tests_cant": "The tests run single commands with one limit on a few files; the claim relates two processes to one for every input and depends on where each command stops reading.", "anchors": ["crates/pica-cli/src/commands/filter.rs: Filter::execute", "crates/pica-cli/src/commands/select.rs: Select::execute", "crates/pica-cli/src/commands/frequency.rs: Frequency::execute", "crates/pica-cli/src/commands/hash.rs: Hash::execute", "crates/pica-cli/src/commands/print.rs: Print::execute", "crates/pica-cli/src/commands/sample.rs: Sample::execute", "crates/pica-cli/src/commands/split.rs: Split::execute", "crates/pica-cli/src/commands/describe.rs: Describe::execute", "crates/pica-cli/src/commands/check/mod.rs: Check::execute", "crates/pica-cli/src/commands/count.rs: Count::execute", "crates/pica-cli/src/commands/partition.rs: Partition::execute"]}
{"id": "C134", "title": "Removing duplicates in parts is removing them at once", "statement": "If the inputs are divided into parts, concat --unique is run for each part and the outputs are given to concat --unique with the same strategy, then this run ends and writes (to the output and to the tee output) what concat --unique of all inputs writes; in particular to remove duplicates twice is to remove them once. The runs for the parts come to their ends, and outputs are no inputs.", "quantifier": "all environments, configurations, options, any number of parts with any inputs, both strategies and none", "why_tests_cant": "It is an equation between any number of runs and one run, for all divisions of all inputs; which duplicates meet in a part depends on the division.", "anchors": ["crates/pica-cli/src/commands/concat.rs: Concat::execute", "crates/pica-cli/src/commands/concat.rs: Concat::record_key", "src/reader.rs: ReaderBuilder::from_path"]}
{"id": "C135", "title": "Explode after explode is explode by the more detailed level", "statement": "For all levels L1 and L2 and all options of the second run, explode L1 of the inputs followed by explode L2 of its output ends and writes what explode by the more detailed one of L1 and L2 ends and writes; in particular explode twice is explode once, and copies can be reached by way of the libraries. The first run comes to its end, and the output is no input.", "quantifier": "all environments, configurations, options, levels, inputs", "why_tests_cant": "It is an equation between two runs and one run for records with any number of libraries and copies; that it depends on the order of the fields was found by the proof.", "anchors": ["crates/pica-cli/src/commands/explode.rs: process_main", "crates/pica-cli/src/commands/explode.rs: process_local", "crates/pica-cli/src/commands/explode.rs: process_copy", "crates/pica-cli/src/commands/explode.rs: Explode::execute"]}
{"id": "C136", "title": "Commands that go record by record can be run in parts", "statement": "If the runs of concat without --unique, convert to PICA+, import, plain or binary, explode, filter, print, invalid, or select without --unique and --header, each without --limit and compression, over FILES1, FILES2, ... come to their ends and write T1, T2, ... to stdout, then the run over FILES1 FILES2 ... comes to its end, writes T1 T2 ... and changes nothing else; the numbers that count prints add up. Only the first part may read stdin.", "quantifier": "all environments, configurations, options, lists of inputs, numbers of parts, contents", "why_tests_cant": "It says for all ways to cut any list of inputs that no state other than what has been written is carried from one record to the next.", "anchors": ["crates/pica-cli/src/commands/filter.rs: Filter::execute", "crates/pica-cli/src/commands/explode.rs: Explode::execute", "crates/pica-cli/src/commands/print.rs: Print::execute", "crates/pica-cli/src/commands/concat.rs: Concat::execute", "crates/pica-cli/src/commands/convert/mod.rs: Convert::execute", "crates/pica-cli/src/commands/invalid.rs: Invalid::execute", "crates/pica-cli/src/commands/select.rs: Select::execute", "crates/pica-cli/src/commands/count.rs: Count::execute"]}
{"id": "C137", "title": "filter and filter --invert-match deal out the records", "statement": "If \"pica filter W FILES\" and \"pica filter -v W FILES\", with the same other options and without --limit, --keep, --discard, --allow-list and --deny-list, come to their ends, then so does \"pica concat FILES\", and each record it writes is written by exactly one of the two, in the same order and unchanged.", "quantifier": "all environments, configurations, expressions, options, lists of inputs, contents", "why_tests_cant": "It compares three runs record by record for all expressions and all inputs, including expressions with oracles for similarity and regular expressions.", "anchors": ["crates/pica-cli/src/commands/filter.rs: Filter::execute", "crates/pica-cli/src/commands/concat.rs: Concat::execute"]}
{"id": "C138", "title": "Slices put together are the records again", "statement": "If \"pica concat FILES\" comes to its end and writes T, then for all positive numbers B1 <= B2 <= ... the runs \"pica slice --end B1\", \"pica slice --start B1 --end B2\", ..., \"pica slice --start Bn\" over FILES come to their ends and write T together; and any two slices next to each other write what the slice over both writes.", "quantifier": "all environments, configurations, lists of inputs, contents, numbers of cuts and places of the cuts", "why_tests_cant": "It is about all ways to cut any sequence of records over several files, with the invalid ones skipped.", "anchors": ["crates/pica-cli/src/commands/slice.rs: Slice::execute", "crates/pica-cli/src/commands/concat.rs: Concat::execute"]}
{"id": "C139", "title": "To ignore case finds at least as much", "statement": "An expression of ==, =^, =$, =?, in, existence, numbers of subfields and 'at least' numbers of fields, joined by && and ||, matches with --ignore-case every record it matches without; one of !=, !^, !$, not in and 'at most' matches without every record it matches with; ! exchanges the two. Thus \"pica filter -i\" writes every line that \"pica filter\" writes, in the same order, or the other way round.", "quantifier": "all expressions of this kind, records, oracles for lower case that can be taken of parts, environments, configurations, options, lists of inputs", "why_tests_cant": "It compares two runs for all expressions of unbounded nesting, with quantifiers, and all records.", "anchors": ["src/matcher/subfield/mod.rs: RelationMatcher::is_match", "src/matcher/subfield/mod.rs: ContainsMatcher::is_match", "src/matcher/subfield/mod.rs: InMatcher::is_match", "src/matcher/field/mod.rs: FieldMatcher::is_match", "crates/pica-cli/src/commands/filter.rs: Filter::execute"]}
{"id": "C140", "title": "A lower similarity threshold finds at least as much", "statement": "An expression in which =* stands on the positive side only (under an even number of !, in 'at least' numbers of fields, not under ^) matches with a lower --strsim-threshold every record it matches with a higher one, so \"pica filter\" with the lower threshold writes every line that it writes with the higher one, in the same order; on the negative side, or with --invert-match, it is the other way round. What an expression is parsed to does not depend on the threshold.", "quantifier": "all expressions of this kind, records, measures of similarity, environments, configurations, options, lists of inputs", "why_tests_cant": "It compares two runs for all expressions of unbounded nesting, with quantifiers, and all pairs of thresholds.", "anchors": ["src/matcher/subfield/mod.rs: RelationMatcher::is_similar", "src/matcher/field/mod.rs: FieldMatcher::is_match", "crates/pica-cli/src/cli.rs: FilterOpts", "crates/pica-cli/src/commands/filter.rs: Filter::execute"]}
{"id": "C141", "title": "explode main, slice and count choose what filter chooses", "statement": "With --where W and the same other options (allow and deny lists, --and, --or, --not, --ignore-case, --skip-invalid, no --limit), \"pica explode main\" and \"pica slice\" write byte for byte what \"pica filter W\" writes, and \"pica count\" with --records, --fields or --subfields prints the number of line ends, record separators and unit separators of that text. If filter succeeds, so do the others.", "quantifier": "all environments, configurations, worlds, options, expressions, lists of inputs", "why_tests_cant": "It compares runs of four commands, each with its own code for choosing records, for all expressions, lists and inputs; explode takes every record apart and parses it again.", "anchors": ["crates/pica-cli/src/commands/explode.rs: Explode::execute", "crates/pica-cli/src/commands/slice.rs: Slice::execute", "crates/pica-cli/src/commands/count.rs: Count::execute", "crates/pica-cli/src/commands/filter.rs: Filter::execute"]}
{"id": "C142", "title": "sample takes lines of what filter writes", "statement": "With --where W and the same other options, \"pica sample N\" writes lines of what \"pica filter W\" writes, each at most once per place: N of them, or all if there are fewer, whatever the random numbers are. If filter writes at most N records, sample writes exactly the same text in the same order.", "quantifier": "all environments, configurations, worlds, options, expressions, lists of inputs, random numbers and sizes", "why_tests_cant": "It holds for every sequence of random numbers and compares two commands on inputs of any length.", "anchors": ["crates/pica-cli/src/commands/sample.rs: Sample::execute", "crates/pica-cli/src/commands/filter.rs: Filter::execute"]}
{"id": "C143", "title": "frequency counts the rows that select lists", "statement": "If \"pica select Q\" succeeds and its text is a table of rows, \"pica frequency Q\" with the same options and inputs succeeds and writes a table that lists every one of these rows exactly once, followed by the number of times it stands in the table of select, in descending order of the numbers and then in lexicographic order, and lists nothing else.", "quantifier": "all environments, configurations, worlds, queries and options, lists of inputs, iteration orders of the hash map", "why_tests_cant": "It compares two commands on inputs of any length, for all queries and for every iteration order of the hash map.", "anchors": ["crates/pica-cli/src/commands/select.rs: Select::execute", "crates/pica-cli/src/commands/frequency.rs: Frequency::execute"]}
{"id": "C144", "title": "What print shows determines the records when no value contains a dollar sign", "statement": "If two inputs whose records contain no dollar sign are shown as the same text by \"pica print\", then \"pica cat\" writes the same bytes for both: the text of print determines the tags, occurrences, codes and values of all fields of all records. With a dollar sign in a value this is false: a subfield $a with the value \"x $b y\" is shown like a subfield $a with the value \"x\" followed by a subfield $b with the value \"y\".", "quantifier": "all environments, configurations, worlds, lists of inputs, with and without --skip-invalid; values without dollar sign", "why_tests_cant": "Injectivity compares every two inputs of any number and length of records.", "anchors": ["crates/pica-cli/src/commands/print.rs: Print::execute", "crates/pica-cli/src/commands/concat.rs: Concat::execute"]}
{"id": "C145", "title": "count, frequency and describe do not depend on the order of their inputs", "statement": "If count, frequency or describe succeeds, the same command with its inputs in any other order succeeds too and leaves exactly the same files and the same text on stdout. Inputs may be named more than once and stdin may be among them.", "quantifier": "all environments, configurations, worlds, options, lists of inputs and their permutations, iteration orders of the hash maps; no --limit for frequency and describe", "why_tests_cant": "It compares the runs for all orders of any number of inputs, for every iteration order of the hash maps.", "anchors": ["crates/pica-cli/src/commands/count.rs: Count::execute", "crates/pica-cli/src/commands/frequency.rs: Frequency::execute", "crates/pica-cli/src/commands/describe.rs: Describe::execute"]}
{"id": "C146", "title": "A command that goes record by record succeeds on every choice of its inputs", "statement": "If a command that goes record by record (concat, convert, explode, filter, print, select to stdout, without --limit and without a memory of the records before) succeeds on some inputs, then every input has a text such that for any inputs taken from them, in any order and any number, the command succeeds and writes their texts one after the other. If the run on inputs divided into parts succeeds, the runs on the parts succeed and their texts put together are its text.", "quantifier": "all environments, configurations, worlds, commands that go record by record, lists of inputs and all lists of inputs taken from them", "why_tests_cant": "It speaks about all selections, orders and repetitions of any number of inputs.", "anchors": ["crates/pica-cli/src/commands/filter.rs: Filter::execute", "crates/pica-cli/src/commands/select.rs: Select::execute", "crates/pica-cli/src/commands/concat.rs: Concat::execute", "crates/pica-cli/src/commands/print.rs: Print::execute", "crates/pica-cli/src/commands/explode.rs: Explode::execute", "crates/pica-cli/src/commands/convert/mod.rs: Convert::execute"]}
{"id": "C147", "title": "The next command reads what a command has written", "statement": "What concat, explode, filter, sample or slice writes to stdout, with any options (--keep and --discard that leave nothing of a record included) and whatever the status with which the command ends, goes through `pica concat` without an error and unchanged, also without --skip-invalid, and `pica invalid` finds nothing in it.", "quantifier": "all environments, configurations, worlds, options, inputs and statuses", "why_tests_cant": "It speaks about all inputs, including those with invalid lines, failing reads and missing final newlines, and all predicates of --keep and --discard.", "anchors": ["crates/pica-cli/src/commands/filter.rs: Filter::execute", "crates/pica-cli/src/commands/concat.rs: Concat::execute", "crates/pica-cli/src/commands/explode.rs: Explode::execute", "crates/pica-cli/src/commands/sample.rs: Sample::execute", "crates/pica-cli/src/commands/slice.rs: Slice::execute", "crates/pica-cli/src/commands/invalid.rs: Invalid::execute", "src/primitives/record.rs: RecordRef::write_to", "src/record.rs: ByteRecord::keep", "src/record.rs: ByteRecord::discard"]}
{"id": "C148", "title": "A header of select or frequency is one row in front", "statement": "For every --header there is a text, which reads as one CSV row of the cells between the commas, trimmed, such that every run of select that succeeds with this header succeeds without it and writes the same after this text, whatever the other options (--limit, --unique, --no-empty-columns, --nf, --quote-style, --tsv). Whether the run succeeds depends on the number of the cells of the header only. The same holds for frequency (which writes nothing at all if reading fails). The converse is false: with a header of another number of cells than the rows a run fails that succeeds without it.", "quantifier": "all environments, configurations, worlds, options of select and frequency, headers and inputs", "why_tests_cant": "It compares two runs for all inputs, queries and headers.", "anchors": ["crates/pica-cli/src/commands/select.rs: Select::execute", "crates/pica-cli/src/commands/frequency.rs: Frequency::execute"]}
{"id": "C149", "title": "--no-empty-columns and --unique of select leave out rows and change nothing else", "statement": "If `pica select` succeeds, it succeeds with --no-empty-columns and writes exactly those of its rows that have no empty cell, in the same order. It succeeds with --unique and writes its rows in the same order with some left out; if different rows have different hashes, every row is written exactly once.", "quantifier": "all environments, configurations, worlds, queries, filters, limits, quote styles other than never, delimiters and inputs", "why_tests_cant": "It compares two runs for all inputs and queries.", "anchors": ["crates/pica-cli/src/commands/select.rs: Select::execute"]}
{"id": "C150", "title": "-n and --threshold of frequency cut off rows and change nothing else", "statement": "If `pica frequency` succeeds, it succeeds with -n N (N > 0) and writes exactly the first N of its rows. Unless --reverse is given, it succeeds with --threshold T and writes exactly those of its rows whose number is at least T, in the same order.", "quantifier": "all environments, configurations, worlds, queries, filters, normal forms, delimiters, N, T and inputs", "why_tests_cant": "It compares two runs for all inputs, queries and numbers.", "anchors": ["crates/pica-cli/src/commands/frequency.rs: Frequency::execute"]}
{"id": "C151", "title": "--reverse of frequency changes the order of the rows and nothing else", "statement": "If `pica frequency` succeeds, it succeeds with --reverse and writes the same rows, each as often. Without the option the numbers of the rows never go up, with the option they never go down.", "quantifier": "all environments, configurations, worlds, queries, filters, normal forms, delimiters and inputs", "why_tests_cant": "It compares two runs for all inputs and queries.", "anchors": ["crates/pica-cli/src/commands/frequency.rs: Frequency::execute"]}
{"id": "C152", "title": "--tsv and --quote-style change how rows are written and nothing else", "statement": "If `pica select` succeeds with one delimiter and one quote style other than never, it succeeds with the other delimiter and every other such style and writes a text that reads as the same rows. The same holds for the delimiter of `pica frequency`.", "quantifier": "all environments, configurations, worlds, queries, filters, headers, options, delimiters, quote styles other than never and inputs", "why_tests_cant": "It compares two runs for all inputs, queries and cells.", "anchors": ["crates/pica-cli/src/commands/select.rs: Select::execute", "crates/pica-cli/src/commands/frequency.rs: Frequency::execute"]}
{"id": "C153", "title": "--tsv and --header of hash change how rows are written and the first row only", "statement": "If `pica hash` succeeds, it succeeds with every delimiter and every header with the same number of cells. The first row that it writes has the trimmed cells of the header, and all other rows are the same.", "quantifier": "all environments, configurations, worlds, filters, limits, headers, delimiters and inputs", "why_tests_cant": "It compares two runs for all inputs and headers.", "anchors": ["crates/pica-cli/src/commands/hash.rs: Hash::execute"]}
{"id": "C154", "title": "--translit changes the cells of a table one by one", "statement": "If `pica select` succeeds, it succeeds with --translit and writes the same rows with every cell in the chosen normal form, after replacing what is not valid UTF-8. The same holds for `pica frequency`, and the numbers stay.", "quantifier": "all environments, configurations, worlds, queries, filters, limits, options, normal forms, quote styles other than never, delimiters and inputs", "why_tests_cant": "It compares two runs for all inputs, queries and normalisations.", "anchors": ["crates/pica-cli/src/commands/select.rs: Select::execute", "crates/pica-cli/src/commands/frequency.rs: Frequency::execute"]}
{"id": "C155", "title": "frequency --unique lists the same values with numbers that are not greater", "statement": "If `pica frequency` succeeds, it succeeds with --unique and lists the same values, each with a number that is at least 1 and at most the number without the option.", "quantifier": "all environments, configurations, worlds, queries, filters, limits, normal forms, delimiters, iteration orders of the hash map and inputs", "why_tests_cant": "It compares two runs for all inputs and queries.", "anchors": ["crates/pica-cli/src/commands/frequency.rs: Frequency::execute"]}
{"id": "C156", "title": "The formats of count tell the same numbers", "statement": "If `pica count` succeeds with one of its formats (plain, --csv, --tsv, with or without --no-header, --records, --fields, --subfields), there are three numbers such that it succeeds with every format and writes these numbers in that format.", "quantifier": "all environments, configurations, worlds, filters, formats and inputs", "why_tests_cant": "It compares runs for all inputs and options.", "anchors": ["crates/pica-cli/src/commands/count.rs: Count::execute"]}
