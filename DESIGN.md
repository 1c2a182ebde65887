# Formal model of pica-rs in Rocq (Coq 8.16.1)

The Rust sources under /repo are read as text; nothing of them is built or
executed. `rocq/theories` holds

* `*Model.v` – function-by-function models, each definition citing the Rust
  lines it models (no proofs in these files; `Winnow.v` and `StateParser.v` model
  the parser library),
* `*Spec.v`  – small specifications (grammars, relations, reference functions)
  used in theorem statements, written without the model's functions,
* `*Proofs.v`, `*Counterexamples.v` – lemmas and witnesses,
* `Properties*.v` – only the property theorems, each closed by `exact lemma` and
  followed by `Print Assumptions`, and `Example`s showing that the hypotheses are
  met by non-trivial concrete data,
* `Conf*.v` – the tests and documentation examples of /repo, replayed on the model;
  tests of the model against the results that the authors of the code assert, not
  proofs of properties. `ConfCli*.v` replay 326 of the 327 integration tests of the
  commands on the program, with the words of the command line, exit status, standard
  output and files (left out: one test that needs the feature "compat", whose queries are run in
  `ConfCompat.v`). These tests are evaluated when the files are compiled
  (`Eval vm_compute`); the kernel only sees their results.

## Modelling conventions

* A byte is a number of type `N` and a byte string is `list N`. The Rust type
  bounds bytes by 255; the theorems hold for the larger domain as well.
  Concrete witnesses only use real bytes.
* `usize` counters are unbounded unless wrap-around is the point (`split` casts
  to `u32`; the group counters are `u8`/`u32`).
* Panics, `unwrap` on `None`, `unreachable!` are explicit error values.
* Parsers (winnow 1.0) are functions `bytes -> option (A * bytes)`; `None` is
  winnow's `ErrMode::Backtrack`, the only error mode the code base produces
  (no `cut_err`). The thread-local counters used by parsers are threaded through
  as explicit state that survives backtracking, as in the code
  (`sparser A := levels -> bytes -> pres A * levels`).
* Recursion of parsers is by fuel; exhaustion is a distinct error value, and
  C59 shows that the fuel used by the entry points always suffices.
* A command is a function from its arguments and the contents of its input files
  to its outcome: `Done output`, `Failed output error` (what was written before
  the error) or `Panicked`.
* External components are parameters, quantified in every theorem, never axioms:
  regular expressions, string similarity, Unicode lower-casing, normalisation and
  transliteration, SHA-256, the 64-bit hash, the random generator, the iteration
  order of hash maps, the CSV/TOML/JSON libraries, gzip.

## Files

| files | models | /repo |
|-------|--------|-------|
| `Bytes`, `Winnow`, `StateParser` | byte strings, winnow combinators, parsers with thread-local state | (libraries) |
| `RecordModel`, `OwnedModel` | subfields, fields, records, levels, lookups: parsers, constructors, writers; owned types: conversions, comparisons, writers, Display | `src/primitives/*` |
| `Utf8Model` | UTF-8 validation, string records | `src/record.rs`, `std::str` |
| `ByteRecordModel` | byte records with cached raw data, edits, equality, hash | `src/record.rs` |
| `ReaderModel` | reader, writer, builders | `src/reader.rs`, `src/writer.rs` |
| `SerdeModel` | serialisation of records, levels, paths, queries, formats, tag matchers; what the derive macro, the standard types and `bstr` do is written out from their documentation | `src/record.rs`, `src/primitives/*`, `src/{path,query}.rs`, `src/fmt/mod.rs`, `src/matcher/tag.rs` |
| `TagOccModel` | tag and occurrence matchers | `src/matcher/{tag,occurrence}.rs` |
| `StrParserModel` | quoted strings, codes, white space | `src/parser.rs` |
| `MatcherModel`, `MatcherParserModel`, `SingleModel`, `BuilderModel` | subfield, field and record matchers: evaluation, operators, Display, parsers, constructors of single kinds, builder | `src/matcher/*` |
| `PathModel`, `QueryModel` | paths and queries: parsers, evaluation, Display | `src/path.rs`, `src/query.rs` |
| `CompatModel` | the parsers of matchers, paths, formats and queries with the feature `compat` | `src/parser.rs`, `src/path.rs`, `src/matcher/*/parser.rs` |
| `FmtModel` | formats | `src/fmt/*` |
| `CliModel` | the record loop; filter sets; concat, invalid, count, hash, print, sample, slice, split, partition, filter | `crates/pica-cli/src/commands/*`, `utils.rs` |
| `TableModel` | select, frequency, describe | same |
| `ConvertModel` | binary, import, json, plain, xml | `commands/convert/*` |
| `ExplodeModel` | explode | `commands/explode.rs` |
| `CheckModel`, `CheckCodes` | check: rules, rule sets, all checks, runs | `commands/check/*` |
| `RuleModel` | rule files of check, from the TOML table to the rule sets; check with its rule files | `commands/check/{mod,set,rule}.rs`, `commands/check/checks/*` |
| `CsvModel` | CSV text of select, frequency, hash; check reports | `commands/*`, `commands/check/writer/mod.rs` |
| `OptionsModel` | predicate lists, config command | `utils.rs`, `commands/config.rs` |
| `ConfigModel` | where the configuration comes from, failing reads and writes of it | `main.rs`, `config.rs` |
| `DiskModel` | the commands with the files they read and write | the `execute` functions of `commands/*`, `src/reader.rs`, `src/writer.rs` |
| `DirModel` | split, partition, convert, invalid and describe with the files they read and write | the `execute` functions of `commands/*` |
| `MainModel` | the whole program: configuration, options and lists put together; sessions of runs | `main.rs`, `cli.rs`, the `execute` functions of `commands/*` |
| `ClapModel` | the part of clap 4.6 that is used: spelling of options, values, conflicts and requirements, inferred subcommands; written from clap's documentation and from what is known of its source | the attributes of `cli.rs` and `commands/*` |
| `ArgsModel` | the arguments of all commands; the program from its command line on | `cli.rs`, `main.rs`, the structs of `commands/*`, `commands/completions.rs` |
| `WriteModel` | writing in pieces, failing writes, broken pipes | `src/writer.rs`, `main.rs`, the writers of `commands/*` |
| `ManyWriteModel` | the same for the many outputs of split and partition | `commands/split.rs`, `commands/partition.rs` |
| `IoModel` | reading in pieces, failing reads, exit status | `src/reader.rs`, `main.rs`, the loops of `commands/*` |
| `PrepareModel` | from arguments to runs: expression parsing, shared options, exit codes | `commands/*.rs`, `main.rs`, `config.rs` |

The languages of matchers, paths, formats and queries are specified by inductive
grammars (`GrammarSpec`, `QueryGrammarSpec`) which relate a text to its meaning, without any parser; the
`*Grammar*Proofs`, `FmtReadProofs` and `QueryTextProofs` show that the parsers accept these texts with this meaning and
nothing else.

## Trusted base

* Coq 8.16.1: its kernel, and `vm_compute` in examples and witnesses (the kernel's
  conversion). No plugins, no flags.
* `Print Assumptions` reports "Closed under the global context" for every theorem
  in the `Properties*.v` files: no axiom is used, neither of the standard library
  nor ours. (`vcheck` lists seven declarations of the standard library module
  `ssrunder`; they belong to a module that is loaded with the library and are used
  nowhere.)
* That the models describe the code. Each definition names the lines it models;
  deviations are stated in the same comment. The models were tested by replaying the
  project's own tests and documentation examples (`Conf*.v`) and the theorems by
  seeding bugs (below); the Rust code was not run.
* The model of winnow in `Winnow.v`/`StateParser.v`: `alt`, `opt`, `repeat`,
  `preceded`, `delimited`, `separated`, `take_while`, `verify`, `map`, `try_map`,
  `peek`, `not`, `eof` and so on, written from the library's documentation.
* Where a theorem mentions an external component, the hypotheses stated on it
  (e.g. "lower-casing keeps the length", "the TOML reader reads back what was
  written").

## What is modelled and what is not

Modelled: all of the library crate `src/` except the items below, and the
`execute` functions of all commands of `pica-cli` with the functions they call.

Not modelled:

* the commands with the cargo feature `compat` (off by default; its parsers are
  `CompatModel.v`);
* the texts that clap prints (help, version, completions are arguments of the
  model); `mod.rs` re-exports, the drawing of
  progress bars (their counters and message are `ProgressModel.v`),
  error texts (errors are values without their messages, except where a message is
  part of the output, as in check reports);
* file system errors other than those of reading and opening inputs (`IoModel.v`)
  and of writing to one output or to an output and a tee output (`WriteModel.v`) and
  to the many outputs of split and partition (`ManyWriteModel.v`; not compressed
  outputs and the buffer of stdout); the buffers of `BufWriter` and of the csv crate are modelled from their
  documentation and source as read, their sizes are quantified;
* gzip compression (an abstract codec), polars (reading of
  allow and deny lists; the lists are arguments; the data frame of describe),
  serde_json and toml parsers (JSON output is printed by a model of the printer,
  CSV text by a model of the csv crate's writer);
* the syntax of TOML: `RuleModel.v` starts from the table that the toml crate
  yields (an oracle of the theorems), and models what serde derives for the structs of
  rules, without the form of a struct as an array; the code lists of
  the checks `iso639-2b`/`jelc` are copied from the source by a script
  (`CheckCodes.v`);
* the file system is a map from names to contents (`DiskModel.v`): no links, no
  permissions beyond "can be opened for writing", all that is written arrives when the
  output is closed (for split and partition: at the place where the writer stands). All 16
  commands that read records are modelled with it (`DiskModel.v`, `DirModel.v`); whether
  the output directory can be created is an argument. `MainModel.v` puts them together
  with the configuration to the whole program (`main.rs`) and to sessions of runs, one
  after the other; `RunSpec.v` says what a run is to do, from the command line to the
  contents of the files;
* stack depth: recursion is unbounded in the model; how deep matchers are nested is
  C101;
* running time and memory, apart from the number of times that the parser of nested
  matchers starts (C100).

## Outcome per property

Theorem names are in MANIFEST.json; every name begins with the property it
belongs to. `…_partial` proves a part, `…_refuted` gives a witness against the
statement or one of its natural generalisations.

| id | statement | outcome | remarks |
|----|-----------|---------|---------|
| C01 | Parsing then writing a record is the identity on bytes | proved | Round trip text -> fields -> text for every accepted byte string. |
| C02 | Writing then parsing a record is the identity on records | proved | Round trip fields -> text -> fields for every non-empty list of valid fields. |
| C03 | A byte string is accepted as a record exactly when it is in the PICA+ grammar | proved | Acceptance, result and rejection characterised by an independent inductive grammar, for records and fields. |
| C04 | Constructors and parsers of the primitives agree | proved | Each constructor accepts exactly the values of the specification, and code, value and subfield constructors agree with the parsers. |
| C05 | A record that was edited writes its current content, never stale bytes | proved | For every history of retain/keep/discard; C05_deref_mut_refuted shows the one way around it (DerefMut to the inner record). |
| C06 | Equal byte records hash equally | proved | On all reachable byte records; sha256 is a quantified function. |
| C07 | keep and discard select fields exactly | proved | Exact selection, idempotence, commutation, partition; empty predicate lists are the identity. |
| C08 | String records contain only valid UTF-8 | proved | A string record exists iff all values are UTF-8 (validator = code point encoding), and a path over it yields the byte record's values without panic. |
| C09 | The reader yields one result per input line, in order, losing no byte | proved | One result per line, with the line number, for every input. |
| C10 | Records written to a plain file are read back unchanged | proved | For newline-free values, in new, emptied or empty files, plain or named *.gz (C10_fresh_files_are_read_back); C10_newline_breaks_roundtrip shows the hypothesis is needed. |
| C11 | UTF-8 errors of the string reader name the right line | partial | REFUTED as stated (C11_refuted). C11_string_reader_lines is the exact behaviour: UTF-8 errors always name the line before, parse errors the right one. |
| C12 | concat writes exactly the valid lines | proved | for all inputs; also uniqueness of what a run reads |
| C13 | invalid and skip-invalid split the input into complementary parts | proved |  |
| C14 | Occurrence matchers match exactly the denoted occurrences | proved | Texts and denotations exactly as specified, in byte order; the numeric reading holds for equal widths and is refuted across widths (C14_range_numeric_refuted). |
| C15 | Occurrence matchers survive printing and reparsing | proved | For every parsed occurrence matcher. |
| C16 | Tag matchers match exactly the denoted tags | proved | Texts and denotations exactly as specified. |
| C17 | Combining matchers combines their meaning | proved | All operators and assigning forms, subfield and field/record matchers, both case modes; the operands must not panic (C59). |
| C18 | A printed matcher means the same when parsed again | partial | REFUTED as stated, three ways: an \|\| whose operand is a ^ chain beginning with && prints a text that is rejected (C18_or_refuted); a negated 'ALL 012A.a?' does (C18_not_refuted); subfield matchers nested four deep do (C18_subfield_nesting_refuted). Proved for all other field/record matchers built by parsing and &, \|, ^, ! (C18_print_parse_partial) and for all other subfield matchers (C18_subfield_print_parse_partial). |
| C19 | Quantifiers ALL and ANY mean for-all and exists | proved | Every well-formed matcher evaluates to the truth value of its logical reading (all singleton kinds, groups, negation, connectives). |
| C20 | Cardinality matchers count exactly | proved | Field and subfield counts, all applicable operators. |
| C21 | Parsing an expression does not depend on what was parsed before | partial | REFUTED as stated for field matchers, subfield matchers and formats (failed parses leave the group counters raised). Proved for histories of texts without '(' and of texts of the strict matcher language (C21_harmless_history_partial). After any history an accepted text resets its counter: from then on record matchers without braces, and subfield matchers, are parsed as by a new thread (C21_recovery_partial). |
| C22 | Parentheses are limited only by nesting depth | partial | REFUTED for subfield matchers (three nested groups are rejected). Proved for field and record matchers: any strict text with up to 255 nested parentheses is accepted (C22_field_matcher_nesting_partial). |
| C23 | == and in agree, with and without case folding | partial | Proved without case folding and for lower-casing that keeps byte lengths, duality always; REFUTED in general with case folding (C23_eq_in_refuted). |
| C24 | A path returns exactly the selected values, in record order | proved | For every parsed path; the identifier is characterised separately (occurrence none or 00). |
| C25 | Query results are rectangular and total | proved | For every parsed (or well-formed) query, all options; regexes must compile with the case flag (C59). |
| C26 | Query rows are the cross product of the fragments' rows | proved | Exact rows in exact order, tables of the fragments unique. |
| C27 | Squash and merge collapse to single values losslessly | proved | Squash and merge are part of final_rows; merged queries have one row; joining is injective for one-byte separators outside the values. |
| C28 | Formatting a field follows the format's structure | proved | Outputs are the unique solution of the structural specification, for every parsed format. |
| C29 | A group bound limits the group's repetitions | partial | REFUTED as stated: the bound of a group is parsed and ignored (witness, and irrelevance for all bounds). |
| C30 | Formatting never hits the unreachable branch | proved | For every parsed format and every field. |
| C31 | A writer is never configured to append gzip | proved | Over all call sequences. |
| C32 | split distributes the records over the chunks in order | partial | REFUTED as stated: for more than 2^32 selected records (count is truncated to u32) and for templates without {}; proved for up to 2^32 records and templates with {} |
| C33 | partition writes each record to the file of each of its values | proved | the limit counts writes; file names are distinct for values that are UTF-8 and templates with {} |
| C34 | sample draws a fair sample without replacement | partial | REFUTED as stated: the draw is not fair (random_range(0..count) excludes count); size, distinctness and membership are proved for all random choices, and the exact chances of every record (C34_chances): (size-1)/(m-1) for the first size records, size/(m-1) for the others |
| C35 | slice returns the requested index range | partial | REFUTED as stated: with --length every skipped invalid line, even one before the start, lengthens the range (exact result proved), and start + length beyond 2^64-1 wraps around, so nothing is written; exact for --end, open ends, and --length without skipped lines |
| C36 | explode splits a record by level without inventing or misplacing fields | proved | For records in which the libraries can be told apart by the levels of the fields: every library but the last has copies. Otherwise it fails (C36_library_without_copies_refuted). Parts of records in any other order are described as well. |
| C37 | frequency counts and orders values correctly | partial | REFUTED as stated for --reverse with --threshold (C37_reverse_threshold_refuted: the loop stops at the first row below the threshold, which in ascending order is the first row). Descending order is exact; ascending is exact when every row reaches the threshold; the table is independent of hash map order. |
| C38 | filter writes exactly the matching records up to the limit | proved |  |
| C39 | Allow and deny lists decide by set membership, deny wins | proved | reading the table files (polars) is not modelled |
| C40 | The ISNI check accepts exactly valid ISNIs | partial | REFUTED as stated: bytes above '9' count as digits and X is accepted in position 15 (C40_letters_refuted, C40_swapped_x_refuted). Proved: exact for codes made of digits and a last character; valid ISNIs are never flagged; every single wrong digit and every swap of adjacent digits is flagged. |
| C41 | The link check reports exactly the dangling references, in any record order | partial | REFUTED in one corner: a single dangling reference that is empty is not reported (C41_empty_refuted). Proved: otherwise the reports are exactly the dangling references, whatever the order of the records; also with scope, fast termination and filters. |
| C42 | The duplicates check reports rows, not accidental concatenations | partial | REFUTED as stated: rows are compared as joined lossy texts, so different rows can collide (C42_collision_refuted). Proved: the exact verdict, and the statement for one column or cells without the separator's first byte. |
| C43 | List checks flag every value that is not on the list | partial | REFUTED in one corner: a single bad value that is empty is not reported (C43_empty_refuted). Proved in all other cases, including the message. |
| C44 | Binary conversion is reversible | proved |  |
| C45 | Plain conversion is reversible | proved | The text of a run determines all fields but not where records end (C45_record_ends_refuted). The condition on newlines is needed and met by everything the reader accepts. |
| C46 | Import conversion is reversible | proved | Under a weaker condition than newline-free values, shown to be needed. |
| C47 | JSON conversion is well-formed and reversible for UTF-8 records | proved | The JSON text is related to its value by a grammar that is independent of the printer; serde_json itself is modelled by json_print. Without UTF-8 the statement fails (C47_not_utf8). |
| C48 | XML conversion keeps the occurrence | partial | REFUTED as stated: the XML writer drops occurrences. Proved instead: outputs agree exactly if the records agree up to occurrences. |
| C49 | count totals are exact and additive | proved | count ignores --limit |
| C50 | concat --unique keeps exactly the first record per key | proved | records without identifier panic under the idn strategy (separate theorem) |
| C51 | Predicate lists of --keep/--discard are parsed item by item | proved | Includes str::trim for all Unicode white space; the texts are taken to be UTF-8, as Rust strings are. |
| C52 | select writes each non-empty result row once, in order | partial | REFUTED as stated for --unique, which compares 64-bit hashes (C52_unique_refuted). Everything else is exact, and --unique is exact for runs without colliding rows. |
| C53 | describe counts every subfield of every field | proved | Exact table, independent of hash map order. CSV quoting and the lossy text of codes are not modelled. |
| C54 | The matcher builder conjoins, disjoins and negates as its options say | proved | All call sequences of the builder and the command line options. |
| C55 | Quoted strings denote their content | proved | Exact characterisation of the accepted literals, and every UTF-8 text is quotable. |
| C56 | Config set/get/unset behave like a map | proved | The TOML reader is a parameter; all that is asked of it is that it understands lines "key = value" with booleans and quoted words. Failing file operations are C102-C104. |
| C57 | Appending to an output keeps what was there | partial | Plain files proved (old content empty or newline-terminated); REFUTED for files named *.gz, where everything appended is lost on reading. |
| C58 | Commands fed non-UTF-8 values fail cleanly | partial | REFUTED as stated: print and convert to XML panic on accepted records with values that are not UTF-8; proved: print does not panic for UTF-8 values, convert to XML panics exactly if some value is not UTF-8. |
| C59 | Parsing is total and a parsed matcher never panics | proved | Parsing never runs out of fuel; evaluation is total under the stated regex hypotheses, which C59_evaluation_refuted shows are needed. |
| C60 | Printing a path, query or format gives back its text | proved | Paths and queries exactly, formats up to trimming. |
| C61 | String records and byte records answer queries and formats alike | proved | Assuming only that the external text functions keep UTF-8. |
| C62 | hash lists identifier and digest of every selected record | proved | Rows here, their CSV text in C74_hash |
| C63 | A check run writes exactly the rows of the flagging rules | proved | Regular expressions must compile; hash orders are arbitrary permutations. |
| C64 | --rule and --tags keep exactly the rules asked for | proved |  |
| C65 | Every matcher expression of the documented language is accepted | partial | REFUTED as stated: '012A? && 013A? ^ 014A? \|\| 015A?' is rejected. Proved for the strict language (no such operand of \|\|, parentheses nested < 256 deep, bounded measure of parentheses between braces). |
| C66 | Every accepted matcher text is of the documented language and means what it says | proved |  |
| C67 | The matcher language is unambiguous | proved | for texts of the strict language nested < 256 deep |
| C68 | Lookups in fields and records | proved | Each lookup characterised for all fields, records and predicates. |
| C69 | From the arguments of a command to its output | proved | Both directions for filter and select, the shared options for any command; count and frequency from the arguments. Sufficient side in the strict language (see C65). |
| C70 | Exit codes of filter | proved | filter_execute modelled from the parsed arguments; clap's own argument errors are outside the model. |
| C71 | The language of paths: what is accepted and what it selects | proved | Acceptance and selected values in both directions against an inductive language; completeness for the strict language (see C65 for what it leaves out of conditions). |
| C72 | The language of formats: what is accepted and what it writes | proved | Acceptance and outputs in both directions against an inductive language of formats; completeness for parentheses nested less than 32 deep and strict conditions. |
| C73 | The language of queries: what is accepted and which rows result | proved | Acceptance and rows in both directions, unambiguity; C73_braces_are_a_path shows that codes alone in braces are read as a path. |
| C74 | Tables written as CSV read back as the same tables | proved | The csv crate is modelled from its documentation; with quote style never the statement fails (C74_never_refuted). A header of the wrong width ends the run with an error (C74_hash_header). |
| C75 | A check report contains exactly the rows of the run, in the format its name asks for | proved | Missing identifiers and messages are written like empty ones; the text of serialised rows follows the csv crate. |
| C76 | Matchers of one kind accept exactly the texts of that kind and decide what they say | proved | For braces the texts accepted are those of the strict language with a bounded measure (see C65); every accepted text belongs to the loose one. |
| C77 | The code lists of the check command have the shape of their standards and are closed under categories | partial | REFUTED as stated: the JEL list has Z00 but not its category Z0, so a record with Z0 is flagged. Proved: shapes, that other texts are flagged, and that Z00 is the only exception. |
| C78 | Owned and borrowed records are interchangeable | proved |  |
| C79 | A printed tag or occurrence reads back and does not depend on ownership | partial | REFUTED as stated: a borrowed occurrence prints a slash that no constructor accepts, its owned copy prints none. Proved: tags and owned occurrences read back; exactly what borrowed ones print. |
| C80 | How an input arrives makes no difference | proved |  |
| C81 | A failing read is never taken for the end of the input | proved |  |
| C82 | Reading on after a failing read yields only records of the input | partial | REFUTED as stated: the bytes of the line that had been read before the fault are dropped, and the rest of the line is returned as a record if it is one. Proved: exactly what is lost. |
| C83 | An output is always a beginning of what was to be written | partial | REFUTED as stated for tables (C83_tables_refuted): if a write fails and the output then recovers, the CSV writer's drop writes its whole buffer again, so bytes are duplicated. Proved for all record writers (C83_records) and for tables whose output fails for good (C83_tables); C83_commands shows that the commands satisfy the hypothesis. |
| C84 | Success means that the output is complete | partial | REFUTED as stated for convert --to xml (C84_xml_refuted): finish does not flush the buffer, which is then written on drop, where errors are ignored: a full disk gives status 0 and an empty file. Exact result for XML: C84_xml. Proved for the record writers (C84_records, C84_filter) and the tables (C84_tables). |
| C85 | A closed pipe ends a command quietly | partial | REFUTED as stated for tables (C85_tables_refuted): a write error inside of write_record is a csv::Error, not an io::Error, and gives status 2 (check: always); and for convert --to xml, which panics (C85_xml_refuted). Proved for the record writers (C85_records). |
| C86 | How an output accepts data makes no difference | proved | C86_records for any number of outputs (filter --tee), C86_tables for tables and check reports; the hypothesis `appends` is shown for the commands in C83_commands and C83_at_end. |
| C87 | A refused command changes no file | partial | REFUTED as stated for filter, count, explode and check, which open (and so empty) the output before they parse the expression, and for concat, whose first output is emptied before the second is opened; witnesses. Proved for hash, print, slice, sample, select, frequency, split, partition, convert and invalid, and for all commands with --append: nothing is lost, however they end. describe opens its output last: unless it succeeds, it changes nothing. |
| C88 | Outputs receive exactly what belongs to the inputs, all other files stay | proved | All 16 commands that read records. partition: C88_partition_frame here, the contents under C95. Of each command the theorem end_to_end starts from the texts of the arguments and says what is in the outputs afterwards; the theorem end_to_end_read is the converse. A file has one name, and writing does not fail (for that see C83 to C86). |
| C89 | Appending the output for further inputs is the same as one run for all | partial | REFUTED as stated with --unique of concat (duplicates across the runs), with --limit (holds for each run) and for select with --header (the header is written again); witnesses. Proved for concat without --unique and filter without --limit, with one output that is not compressed. For compressed outputs see C92. |
| C90 | An input is never destroyed | partial | REFUTED as stated: the output is emptied before the inputs are opened, so concat with its only input as its output always empties the file and reports success (for all contents), split likewise with its first chunk, filter too (witness). Proved: what is not an output stays as it is (C88 for all commands, here for filter), and with --append nothing is lost (C87). |
| C91 | No accepted combination of output options panics | partial | REFUTED as stated for slice, which has no conflicts_with between --gzip and --append: once the other options are accepted, it always panics with both. Proved: slice panics before its loop only then, and filter never does, as clap refuses the combination (which is a hypothesis). |
| C92 | What a command wrote is what the next command reads | partial | REFUTED as stated: with --append and a name that ends with .gz a second gzip member is written, but flate2::read::GzDecoder reads only the first, so what the second run wrote is never read (for all inputs); with --gzip and another name the file is read as it is, compressed. invalid never compresses, so what it writes into a file named .gz cannot be read (witness). Proved for new files that are compressed iff their name ends with .gz and for appending without compression. |
| C93 | split and partition write only into the output directory | partial | REFUTED as stated for partition: a value with a slash leads out of the directory (../c), and an absolute path replaces it (/home/b), so records can overwrite any file; and for templates with a slash. Proved: split writes only files directly in the directory if the template has no slash, partition if also no value has one and no input is in the directory. |
| C94 | The chunks of split, concatenated, are the records that were split | proved | For up to 2^32 records (the chunk number is a u32, see C32); the files of the chunks must be writable, no inputs, not the output of concat, and named .gz with --gzip (the default template does it). split may end with an error: then the chunks hold what was read before. |
| C95 | partition puts every record into the file of each of its values | partial | REFUTED as stated: values that are not UTF-8 can have the same file name, and the records of one overwrite those of the other (witness: a record is in no file, exit status 0). Proved if different values have different files that are not inputs and there is no limit; sufficient: a template with placeholder, and no slash in template and values (C95_distinct_files). |
| C96 | A rule of a rule file is accepted if and only if its entries mean something | proved | Between the two theorems is the gap of nested expressions (strict, see C65, C21). TOML syntax is an oracle: the theorems start from the table. The form of a struct as an array, which serde also accepts, is not modelled. |
| C97 | The report of check follows from its rule files and options | proved | Up to the order in which the hash maps yield the rules of a file (any permutation), and the nesting of expressions as in C96. The files are those on the disk after the output has been opened. |
| C98 | Entries of a rule file that have no meaning are reported | partial | REFUTED as stated for keys: every key that is not one of the known ones is ignored, in rules and in the document (proved for all tables), so a misspelt option has no effect and the default is used. Proved for kinds of checks (unknown or missing) and levels: these are refused. |
| C99 | check leaves the files it reads as they are | partial | REFUTED as stated if the output is also a rule file: the output is opened (and emptied) first, the empty text is a valid rule file, check applies no rules, reports success, and the rules are gone (proved for all inputs). Proved: all other files are unchanged, however check ends; and the rules of such a file are ignored while those of the other files are applied. |
| C100 | Parsing an expression takes time polynomial in its length | partial | REFUTED as stated: a text in n pairs of parentheses makes parse_field_group_matcher start at least 8^n times for every n below the limit of nesting (or, xor, and and the group itself parse the same text again), so 25 bytes take more than 10^9 starts and 515 bytes more than 10^230. Proved instead: counting changes nothing; the starts are bounded by (10 (size+3)^4)^(number of '('+1), so without parentheses by a polynomial. |
| C101 | The nesting of matchers is bounded, so recursion does not exhaust the stack | partial | REFUTED as stated: n exclamation marks are accepted for every n and give a matcher nested n deep; the limit of 256 counts parentheses only. Proved instead: the nesting is at most twice the length of the text. |
| C102 | A configuration file that cannot be used is reported | partial | REFUTED as stated for --config: `unwrap_or(Config::new(path))` turns every failing read (all contents that are not UTF-8, or no permission) into the default configuration, and setting an option then replaces the file. Proved for the file in the home directory. |
| C103 | Setting an option changes nothing else in the configuration file | partial | REFUTED as stated: all files that hold the same options become the same, so comments and other entries are dropped (for all contents). Proved: the other option is kept. |
| C104 | A failed save leaves the old or the new configuration | partial | REFUTED as stated: the file is emptied before it is written; if the writing stops at once, every later command panics (the reader refuses the empty file: hypothesis), also the one that would repair it; if it stops after the first line, normalization is lost. Proved if creating the file is refused or all is written. |
| C105 | Every command comes to an end | proved | For the on-disk model of the sixteen commands, with the preparation of their arguments. A read that fails again and again ends the command, a read that blocks is not modelled. The path of partition is given as parsed, the rules of check as read (C96). |
| C106 | Which commands cannot panic | proved | The excluded cases do panic: C58 (print, concat --unique idn, XML) and C91 (--append with --gzip). Failing writes are C84. |
| C107 | The feature compat changes no expression without a bare dollar sign | proved | Same result includes the counters that the parser leaves for the next expression. |
| C108 | With the feature compat a dollar sign may stand for the dot and in front of codes | partial | REFUTED as stated: between braces only relations (==, =^, ...) and =? admit the dollar sign; `$a in [..]`, `$a?`, `$a =~ ..` and `#$a > 1` are rejected, and `012A$[ab]` is rejected where `012A.[ab]` is accepted. Proved for all texts: the dollar sign of a path (one or more codes or a star, blanks around it), of a matcher, and in front of relations and =?, each with its meaning. |
| C109 | A run depends on the files it needs and on nothing else | proved | All seventeen commands, including inputs that are outputs at the same time. The order of partition's hash map is any permutation, the same for both runs. |
| C110 | A run changes only the files it is told to write | proved | For partition without conditions on regular expressions or the order of its writers (stronger than C88). |
| C111 | The same run again does the same again | proved |  |
| C112 | Runs that do not touch each other's files can be exchanged | proved | The runs are one after the other; runs at the same time are not modelled. The texts on stdout come in the order of the runs. |
| C113 | To configure skip-invalid is to give --skip-invalid | proved | The TOML reader is assumed to read back the two lines that config writes (file_says). The command must not use the configuration file as an input. |
| C114 | With a configured normal form the spelling of expressions does not matter | partial | REFUTED as stated: the value of --filter-set-source and the path of partition are read by clap and not normalised; witnesses C114_source_refuted (count) and C114_partition_refuted. Proved for all other expressions of all commands: --where, --and, --or, --not, the expression of filter and the queries of select and frequency. |
| C115 | Every start of the program ends | proved |  |
| C116 | A run does what its command line, its configuration and the files say | proved | The conditions are proper and covered in RunSpec.v: no file is read and written, records are UTF-8 where they must be, headers fit, and so on; what happens otherwise is the subject of C34, C37, C52, C58, C65, C74 and C95. Convert from other formats than PICA+ is refused (C116_from). To end is guaranteed for the strict language of GrammarSpec.v, and what ended is read in the lax one, as in C88. |
| C117 | The configuration of a run is what was configured last | proved | The toml crate is assumed to read what config writes (reads_config in SessionSpec.v, an explicit hypothesis). Together with C116 this says what the commands of a session do. |
| C118 | A pipe does what a file in between does | proved | The second command is run when the first has ended; that both run at the same time is not modelled. Describe writes another format to stdout than to a file and is excluded as the first command. With a file for its expression filter is covered if no expression is given besides. |
| C119 | What the words after pica ask for | proved | Of the model of clap's reader (ClapModel.v), which is written from its documentation; the specification (ArgsSpec.v) is a relation and a grammar of lines. Which lines print help or the version is not characterised, see C120. |
| C120 | The program does what its command line asks for | proved |  |
| C121 | Order and spelling of options do not matter | proved |  |
| C122 | The commands get only arguments they are made for | partial | REFUTED as stated: slice has no conflict between --gzip and --append (filter has); for all files `pica slice -ga FILES` is accepted and panics (C122_slice_refuted). All the rest is proved for all lines (C122_orderly_partial). |
| C123 | --where is filter in front | partial | REFUTED as stated. Proved for check, count, describe, frequency, hash, partition, print, sample, select, slice and split (C123_where_partial). False for explode, which applies the conditions to the parts (C123_explode_refuted; C125 says what holds), and for slice with --length if lines are skipped (C123_slice_refuted). Conditions: the patterns of the conditions compile; the outputs are neither inputs nor lists; for check, frequency and select, which parse more after the conditions, the conditions leave the nesting level as it was (no parenthesis, or accepted with less than 256 levels). |
| C124 | Concat in front changes nothing | proved |  |
| C125 | Explode with conditions is explode with filter behind | proved |  |
| C126 | What is serialised is read back | partial | REFUTED as stated. Owned records are read back from every format (C126_owned_partial); borrowed ones only from formats that lend their byte strings (C126_borrowed_partial), never from one that has only sequences of numbers for bytes, such as JSON (C126_borrowed_refuted). A ByteRecord that was read from bytes serialises its raw data as a sequence of numbers and asks for bytes when it is read, so that a format which keeps sequences sequences never reads it back (C126_raw_data_refuted); without raw data, or from formats that hand such a sequence back as lent bytes, it is read back (C126_byte_record_partial, C126_string_record_partial). Field, record and subfield matchers are read back as matchers that match the same within the limits of C18 (C126_matcher_partial, C126_subfield_matcher_partial) and not beyond them (C126_matcher_refuted). Paths, queries, tag matchers and levels are read back; formats too, proved for texts without white space around them. What the derive macros, the standard types and bstr do is modelled from their documentation. |
| C127 | What is deserialised is a valid record | partial | REFUTED as stated, for all records: whatever the parts and the raw data are, some serialised value is read as that ByteRecord and as that StringRecord (C127_unchecked_refuted); the derived implementations check nothing. The samples show a StringRecord that is not UTF-8, a record that is written as one with another field, and one that is rejected when it is read again. With C126, values that come from valid records are read as valid records. |
| C128 | Every orderly run can be asked for | proved | C128_every is an equivalence for every command; C128_runs is the whole program. The reader of the words is the model of clap that C119 is about. |
| C129 | split and partition leave beginnings of their files when an output fails | proved | C129_split for at most 2^32 records (the counter is cast to u32, see C32); C129_partition in any order of the hash map. Every output is a file or pipe of its own; compressed outputs are left out. |
| C130 | Filters after each other are one filter | proved | C130_and, C130_not, C130_or. The outputs are no inputs, and the first expression (and --filter-set-source) leaves the nesting counters of the parsers as they were: it has no opening parenthesis or is an expression nested less than 256 times. |
| C131 | The progress bar counts the lines that have been read | partial | REFUTED as stated for concat with --unique (C131_refuted): update(false) is called after the record has been written, so that duplicates and records with an empty key are counted neither as records nor as invalid lines (concat.rs:119-133). C131_concat_partial tells what concat counts: the records written. For all other commands the claim is proved: C131_counts, C131_invalid, C131_total, C131_message, C131_numbers; that the progress changes nothing: C131_unchanged, C131_slice_unchanged, C131_concat_unchanged, C131_invalid. |
| C132 | Limits and slices after each other | proved | C132_limit, C132_slices. C132_behind_refuted shows that the condition on the second slice is needed: a slice that starts behind its end reads on until it has seen enough records and may fail at an invalid line the first slice of two never reads. |
| C133 | --limit is filter --limit in front | partial | REFUTED as stated: count ignores --limit (C133_count_refuted), slice counts the records of its range (C133_slice_refuted), explode counts parts (C133_explode_refuted) and partition counts a record once for each of its values (C133_partition_refuted). Proved for check, describe, frequency, hash, print, sample, select and split (C133_limit_partial), if their outputs are no inputs or lists; for check, frequency and select the conditions have to leave the nesting levels of the parsers as they were. For filter see C132. |
| C134 | Removing duplicates in parts is removing them at once | proved | Only the first part may read stdin. With different strategies the statement fails (C134_strategies_refuted). |
| C135 | Explode after explode is explode by the more detailed level | partial | REFUTED as stated for records with a main field between a copy and a local field: explode by libraries twice gives more parts than once (C135_order_refuted). Proved if main fields come first in every record, or one of the levels is main (C135_twice_partial). |
| C136 | Commands that go record by record can be run in parts | proved | For select under the assumption on regular expressions of C59; for invalid if reading a compressed file does not end with the error for a broken pipe. With a limit, with a header and for JSON it does not hold (C136_others_refuted). |
| C137 | filter and filter --invert-match deal out the records | proved | With an allow list a record that is not on it is written by neither (C137_allow_refuted). |
| C138 | Slices put together are the records again | proved | For texts of at most usize::MAX bytes. --end 0 is no end, so a cut at 0 does not work (C138_zero_refuted). |
| C139 | To ignore case finds at least as much | proved | Under the assumption that lower case of a value is lower case of its parts around a text in UTF-8, which holds for bstr's to_lowercase since it goes character by character. For ^ (C139_xor_refuted) and for numbers of fields compared with == (C139_number_refuted) it does not hold; regular expressions and =* are not covered. |
| C140 | A lower similarity threshold finds at least as much | proved | Under the assumption that a pair of values that is similar at a threshold is similar at every lower one, which holds since a score is compared with it; regular expressions must compile, as in C59. |
| C141 | explode main, slice and count choose what filter chooses | proved | For slice, the length of the valid records of the inputs must fit in a machine word. |
| C142 | sample takes lines of what filter writes | proved | The chances are the subject of C34. |
| C143 | frequency counts the rows that select lists | proved | Without --header, --unique, --limit and --threshold; frequency writes the values as text with invalid bytes replaced (BStr::to_string), select as bytes. Regular expressions must compile, as in C59. |
| C144 | What print shows determines the records when no value contains a dollar sign | proved | C144_dollar_refuted shows that the condition on dollar signs is needed. Without --translit and conditions. |
| C145 | count, frequency and describe do not depend on the order of their inputs | proved | C145_limit_refuted shows that without the condition on --limit it is false. The iteration orders of the hash maps may differ between the two runs; each is a permutation of the entries. |
| C146 | A command that goes record by record succeeds on every choice of its inputs | proved | C146_each for files, C146_divided also with stdin in the first part; the converse of C136. For select under the assumption on regular expressions of C59. C146_limit_refuted shows that it is false with --limit. |
| C147 | The next command reads what a command has written | proved | C147_readable for runs that succeed, C147_any_status and C147_none_invalid whatever the status. Uncompressed output to stdout. |
| C148 | A header of select or frequency is one row in front | proved | C148_header with one text for all runs, C148_cells for two headers with equally many cells, C148_converse_refuted. Output to stdout. That the text reads as the row of the cells holds with a quote style other than never (see C74). |
| C149 | --no-empty-columns and --unique of select leave out rows and change nothing else | proved | C149_no_empty, C149_unique. Without --header (see C148) and --nf; output to stdout. The rows are those that the texts read as in CSV, which are unique by C74_unambiguous. |
| C150 | -n and --threshold of frequency cut off rows and change nothing else | proved | C150_num (with or without --reverse, any threshold), C150_threshold. C150_reverse_refuted shows that the exception is needed: with --reverse the loop stops at the first row, which is the least frequent one, and every row is lost. Without --header (see C148); output to stdout. That what the csv crate takes for a number has no delimiter, quote or line break in it is a hypothesis. |
| C151 | --reverse of frequency changes the order of the rows and nothing else | proved | C151_reverse. Without -n and --threshold (see C150) and --header (see C148); output to stdout. C151_opposite_refuted: the rows are not in the opposite order, as rows with the same number are in the order of their cells with and without the option. That what the csv crate takes for a number has no delimiter, quote or line break in it is a hypothesis. |
| C152 | --tsv and --quote-style change how rows are written and nothing else | proved | C152_styles, C152_frequency. Output to stdout. C152_never_refuted shows that the exception is needed. That what the csv crate takes for a number has no delimiter, quote or line break in it is a hypothesis. |
| C153 | --tsv and --header of hash change how rows are written and the first row only | proved | C153_digests. Output to stdout. C153_cells_refuted: with another number of cells hash fails. That what the csv crate takes for a number has no delimiter, quote or line break in it is a hypothesis. |
| C154 | --translit changes the cells of a table one by one | proved | C154_select, C154_frequency. Without --header (see C148); output to stdout. Two consequences: C154_unique_refuted (select --unique --translit may write a row twice) and C154_counts_refuted (frequency --translit may list a value twice), as rows are compared before the cells are normalised. The normalisation itself is a parameter. |
| C155 | frequency --unique lists the same values with numbers that are not greater | proved | C155_once. With or without --reverse; without -n and --threshold (see C150) and --header (see C148); output to stdout. |
| C156 | The formats of count tell the same numbers | proved | C156_modes. Output to stdout. What the numbers are is C49. If reading an input fails with the error of a closed pipe, count ends with status 0 and writes nothing in every format. |

## Findings

Behaviour of the code that contradicts its documentation or a natural
expectation. Those marked with a property have a theorem; the others were noticed
while modelling and are visible in the model.

Library
* C05: `DerefMut` to the inner record makes the cached bytes stale.
* C11: UTF-8 errors of the string reader name the previous line.
* C14: occurrence ranges compare bytes, not numbers; across widths that differs.
* C18: three kinds of matchers print texts that are rejected or mean something
  else; nested operands built with the operators print flattened.
* C21, C22: thread-local group counters are not reset after a failed parse, so
  the result of a parse depends on earlier failures; the subfield parser counts up
  on every alternative (`group_level_dec` is never called), so three nested groups
  are rejected, and nested parentheses take exponential time.
* C23: with case folding `==` compares lengths before folding (Kelvin sign), `in`
  does not.
* C29: the bound of a format group is parsed and ignored.
* C59: a regular expression that compiles on its own but not with the case flag
  panics at match time, as do regex sets.
* C65: `a && b ^ c || d` is rejected.
* C73: a query fragment `012A{a}` is a path, never a format.
* C79: Display of an owned occurrence prints no slash, that of a borrowed one does,
  and no constructor reads the latter.
* C82: after an I/O error the reader drops the part of the line it had read, and the rest
  of the line can come back as a record.
* C83: after a failed write the csv writer writes its buffer again when it is dropped.
* C84: `convert --to xml` does not flush: with a full disk it ends with status 0 and an
  incomplete file.
* C87: filter, count, explode and check empty an existing output before they parse the
  expression; a refused command has destroyed the file. concat empties its first output
  before it opens the second.
* C89: `--append` with `--header` of select writes the header again; `--unique` and
  `--limit` hold for each run.
* C90: `pica concat -o a.dat a.dat` (filter and split likewise) empties the file and reports success.
* C91: slice accepts `--gzip` together with `--append` and panics.
* C92: `--append` to a `.gz` file adds a gzip member that no command ever reads;
  `--gzip` with another name gives a file that the commands read without decompressing. `invalid` never
  compresses, so a file named `.gz` that it wrote cannot be read.
* C93: values with a slash lead `partition` out of its output directory; an absolute path
  as value overwrites any file.
* C95: values that are not UTF-8 can share a file name in `partition`; their records overwrite
  each other, with exit status 0.
* C98: unknown keys in rule files are ignored, so a misspelt option has no effect.
* C99: a rule file that is also the output of check is emptied before it is read; check
  then reports success.
* C96: a rule file is normalised as a whole, including the names of list files; `case-ignore`
  has no effect on the list of `allow`, `iso639-2b` and `jelc` (only on the condition of the path).
* C85: a closed pipe gives status 2 in select, hash, frequency and check if it is found
  closed while a row is written; `convert --to xml` panics.

Commands
* C32: `split` truncates the chunk number to 32 bits; a template without `{}`
  overwrites its chunks. `partition` likewise, and its limit counts writes.
* C34: `sample` draws from `0..count` instead of `0..=count`: of `m` records a
  given one of the first `n` is sampled with probability (n-1)/(m-1), a later one
  with n/(m-1). With m = n+1 the last record is always sampled.
* C35: `slice --length` with skipped invalid lines writes too many records: the
  range grows by the number of lines skipped in it. `start + length` can overflow;
  it wraps in a release build, and nothing is written then.
* C36: a library without copies is merged with the next one; main fields that
  follow local fields are missing from earlier parts; `--keep` is applied before
  `--discard`; the limit counts parts.
* C123: `explode --where` applies the condition to the parts, `filter | explode` to the
  records; all other commands with `--where` do what filter in front of them does.
* C126, C127: a ByteRecord that was read from bytes is serialised with its raw data as a
  sequence of numbers, which its own Deserialize rejects in formats such as JSON; what is
  deserialised is not checked, so that a StringRecord need not be UTF-8.
* C37: `frequency --reverse --threshold` lists nothing if any row is below the
  threshold.
* C40: letters count as digits in ISNI checks; X is accepted in position 15.
* C41, C43: a single bad value that is empty is not reported.
* C42: the duplicates check compares joined lossy texts.
* C77: the JEL list lacks the category Z0 of its code Z00.
* C45: plain output does not separate records unambiguously.
* C46: import output is ambiguous for values ending in a certain byte sequence.
* C47, C58: JSON is lossy for values that are not UTF-8; print and XML panic.
* C48: XML drops occurrences.
* C50: `concat --unique` with the idn strategy panics on records without
  identifier.
* C52: `select --unique` compares 64-bit hashes of rows, before normalisation.
* C74: `select --quote-style never` is ambiguous; a header with the wrong number of
  names makes hash and select fail at the first row. C75: a check report without
  rows is an empty file without header.
* C57: data appended to gzip files is lost on reading.
* count ignores `--limit`; a failed run leaves JSON and XML unclosed, and loses
  the link reports of check; fast termination reports an arbitrary rule.
* C69/C70: filter and others create (truncate) the output file before the
  expression is parsed, so an invalid expression destroys an existing output file.
* C100: parsing nested parentheses takes exponential time (factor eight for each
  pair): `((((((((((003@?))))))))))` starts the group parser over 10^9 times.
* C101: the limit of nesting counts parentheses only; `!` can be nested without
  limit, so a long expression exhausts the stack.
* C56, C102: an invalid config file makes every command panic; with `--config` a file
  that cannot be read or is not UTF-8 is silently taken for an empty one, and replaced
  when an option is set. C103: comments and other entries are dropped when an option is
  set. C104: a save that stops leaves an empty file, after which every command panics,
  or a file without normalization.
* C114: `--filter-set-source` and the path of partition are not normalised, unlike all
  other expressions.

## Seeded bugs

`seeded/LOG.jsonl` has one line per bug that was planted in a scratch copy of the
model: the definition, the edit, the claim it breaks, the theorems that no longer
prove, and the theorems that were added or tightened when none failed.
