{
 "claims": [
  {
   "property": "C01",
   "status": "proved",
   "theorems": [
    "C01_parse_write_identity"
   ],
   "note": "Round trip text -> fields -> text for every accepted byte string."
  },
  {
   "property": "C02",
   "status": "proved",
   "theorems": [
    "C02_write_parse_identity"
   ],
   "note": "Round trip fields -> text -> fields for every non-empty list of valid fields."
  },
  {
   "property": "C03",
   "status": "proved",
   "theorems": [
    "C03_accepts_exactly_the_grammar",
    "C03_rejects_everything_else",
    "C03_field_grammar"
   ],
   "note": "Acceptance, result and rejection characterised by an independent inductive grammar, for records and fields."
  },
  {
   "property": "C04",
   "status": "proved",
   "theorems": [
    "C04_code",
    "C04_value",
    "C04_tag",
    "C04_occurrence",
    "C04_subfield",
    "C04_field",
    "C04_record"
   ],
   "note": "Each constructor accepts exactly the values of the specification, and code, value and subfield constructors agree with the parsers."
  },
  {
   "property": "C05",
   "status": "proved",
   "theorems": [
    "C05_edited_record_writes_current_fields",
    "C05_deref_mut_refuted"
   ],
   "note": "For every history of retain/keep/discard; C05_deref_mut_refuted shows the one way around it (DerefMut to the inner record)."
  },
  {
   "property": "C06",
   "status": "proved",
   "theorems": [
    "C06_eq_is_field_equality",
    "C06_eq_is_equivalence",
    "C06_equal_iff_same_hash_input"
   ],
   "note": "On all reachable byte records; sha256 is a quantified function."
  },
  {
   "property": "C07",
   "status": "proved",
   "theorems": [
    "C07_keep",
    "C07_discard",
    "C07_keep_discard_partition",
    "C07_idempotent_commute"
   ],
   "note": "Exact selection, idempotence, commutation, partition; empty predicate lists are the identity."
  },
  {
   "property": "C08",
   "status": "proved",
   "theorems": [
    "C08_string_path",
    "C08_string_record_iff_utf8",
    "C08_validator_is_utf8"
   ],
   "note": "A string record exists iff all values are UTF-8 (validator = code point encoding), and a path over it yields the byte record's values without panic."
  },
  {
   "property": "C09",
   "status": "proved",
   "theorems": [
    "C09_reader_one_result_per_line",
    "C09_lines_are_unique",
    "C09_skipped_lines"
   ],
   "note": "One result per line, with the line number, for every input."
  },
  {
   "property": "C10",
   "status": "proved",
   "theorems": [
    "C10_written_records_are_read_back",
    "C10_fresh_files_are_read_back",
    "C10_newline_breaks_roundtrip"
   ],
   "note": "For newline-free values, in new, emptied or empty files, plain or named *.gz (C10_fresh_files_are_read_back); C10_newline_breaks_roundtrip shows the hypothesis is needed."
  },
  {
   "property": "C11",
   "status": "partial",
   "theorems": [
    "C11_string_reader_lines",
    "C11_refuted"
   ],
   "note": "REFUTED as stated (C11_refuted). C11_string_reader_lines is the exact behaviour: UTF-8 errors always name the line before, parse errors the right one."
  },
  {
   "property": "C12",
   "status": "proved",
   "theorems": [
    "C12_reads_unique",
    "C12_concat"
   ],
   "note": "for all inputs; also uniqueness of what a run reads"
  },
  {
   "property": "C13",
   "status": "proved",
   "theorems": [
    "C13_complement"
   ],
   "note": ""
  },
  {
   "property": "C14",
   "status": "proved",
   "theorems": [
    "C14_occurrence_matcher_sound",
    "C14_occurrence_matcher_complete",
    "C14_range_rejected",
    "C14_range_numeric_same_width",
    "C14_range_numeric_refuted"
   ],
   "note": "Texts and denotations exactly as specified, in byte order; the numeric reading holds for equal widths and is refuted across widths (C14_range_numeric_refuted)."
  },
  {
   "property": "C15",
   "status": "proved",
   "theorems": [
    "C15_occurrence_display_parse"
   ],
   "note": "For every parsed occurrence matcher."
  },
  {
   "property": "C16",
   "status": "proved",
   "theorems": [
    "C16_tag_matcher_sound",
    "C16_tag_matcher_complete",
    "C16_plain_tag",
    "C16_display"
   ],
   "note": "Texts and denotations exactly as specified."
  },
  {
   "property": "C17",
   "status": "proved",
   "theorems": [
    "C17_subfield_operators",
    "C17_field_and_record_operators"
   ],
   "note": "All operators and assigning forms, subfield and field/record matchers, both case modes; the operands must not panic (C59)."
  },
  {
   "property": "C18",
   "status": "partial",
   "theorems": [
    "C18_print_parse_partial",
    "C18_subfield_print_parse_partial",
    "C18_or_refuted",
    "C18_not_refuted",
    "C18_subfield_nesting_refuted"
   ],
   "note": "REFUTED as stated, three ways: an || whose operand is a ^ chain beginning with && prints a text that is rejected (C18_or_refuted); a negated 'ALL 012A.a?' does (C18_not_refuted); subfield matchers nested four deep do (C18_subfield_nesting_refuted). Proved for all other field/record matchers built by parsing and &, |, ^, ! (C18_print_parse_partial) and for all other subfield matchers (C18_subfield_print_parse_partial)."
  },
  {
   "property": "C19",
   "status": "proved",
   "theorems": [
    "C19_subfield_meaning",
    "C19_record_meaning",
    "C19_all_any"
   ],
   "note": "Every well-formed matcher evaluates to the truth value of its logical reading (all singleton kinds, groups, negation, connectives)."
  },
  {
   "property": "C20",
   "status": "proved",
   "theorems": [
    "C20_subfield_count",
    "C20_field_count",
    "C20_count_unique"
   ],
   "note": "Field and subfield counts, all applicable operators."
  },
  {
   "property": "C21",
   "status": "partial",
   "theorems": [
    "C21_harmless_history_partial",
    "C21_recovery_partial",
    "C21_subfield_recovery_partial",
    "C21_field_refuted",
    "C21_subfield_refuted",
    "C21_format_refuted"
   ],
   "note": "REFUTED as stated for field matchers, subfield matchers and formats (failed parses leave the group counters raised). Proved for histories of texts without '(' and of texts of the strict matcher language (C21_harmless_history_partial). After any history an accepted text resets its counter: from then on record matchers without braces, and subfield matchers, are parsed as by a new thread (C21_recovery_partial)."
  },
  {
   "property": "C22",
   "status": "partial",
   "theorems": [
    "C22_field_matcher_nesting_partial",
    "C22_subfield_refuted"
   ],
   "note": "REFUTED for subfield matchers (three nested groups are rejected). Proved for field and record matchers: any strict text with up to 255 nested parentheses is accepted (C22_field_matcher_nesting_partial)."
  },
  {
   "property": "C23",
   "status": "partial",
   "theorems": [
    "C23_eq_in",
    "C23_ne_dual",
    "C23_eq_in_refuted"
   ],
   "note": "Proved without case folding and for lower-casing that keeps byte lengths, duality always; REFUTED in general with case folding (C23_eq_in_refuted)."
  },
  {
   "property": "C24",
   "status": "proved",
   "theorems": [
    "C24_path_values",
    "C24_identifier",
    "C24_identifiers_unique"
   ],
   "note": "For every parsed path; the identifier is characterised separately (occurrence none or 00)."
  },
  {
   "property": "C25",
   "status": "proved",
   "theorems": [
    "C25_total_rectangular",
    "C25_wf_total"
   ],
   "note": "For every parsed (or well-formed) query, all options; regexes must compile with the case flag (C59)."
  },
  {
   "property": "C26",
   "status": "proved",
   "theorems": [
    "C26_product",
    "C26_rows_unique",
    "C26_product_members",
    "C26_product_size"
   ],
   "note": "Exact rows in exact order, tables of the fragments unique."
  },
  {
   "property": "C27",
   "status": "proved",
   "theorems": [
    "C27_merged_one_row",
    "C27_fragment_rows",
    "C27_join_lossless"
   ],
   "note": "Squash and merge are part of final_rows; merged queries have one row; joining is injective for one-byte separators outside the values."
  },
  {
   "property": "C28",
   "status": "proved",
   "theorems": [
    "C28_format_outputs",
    "C28_fragment_text",
    "C28_text_unique"
   ],
   "note": "Outputs are the unique solution of the structural specification, for every parsed format."
  },
  {
   "property": "C29",
   "status": "partial",
   "theorems": [
    "C29_group_bound_refuted",
    "C29_group_bound_ignored"
   ],
   "note": "REFUTED as stated: the bound of a group is parsed and ignored (witness, and irrelevance for all bounds)."
  },
  {
   "property": "C30",
   "status": "proved",
   "theorems": [
    "C30_format_parsing",
    "C30_never_unreachable"
   ],
   "note": "For every parsed format and every field."
  },
  {
   "property": "C31",
   "status": "proved",
   "theorems": [
    "C31_never_gzip_and_append",
    "C31_panics_exactly_on_combination"
   ],
   "note": "Over all call sequences."
  },
  {
   "property": "C32",
   "status": "partial",
   "theorems": [
    "C32_chunks_partial",
    "C32_many_records_refuted",
    "C32_template_refuted"
   ],
   "note": "REFUTED as stated: for more than 2^32 selected records (count is truncated to u32) and for templates without {}; proved for up to 2^32 records and templates with {}"
  },
  {
   "property": "C33",
   "status": "proved",
   "theorems": [
    "C33_partition",
    "C33_by_value",
    "C33_file_names"
   ],
   "note": "the limit counts writes; file names are distinct for values that are UTF-8 and templates with {}"
  },
  {
   "property": "C34",
   "status": "partial",
   "theorems": [
    "C34_without_replacement_partial",
    "C34_fairness_refuted",
    "C34_chances"
   ],
   "note": "REFUTED as stated: the draw is not fair (random_range(0..count) excludes count); size, distinctness and membership are proved for all random choices, and the exact chances of every record (C34_chances): (size-1)/(m-1) for the first size records, size/(m-1) for the others"
  },
  {
   "property": "C35",
   "status": "partial",
   "theorems": [
    "C35_range_partial",
    "C35_length_with_skip_refuted",
    "C35_length_with_skip_partial",
    "C35_marked_partial",
    "C35_lengthened_unique_partial",
    "C35_overflow_refuted"
   ],
   "note": "REFUTED as stated: with --length every skipped invalid line, even one before the start, lengthens the range (exact result proved), and start + length beyond 2^64-1 wraps around, so nothing is written; exact for --end, open ends, and --length without skipped lines"
  },
  {
   "property": "C36",
   "status": "proved",
   "theorems": [
    "C36_parts",
    "C36_local_level",
    "C36_copy_level",
    "C36_nothing_invented",
    "C36_nothing_lost",
    "C36_run",
    "C36_library_without_copies_refuted"
   ],
   "note": "For records in which the libraries can be told apart by the levels of the fields: every library but the last has copies. Otherwise it fails (C36_library_without_copies_refuted). Parts of records in any other order are described as well."
  },
  {
   "property": "C37",
   "status": "partial",
   "theorems": [
    "C37_frequency",
    "C37_reverse_partial",
    "C37_header",
    "C37_determined",
    "C37_order_independent",
    "C37_reverse_threshold_refuted"
   ],
   "note": "REFUTED as stated for --reverse with --threshold (C37_reverse_threshold_refuted: the loop stops at the first row below the threshold, which in ascending order is the first row). Descending order is exact; ascending is exact when every row reaches the threshold; the table is independent of hash map order."
  },
  {
   "property": "C38",
   "status": "proved",
   "theorems": [
    "C38_selects_unique",
    "C38_filter",
    "C38_invert",
    "C38_unedited",
    "C38_input_files"
   ],
   "note": ""
  },
  {
   "property": "C39",
   "status": "proved",
   "theorems": [
    "C39_lists",
    "C39_empty_allow_list",
    "C39_build",
    "C39_build_fails"
   ],
   "note": "reading the table files (polars) is not modelled"
  },
  {
   "property": "C40",
   "status": "partial",
   "theorems": [
    "C40_C42_C43_check",
    "C40_C42_C43_verdict_consistent",
    "C40_isni_partial",
    "C40_isni_accepted",
    "C40_other_prefix",
    "C40_single_error",
    "C40_adjacent_swap",
    "C40_letters_refuted",
    "C40_swapped_x_refuted"
   ],
   "note": "REFUTED as stated: bytes above '9' count as digits and X is accepted in position 15 (C40_letters_refuted, C40_swapped_x_refuted). Proved: exact for codes made of digits and a last character; valid ISNIs are never flagged; every single wrong digit and every swap of adjacent digits is flagged."
  },
  {
   "property": "C41",
   "status": "partial",
   "theorems": [
    "C41_C63_run",
    "C41_order_dangling",
    "C41_order_reported",
    "C41_order_distinct",
    "C41_empty_refuted"
   ],
   "note": "REFUTED in one corner: a single dangling reference that is empty is not reported (C41_empty_refuted). Proved: otherwise the reports are exactly the dangling references, whatever the order of the records; also with scope, fast termination and filters."
  },
  {
   "property": "C42",
   "status": "partial",
   "theorems": [
    "C40_C42_C43_check",
    "C40_C42_C43_verdict_consistent",
    "C42_rows_partial",
    "C42_collision_refuted"
   ],
   "note": "REFUTED as stated: rows are compared as joined lossy texts, so different rows can collide (C42_collision_refuted). Proved: the exact verdict, and the statement for one column or cells without the separator's first byte."
  },
  {
   "property": "C43",
   "status": "partial",
   "theorems": [
    "C40_C42_C43_check",
    "C40_C42_C43_verdict_consistent",
    "C43_list_partial",
    "C43_empty_refuted"
   ],
   "note": "REFUTED in one corner: a single bad value that is empty is not reported (C43_empty_refuted). Proved in all other cases, including the message."
  },
  {
   "property": "C44",
   "status": "proved",
   "theorems": [
    "C44_C45_C46_C47_convert",
    "C44_C45_C46_C47_command",
    "C44_binary_unambiguous",
    "C44_binary_written",
    "C44_C46_C47_runs"
   ],
   "note": ""
  },
  {
   "property": "C45",
   "status": "proved",
   "theorems": [
    "C44_C45_C46_C47_convert",
    "C44_C45_C46_C47_command",
    "C45_plain_unambiguous",
    "C45_plain_written",
    "C45_runs",
    "C45_record_ends_refuted",
    "C45_line_feed_needed"
   ],
   "note": "The text of a run determines all fields but not where records end (C45_record_ends_refuted). The condition on newlines is needed and met by everything the reader accepts."
  },
  {
   "property": "C46",
   "status": "proved",
   "theorems": [
    "C44_C45_C46_C47_convert",
    "C44_C45_C46_C47_command",
    "C44_C46_C47_runs",
    "C46_import_unambiguous",
    "C46_import_written",
    "C46_header_needed"
   ],
   "note": "Under a weaker condition than newline-free values, shown to be needed."
  },
  {
   "property": "C47",
   "status": "proved",
   "theorems": [
    "C44_C45_C46_C47_convert",
    "C44_C45_C46_C47_command",
    "C44_C46_C47_runs",
    "C47_json_unambiguous",
    "C47_json_written",
    "C47_not_utf8"
   ],
   "note": "The JSON text is related to its value by a grammar that is independent of the printer; serde_json itself is modelled by json_print. Without UTF-8 the statement fails (C47_not_utf8)."
  },
  {
   "property": "C48",
   "status": "partial",
   "theorems": [
    "C48_xml_partial",
    "C48_refuted"
   ],
   "note": "REFUTED as stated: the XML writer drops occurrences. Proved instead: outputs agree exactly if the records agree up to occurrences."
  },
  {
   "property": "C49",
   "status": "proved",
   "theorems": [
    "C49_count",
    "C49_additive",
    "C49_output"
   ],
   "note": "count ignores --limit"
  },
  {
   "property": "C50",
   "status": "proved",
   "theorems": [
    "C50_unique",
    "C50_kept_keys",
    "C50_missing_key_panics"
   ],
   "note": "records without identifier panic under the idn strategy (separate theorem)"
  },
  {
   "property": "C51",
   "status": "proved",
   "theorems": [
    "C51_accepted",
    "C51_result",
    "C51_items_unique",
    "C51_fields",
    "C51_absent",
    "C51_C64_trim"
   ],
   "note": "Includes str::trim for all Unicode white space; the texts are taken to be UTF-8, as Rust strings are."
  },
  {
   "property": "C52",
   "status": "partial",
   "theorems": [
    "C52_select",
    "C52_unique_partial",
    "C52_unique_set",
    "C52_unique_refuted"
   ],
   "note": "REFUTED as stated for --unique, which compares 64-bit hashes (C52_unique_refuted). Everything else is exact, and --unique is exact for runs without colliding rows."
  },
  {
   "property": "C53",
   "status": "proved",
   "theorems": [
    "C53_describe",
    "C53_determined",
    "C53_order_independent"
   ],
   "note": "Exact table, independent of hash map order. CSV quoting and the lossy text of codes are not modelled."
  },
  {
   "property": "C54",
   "status": "proved",
   "theorems": [
    "C54_builder",
    "C54_filter_options"
   ],
   "note": "All call sequences of the builder and the command line options."
  },
  {
   "property": "C55",
   "status": "proved",
   "theorems": [
    "C55_parse_string_iff",
    "C55_every_text_quotable"
   ],
   "note": "Exact characterisation of the accepted literals, and every UTF-8 text is quotable."
  },
  {
   "property": "C56",
   "status": "proved",
   "theorems": [
    "C56_histories",
    "C56_arguments",
    "C56_answer_unique",
    "C56_current_unique",
    "C56_broken_file"
   ],
   "note": "The TOML reader is a parameter; all that is asked of it is that it understands lines \"key = value\" with booleans and quoted words. Failing file operations are C102-C104."
  },
  {
   "property": "C57",
   "status": "partial",
   "theorems": [
    "C57_append_plain",
    "C57_append_gz_refuted"
   ],
   "note": "Plain files proved (old content empty or newline-terminated); REFUTED for files named *.gz, where everything appended is lost on reading."
  },
  {
   "property": "C58",
   "status": "partial",
   "theorems": [
    "C58_print_partial",
    "C58_print_refuted",
    "C58_xml_partial",
    "C58_xml_refuted"
   ],
   "note": "REFUTED as stated: print and convert to XML panic on accepted records with values that are not UTF-8; proved: print does not panic for UTF-8 values, convert to XML panics exactly if some value is not UTF-8."
  },
  {
   "property": "C59",
   "status": "proved",
   "theorems": [
    "C59_parsing_total",
    "C59_evaluation_total",
    "C59_evaluation_refuted"
   ],
   "note": "Parsing never runs out of fuel; evaluation is total under the stated regex hypotheses, which C59_evaluation_refuted shows are needed."
  },
  {
   "property": "C60",
   "status": "proved",
   "theorems": [
    "C60_path_display",
    "C60_query_display",
    "C60_format_display"
   ],
   "note": "Paths and queries exactly, formats up to trimming."
  },
  {
   "property": "C61",
   "status": "proved",
   "theorems": [
    "C61_string_query",
    "C61_string_format"
   ],
   "note": "Assuming only that the external text functions keep UTF-8."
  },
  {
   "property": "C62",
   "status": "proved",
   "theorems": [
    "C62_hash"
   ],
   "note": "Rows here, their CSV text in C74_hash"
  },
  {
   "property": "C63",
   "status": "proved",
   "theorems": [
    "C41_C63_run"
   ],
   "note": "Regular expressions must compile; hash orders are arbitrary permutations."
  },
  {
   "property": "C64",
   "status": "proved",
   "theorems": [
    "C64_selection",
    "C51_C64_trim"
   ],
   "note": ""
  },
  {
   "property": "C65",
   "status": "partial",
   "theorems": [
    "C65_texts_accepted_partial",
    "C65_mixed_chain_refuted"
   ],
   "note": "REFUTED as stated: '012A? && 013A? ^ 014A? || 015A?' is rejected. Proved for the strict language (no such operand of ||, parentheses nested < 256 deep, bounded measure of parentheses between braces)."
  },
  {
   "property": "C66",
   "status": "proved",
   "theorems": [
    "C66_accepted_texts"
   ],
   "note": ""
  },
  {
   "property": "C67",
   "status": "proved",
   "theorems": [
    "C67_unambiguous"
   ],
   "note": "for texts of the strict language nested < 256 deep"
  },
  {
   "property": "C68",
   "status": "proved",
   "theorems": [
    "C68_contains",
    "C68_find",
    "C68_find_none",
    "C68_retain",
    "C68_level"
   ],
   "note": "Each lookup characterised for all fields, records and predicates."
  },
  {
   "property": "C69",
   "status": "proved",
   "theorems": [
    "C69_filter",
    "C69_filter_accepted",
    "C69_shared_options",
    "C69_shared_options_accepted",
    "C69_count",
    "C69_select",
    "C69_select_accepted",
    "C69_frequency"
   ],
   "note": "Both directions for filter and select, the shared options for any command; count and frequency from the arguments. Sufficient side in the strict language (see C65)."
  },
  {
   "property": "C70",
   "status": "proved",
   "theorems": [
    "C70_exit_code",
    "C70_refused",
    "C70_success"
   ],
   "note": "filter_execute modelled from the parsed arguments; clap's own argument errors are outside the model."
  },
  {
   "property": "C71",
   "status": "proved",
   "theorems": [
    "C71_path_texts",
    "C71_accepted_paths"
   ],
   "note": "Acceptance and selected values in both directions against an inductive language; completeness for the strict language (see C65 for what it leaves out of conditions)."
  },
  {
   "property": "C72",
   "status": "proved",
   "theorems": [
    "C72_format_texts",
    "C72_accepted_formats"
   ],
   "note": "Acceptance and outputs in both directions against an inductive language of formats; completeness for parentheses nested less than 32 deep and strict conditions."
  },
  {
   "property": "C73",
   "status": "proved",
   "theorems": [
    "C73_query_texts",
    "C73_accepted_queries",
    "C73_unambiguous",
    "C73_braces_are_a_path"
   ],
   "note": "Acceptance and rows in both directions, unambiguity; C73_braces_are_a_path shows that codes alone in braces are read as a path."
  },
  {
   "property": "C74",
   "status": "proved",
   "theorems": [
    "C74_text",
    "C74_unambiguous",
    "C74_never_refuted",
    "C74_select",
    "C74_frequency",
    "C74_hash",
    "C74_hash_header"
   ],
   "note": "The csv crate is modelled from its documentation; with quote style never the statement fails (C74_never_refuted). A header of the wrong width ends the run with an error (C74_hash_header)."
  },
  {
   "property": "C75",
   "status": "proved",
   "theorems": [
    "C75_report",
    "C75_unambiguous"
   ],
   "note": "Missing identifiers and messages are written like empty ones; the text of serialised rows follows the csv crate."
  },
  {
   "property": "C76",
   "status": "proved",
   "theorems": [
    "C76_texts_accepted",
    "C76_accepted_texts",
    "C76_kinds_exclusive",
    "C76_singleton",
    "C76_display",
    "C76_field_texts_accepted",
    "C76_field_accepted_texts",
    "C76_field_singleton_accepted",
    "C76_field_singleton_texts"
   ],
   "note": "For braces the texts accepted are those of the strict language with a bounded measure (see C65); every accepted text belongs to the loose one."
  },
  {
   "property": "C77",
   "status": "partial",
   "theorems": [
    "C77_jel_shape",
    "C77_iso639_shape",
    "C77_iso639_distinct",
    "C77_other_texts_flagged",
    "C77_jel_categories_partial",
    "C77_jel_categories_refuted",
    "C77_jel_categories_used"
   ],
   "note": "REFUTED as stated: the JEL list has Z00 but not its category Z0, so a record with Z0 is flagged. Proved: shapes, that other texts are flagged, and that Z00 is the only exception."
  },
  {
   "property": "C78",
   "status": "proved",
   "theorems": [
    "C78_conversion",
    "C78_record_comparison",
    "C78_field_comparison",
    "C78_part_comparison",
    "C78_writes_alike",
    "C78_read_write",
    "C78_write_read",
    "C78_constructors",
    "C78_field_constructor"
   ],
   "note": ""
  },
  {
   "property": "C79",
   "status": "partial",
   "theorems": [
    "C79_tags",
    "C79_occurrences_partial",
    "C79_occurrences_refuted",
    "C79_same_text_refuted",
    "C79_printed_is_written",
    "C79_level_names"
   ],
   "note": "REFUTED as stated: a borrowed occurrence prints a slash that no constructor accepts, its owned copy prints none. Proved: tags and owned occurrences read back; exactly what borrowed ones print."
  },
  {
   "property": "C80",
   "status": "proved",
   "theorems": [
    "C80_loops",
    "C80_loop_slice",
    "C80_pieces",
    "C80_reader",
    "C80_invalid"
   ],
   "note": ""
  },
  {
   "property": "C81",
   "status": "proved",
   "theorems": [
    "C81_read_fails",
    "C81_status",
    "C81_open_fails",
    "C81_concat",
    "C81_complete_exists",
    "C81_invalid",
    "C81_invalid_open",
    "C81_invalid_status"
   ],
   "note": ""
  },
  {
   "property": "C82",
   "status": "partial",
   "theorems": [
    "C82_partial_line_lost",
    "C82_records_refuted"
   ],
   "note": "REFUTED as stated: the bytes of the line that had been read before the fault are dropped, and the rest of the line is returned as a record if it is one. Proved: exactly what is lost."
  },
  {
   "property": "C83",
   "status": "partial",
   "theorems": [
    "C83_commands",
    "C83_at_end",
    "C83_records",
    "C83_tables",
    "C83_tables_refuted"
   ],
   "note": "REFUTED as stated for tables (C83_tables_refuted): if a write fails and the output then recovers, the CSV writer's drop writes its whole buffer again, so bytes are duplicated. Proved for all record writers (C83_records) and for tables whose output fails for good (C83_tables); C83_commands shows that the commands satisfy the hypothesis."
  },
  {
   "property": "C84",
   "status": "partial",
   "theorems": [
    "C84_records",
    "C84_tables",
    "C84_filter",
    "C84_xml_refuted",
    "C84_xml"
   ],
   "note": "REFUTED as stated for convert --to xml (C84_xml_refuted): finish does not flush the buffer, which is then written on drop, where errors are ignored: a full disk gives status 0 and an empty file. Exact result for XML: C84_xml. Proved for the record writers (C84_records, C84_filter) and the tables (C84_tables)."
  },
  {
   "property": "C85",
   "status": "partial",
   "theorems": [
    "C85_records",
    "C85_tables_refuted",
    "C85_xml_refuted"
   ],
   "note": "REFUTED as stated for tables (C85_tables_refuted): a write error inside of write_record is a csv::Error, not an io::Error, and gives status 2 (check: always); and for convert --to xml, which panics (C85_xml_refuted). Proved for the record writers (C85_records)."
  },
  {
   "property": "C86",
   "status": "proved",
   "theorems": [
    "C86_records",
    "C86_tables"
   ],
   "note": "C86_records for any number of outputs (filter --tee), C86_tables for tables and check reports; the hypothesis `appends` is shown for the commands in C83_commands and C83_at_end."
  },
  {
   "property": "C87",
   "status": "partial",
   "theorems": [
    "C87_split",
    "C87_partition",
    "C87_convert",
    "C87_invalid",
    "C87_describe",
    "C87_hash_partial",
    "C87_print_partial",
    "C87_slice_partial",
    "C87_sample_partial",
    "C87_select_partial",
    "C87_frequency_partial",
    "C87_filter_append",
    "C87_concat_append",
    "C87_count_append",
    "C87_slice_append",
    "C87_select_append",
    "C87_filter_refuted",
    "C87_count_refuted",
    "C87_explode_refuted",
    "C87_check_refuted",
    "C87_concat_refuted"
   ],
   "note": "REFUTED as stated for filter, count, explode and check, which open (and so empty) the output before they parse the expression, and for concat, whose first output is emptied before the second is opened; witnesses. Proved for hash, print, slice, sample, select, frequency, split, partition, convert and invalid, and for all commands with --append: nothing is lost, however they end. describe opens its output last: unless it succeeds, it changes nothing."
  },
  {
   "property": "C88",
   "status": "proved",
   "theorems": [
    "C88_split_frame",
    "C88_partition_frame",
    "C88_convert_frame",
    "C88_invalid_frame",
    "C88_describe_frame",
    "C88_split_end_to_end",
    "C88_split_end_to_end_read",
    "C88_split_success",
    "C88_convert_end_to_end",
    "C88_convert_compressed",
    "C88_invalid_end_to_end",
    "C88_describe_end_to_end",
    "C88_describe_end_to_end_read",
    "C88_filter_frame",
    "C88_concat_frame",
    "C88_count_frame",
    "C88_explode_frame",
    "C88_check_frame",
    "C88_hash_frame",
    "C88_print_frame",
    "C88_slice_frame",
    "C88_sample_frame",
    "C88_select_frame",
    "C88_frequency_frame",
    "C88_filter",
    "C88_concat",
    "C88_count",
    "C88_explode",
    "C88_check",
    "C88_hash",
    "C88_print",
    "C88_slice",
    "C88_sample",
    "C88_select",
    "C88_frequency",
    "C88_contents",
    "C88_compressed",
    "C88_output",
    "C88_filter_end_to_end",
    "C88_filter_end_to_end_read",
    "C88_count_end_to_end",
    "C88_count_end_to_end_read",
    "C88_print_end_to_end",
    "C88_print_end_to_end_read",
    "C88_slice_end_to_end",
    "C88_slice_end_to_end_read",
    "C88_sample_end_to_end",
    "C88_sample_end_to_end_read",
    "C88_explode_end_to_end",
    "C88_explode_end_to_end_read",
    "C88_hash_end_to_end",
    "C88_hash_end_to_end_read",
    "C88_check_end_to_end",
    "C88_check_end_to_end_read",
    "C88_select_end_to_end",
    "C88_select_end_to_end_read",
    "C88_frequency_end_to_end",
    "C88_frequency_end_to_end_read",
    "C88_concat_end_to_end"
   ],
   "note": "All 16 commands that read records. partition: C88_partition_frame here, the contents under C95. Of each command the theorem end_to_end starts from the texts of the arguments and says what is in the outputs afterwards; the theorem end_to_end_read is the converse. A file has one name, and writing does not fail (for that see C83 to C86)."
  },
  {
   "property": "C89",
   "status": "partial",
   "theorems": [
    "C89_concat_partial",
    "C89_filter_partial",
    "C89_unique_refuted",
    "C89_limit_refuted",
    "C89_header_refuted"
   ],
   "note": "REFUTED as stated with --unique of concat (duplicates across the runs), with --limit (holds for each run) and for select with --header (the header is written again); witnesses. Proved for concat without --unique and filter without --limit, with one output that is not compressed. For compressed outputs see C92."
  },
  {
   "property": "C90",
   "status": "partial",
   "theorems": [
    "C90_split_refuted",
    "C90_concat_refuted",
    "C90_filter_refuted",
    "C90_filter_partial"
   ],
   "note": "REFUTED as stated: the output is emptied before the inputs are opened, so concat with its only input as its output always empties the file and reports success (for all contents), split likewise with its first chunk, filter too (witness). Proved: what is not an output stays as it is (C88 for all commands, here for filter), and with --append nothing is lost (C87)."
  },
  {
   "property": "C91",
   "status": "partial",
   "theorems": [
    "C91_filter_partial",
    "C91_slice_partial",
    "C91_slice_refuted"
   ],
   "note": "REFUTED as stated for slice, which has no conflicts_with between --gzip and --append: once the other options are accepted, it always panics with both. Proved: slice panics before its loop only then, and filter never does, as clap refuses the combination (which is a hypothesis)."
  },
  {
   "property": "C92",
   "status": "partial",
   "theorems": [
    "C92_invalid_refuted",
    "C92_new_partial",
    "C92_append_partial",
    "C92_append_refuted",
    "C92_gzip_refuted"
   ],
   "note": "REFUTED as stated: with --append and a name that ends with .gz a second gzip member is written, but flate2::read::GzDecoder reads only the first, so what the second run wrote is never read (for all inputs); with --gzip and another name the file is read as it is, compressed. invalid never compresses, so what it writes into a file named .gz cannot be read (witness). Proved for new files that are compressed iff their name ends with .gz and for appending without compression."
  },
  {
   "property": "C93",
   "status": "partial",
   "theorems": [
    "C93_split_partial",
    "C93_partition_partial",
    "C93_partition_refuted",
    "C93_split_refuted"
   ],
   "note": "REFUTED as stated for partition: a value with a slash leads out of the directory (../c), and an absolute path replaces it (/home/b), so records can overwrite any file; and for templates with a slash. Proved: split writes only files directly in the directory if the template has no slash, partition if also no value has one and no input is in the directory."
  },
  {
   "property": "C94",
   "status": "proved",
   "theorems": [
    "C94_split_concat"
   ],
   "note": "For up to 2^32 records (the chunk number is a u32, see C32); the files of the chunks must be writable, no inputs, not the output of concat, and named .gz with --gzip (the default template does it). split may end with an error: then the chunks hold what was read before."
  },
  {
   "property": "C95",
   "status": "partial",
   "theorems": [
    "C95_partition_partial",
    "C95_partition_read_partial",
    "C95_partition_success_partial",
    "C95_distinct_files",
    "C95_partition_refuted"
   ],
   "note": "REFUTED as stated: values that are not UTF-8 can have the same file name, and the records of one overwrite those of the other (witness: a record is in no file, exit status 0). Proved if different values have different files that are not inputs and there is no limit; sufficient: a template with placeholder, and no slash in template and values (C95_distinct_files)."
  },
  {
   "property": "C96",
   "status": "proved",
   "theorems": [
    "C96_rule_loaded",
    "C96_rule_accepted",
    "C96_rule_refused",
    "C96_total",
    "C96_default_threshold"
   ],
   "note": "Between the two theorems is the gap of nested expressions (strict, see C65, C21). TOML syntax is an oracle: the theorems start from the table. The form of a struct as an array, which serde also accepts, is not modelled."
  },
  {
   "property": "C97",
   "status": "proved",
   "theorems": [
    "C97_end_to_end",
    "C97_end_to_end_read",
    "C97_refused"
   ],
   "note": "Up to the order in which the hash maps yield the rules of a file (any permutation), and the nesting of expressions as in C96. The files are those on the disk after the output has been opened."
  },
  {
   "property": "C98",
   "status": "partial",
   "theorems": [
    "C98_rule_key_refuted",
    "C98_document_key_refuted",
    "C98_kind_reported",
    "C98_level_reported"
   ],
   "note": "REFUTED as stated for keys: every key that is not one of the known ones is ignored, in rules and in the document (proved for all tables), so a misspelt option has no effect and the default is used. Proved for kinds of checks (unknown or missing) and levels: these are refused."
  },
  {
   "property": "C99",
   "status": "partial",
   "theorems": [
    "C99_others_unchanged",
    "C99_refuted",
    "C99_output_ignored"
   ],
   "note": "REFUTED as stated if the output is also a rule file: the output is opened (and emptied) first, the empty text is a valid rule file, check applies no rules, reports success, and the rules are gone (proved for all inputs). Proved: all other files are unchanged, however check ends; and the rules of such a file are ignored while those of the other files are applied."
  },
  {
   "property": "C100",
   "status": "partial",
   "theorems": [
    "C100_counting_harmless",
    "C100_factor_eight_refuted",
    "C100_polynomial_refuted",
    "C100_starts_bounded_partial",
    "C100_without_parentheses_partial"
   ],
   "note": "REFUTED as stated: a text in n pairs of parentheses makes parse_field_group_matcher start at least 8^n times for every n below the limit of nesting (or, xor, and and the group itself parse the same text again), so 25 bytes take more than 10^9 starts and 515 bytes more than 10^230. Proved instead: counting changes nothing; the starts are bounded by (10 (size+3)^4)^(number of '('+1), so without parentheses by a polynomial."
  },
  {
   "property": "C101",
   "status": "partial",
   "theorems": [
    "C101_nesting_refuted",
    "C101_nesting_linear_partial"
   ],
   "note": "REFUTED as stated: n exclamation marks are accepted for every n and give a matcher nested n deep; the limit of 256 counts parentheses only. Proved instead: the nesting is at most twice the length of the text."
  },
  {
   "property": "C102",
   "status": "partial",
   "theorems": [
    "C102_home",
    "C102_home_reported",
    "C102_given_refuted",
    "C102_overwritten_refuted"
   ],
   "note": "REFUTED as stated for --config: `unwrap_or(Config::new(path))` turns every failing read (all contents that are not UTF-8, or no permission) into the default configuration, and setting an option then replaces the file. Proved for the file in the home directory."
  },
  {
   "property": "C103",
   "status": "partial",
   "theorems": [
    "C103_other_option",
    "C103_rest_refuted"
   ],
   "note": "REFUTED as stated: all files that hold the same options become the same, so comments and other entries are dropped (for all contents). Proved: the other option is kept."
  },
  {
   "property": "C104",
   "status": "partial",
   "theorems": [
    "C104_old_or_new_partial",
    "C104_stopped_refuted",
    "C104_mixed_refuted"
   ],
   "note": "REFUTED as stated: the file is emptied before it is written; if the writing stops at once, every later command panics (the reader refuses the empty file: hypothesis), also the one that would repair it; if it stops after the first line, normalization is lost. Proved if creating the file is refused or all is written."
  },
  {
   "property": "C105",
   "status": "proved",
   "theorems": [
    "C105_filter",
    "C105_concat",
    "C105_count",
    "C105_explode",
    "C105_check",
    "C105_hash",
    "C105_print",
    "C105_slice",
    "C105_sample",
    "C105_select",
    "C105_frequency",
    "C105_split",
    "C105_partition",
    "C105_convert",
    "C105_invalid",
    "C105_describe"
   ],
   "note": "For the on-disk model of the sixteen commands, with the preparation of their arguments. A read that fails again and again ends the command, a read that blocks is not modelled. The path of partition is given as parsed, the rules of check as read (C96)."
  },
  {
   "property": "C106",
   "status": "proved",
   "theorems": [
    "C106_filter",
    "C106_concat",
    "C106_count",
    "C106_explode",
    "C106_check",
    "C106_hash",
    "C106_slice",
    "C106_sample",
    "C106_select",
    "C106_frequency",
    "C106_split",
    "C106_partition",
    "C106_convert",
    "C106_invalid",
    "C106_describe"
   ],
   "note": "The excluded cases do panic: C58 (print, concat --unique idn, XML) and C91 (--append with --gzip). Failing writes are C84."
  },
  {
   "property": "C107",
   "status": "proved",
   "theorems": [
    "C107_feature_without_dollar",
    "C107_accepted_stay",
    "C107_default_no_dollar"
   ],
   "note": "Same result includes the counters that the parser leaves for the next expression."
  },
  {
   "property": "C108",
   "status": "partial",
   "theorems": [
    "C108_dollar_path",
    "C108_dollar_matcher",
    "C108_dollar_condition",
    "C108_dollar_braces",
    "C108_other_conditions_refuted",
    "C108_brackets_refuted"
   ],
   "note": "REFUTED as stated: between braces only relations (==, =^, ...) and =? admit the dollar sign; `$a in [..]`, `$a?`, `$a =~ ..` and `#$a > 1` are rejected, and `012A$[ab]` is rejected where `012A.[ab]` is accepted. Proved for all texts: the dollar sign of a path (one or more codes or a star, blanks around it), of a matcher, and in front of relations and =?, each with its meaning."
  },
  {
   "property": "C109",
   "status": "proved",
   "theorems": [
    "C109_needs"
   ],
   "note": "All seventeen commands, including inputs that are outputs at the same time. The order of partition's hash map is any permutation, the same for both runs."
  },
  {
   "property": "C110",
   "status": "proved",
   "theorems": [
    "C110_changes",
    "C110_session"
   ],
   "note": "For partition without conditions on regular expressions or the order of its writers (stronger than C88)."
  },
  {
   "property": "C111",
   "status": "proved",
   "theorems": [
    "C111_again"
   ],
   "note": ""
  },
  {
   "property": "C112",
   "status": "proved",
   "theorems": [
    "C112_commute"
   ],
   "note": "The runs are one after the other; runs at the same time are not modelled. The texts on stdout come in the order of the runs."
  },
  {
   "property": "C113",
   "status": "proved",
   "theorems": [
    "C113_skip"
   ],
   "note": "The TOML reader is assumed to read back the two lines that config writes (file_says). The command must not use the configuration file as an input."
  },
  {
   "property": "C114",
   "status": "partial",
   "theorems": [
    "C114_spelling",
    "C114_source_refuted",
    "C114_partition_refuted"
   ],
   "note": "REFUTED as stated: the value of --filter-set-source and the path of partition are read by clap and not normalised; witnesses C114_source_refuted (count) and C114_partition_refuted. Proved for all other expressions of all commands: --where, --and, --or, --not, the expression of filter and the queries of select and frequency."
  },
  {
   "property": "C115",
   "status": "proved",
   "theorems": [
    "C115_ends",
    "C115_session"
   ],
   "note": ""
  },
  {
   "property": "C116",
   "status": "proved",
   "theorems": [
    "C116_runs",
    "C116_read",
    "C116_settings",
    "C116_one",
    "C116_refused",
    "C116_panics",
    "C116_from"
   ],
   "note": "The conditions are proper and covered in RunSpec.v: no file is read and written, records are UTF-8 where they must be, headers fit, and so on; what happens otherwise is the subject of C34, C37, C52, C58, C65, C74 and C95. Convert from other formats than PICA+ is refused (C116_from). To end is guaranteed for the strict language of GrammarSpec.v, and what ended is read in the lax one, as in C88."
  },
  {
   "property": "C117",
   "status": "proved",
   "theorems": [
    "C117_settings",
    "C117_answers",
    "C117_one",
    "C117_start"
   ],
   "note": "The toml crate is assumed to read what config writes (reads_config in SessionSpec.v, an explicit hypothesis). Together with C116 this says what the commands of a session do."
  },
  {
   "property": "C118",
   "status": "proved",
   "theorems": [
    "C118_output",
    "C118_input",
    "C118_pipe"
   ],
   "note": "The second command is run when the first has ended; that both run at the same time is not modelled. Describe writes another format to stdout than to a file and is excluded as the first command. With a file for its expression filter is covered if no expression is given besides."
  },
  {
   "property": "C119",
   "status": "proved",
   "theorems": [
    "C119_asks",
    "C119_completes",
    "C119_one",
    "C119_or"
   ],
   "note": "Of the model of clap's reader (ClapModel.v), which is written from its documentation; the specification (ArgsSpec.v) is a relation and a grammar of lines. Which lines print help or the version is not characterised, see C120."
  },
  {
   "property": "C120",
   "status": "proved",
   "theorems": [
    "C120_runs",
    "C120_completes",
    "C120_unconfigured",
    "C120_else"
   ],
   "note": ""
  },
  {
   "property": "C121",
   "status": "proved",
   "theorems": [
    "C121_order",
    "C121_items"
   ],
   "note": ""
  },
  {
   "property": "C122",
   "status": "partial",
   "theorems": [
    "C122_orderly_partial",
    "C122_slice_asks",
    "C122_slice_refuted"
   ],
   "note": "REFUTED as stated: slice has no conflict between --gzip and --append (filter has); for all files `pica slice -ga FILES` is accepted and panics (C122_slice_refuted). All the rest is proved for all lines (C122_orderly_partial)."
  },
  {
   "property": "C123",
   "status": "partial",
   "theorems": [
    "C123_where_partial",
    "C123_explode_refuted",
    "C123_slice_refuted"
   ],
   "note": "REFUTED as stated. Proved for check, count, describe, frequency, hash, partition, print, sample, select, slice and split (C123_where_partial). False for explode, which applies the conditions to the parts (C123_explode_refuted; C125 says what holds), and for slice with --length if lines are skipped (C123_slice_refuted). Conditions: the patterns of the conditions compile; the outputs are neither inputs nor lists; for check, frequency and select, which parse more after the conditions, the conditions leave the nesting level as it was (no parenthesis, or accepted with less than 256 levels)."
  },
  {
   "property": "C124",
   "status": "proved",
   "theorems": [
    "C124_concat"
   ],
   "note": ""
  },
  {
   "property": "C125",
   "status": "proved",
   "theorems": [
    "C125_explode"
   ],
   "note": ""
  },
  {
   "property": "C126",
   "status": "partial",
   "theorems": [
    "C126_owned_partial",
    "C126_borrowed_partial",
    "C126_byte_record_partial",
    "C126_string_record_partial",
    "C126_level_partial",
    "C126_path_partial",
    "C126_query_partial",
    "C126_format_partial",
    "C126_tag_matcher_partial",
    "C126_matcher_partial",
    "C126_subfield_matcher_partial",
    "C126_matcher_refuted",
    "C126_raw_data_refuted",
    "C126_borrowed_refuted"
   ],
   "note": "REFUTED as stated. Owned records are read back from every format (C126_owned_partial); borrowed ones only from formats that lend their byte strings (C126_borrowed_partial), never from one that has only sequences of numbers for bytes, such as JSON (C126_borrowed_refuted). A ByteRecord that was read from bytes serialises its raw data as a sequence of numbers and asks for bytes when it is read, so that a format which keeps sequences sequences never reads it back (C126_raw_data_refuted); without raw data, or from formats that hand such a sequence back as lent bytes, it is read back (C126_byte_record_partial, C126_string_record_partial). Field, record and subfield matchers are read back as matchers that match the same within the limits of C18 (C126_matcher_partial, C126_subfield_matcher_partial) and not beyond them (C126_matcher_refuted). Paths, queries, tag matchers and levels are read back; formats too, proved for texts without white space around them. What the derive macros, the standard types and bstr do is modelled from their documentation."
  },
  {
   "property": "C127",
   "status": "partial",
   "theorems": [
    "C127_unchecked_refuted"
   ],
   "note": "REFUTED as stated, for all records: whatever the parts and the raw data are, some serialised value is read as that ByteRecord and as that StringRecord (C127_unchecked_refuted); the derived implementations check nothing. The samples show a StringRecord that is not UTF-8, a record that is written as one with another field, and one that is rejected when it is read again. With C126, values that come from valid records are read as valid records."
  },
  {
   "property": "C128",
   "status": "proved",
   "theorems": [
    "C128_every",
    "C128_runs"
   ],
   "note": "C128_every is an equivalence for every command; C128_runs is the whole program. The reader of the words is the model of clap that C119 is about."
  },
  {
   "property": "C129",
   "status": "proved",
   "theorems": [
    "C129_split",
    "C129_partition"
   ],
   "note": "C129_split for at most 2^32 records (the counter is cast to u32, see C32); C129_partition in any order of the hash map. Every output is a file or pipe of its own; compressed outputs are left out."
  },
  {
   "property": "C130",
   "status": "proved",
   "theorems": [
    "C130_and",
    "C130_not",
    "C130_or"
   ],
   "note": "C130_and, C130_not, C130_or. The outputs are no inputs, and the first expression (and --filter-set-source) leaves the nesting counters of the parsers as they were: it has no opening parenthesis or is an expression nested less than 256 times."
  },
  {
   "property": "C131",
   "status": "partial",
   "theorems": [
    "C131_unchanged",
    "C131_slice_unchanged",
    "C131_concat_unchanged",
    "C131_counts",
    "C131_invalid",
    "C131_total",
    "C131_concat_partial",
    "C131_message",
    "C131_numbers",
    "C131_refuted"
   ],
   "note": "REFUTED as stated for concat with --unique (C131_refuted): update(false) is called after the record has been written, so that duplicates and records with an empty key are counted neither as records nor as invalid lines (concat.rs:119-133). C131_concat_partial tells what concat counts: the records written. For all other commands the claim is proved: C131_counts, C131_invalid, C131_total, C131_message, C131_numbers; that the progress changes nothing: C131_unchanged, C131_slice_unchanged, C131_concat_unchanged, C131_invalid."
  },
  {
   "property": "C132",
   "status": "proved",
   "theorems": [
    "C132_limit",
    "C132_slices",
    "C132_behind_refuted"
   ],
   "note": "C132_limit, C132_slices. C132_behind_refuted shows that the condition on the second slice is needed: a slice that starts behind its end reads on until it has seen enough records and may fail at an invalid line the first slice of two never reads."
  },
  {
   "property": "C133",
   "status": "partial",
   "theorems": [
    "C133_limit_partial",
    "C133_count_refuted",
    "C133_slice_refuted",
    "C133_explode_refuted",
    "C133_partition_refuted"
   ],
   "note": "REFUTED as stated: count ignores --limit (C133_count_refuted), slice counts the records of its range (C133_slice_refuted), explode counts parts (C133_explode_refuted) and partition counts a record once for each of its values (C133_partition_refuted). Proved for check, describe, frequency, hash, print, sample, select and split (C133_limit_partial), if their outputs are no inputs or lists; for check, frequency and select the conditions have to leave the nesting levels of the parsers as they were. For filter see C132."
  },
  {
   "property": "C134",
   "status": "proved",
   "theorems": [
    "C134_parts",
    "C134_again",
    "C134_strategies_refuted"
   ],
   "note": "Only the first part may read stdin. With different strategies the statement fails (C134_strategies_refuted)."
  },
  {
   "property": "C135",
   "status": "partial",
   "theorems": [
    "C135_twice_partial",
    "C135_order_refuted"
   ],
   "note": "REFUTED as stated for records with a main field between a copy and a local field: explode by libraries twice gives more parts than once (C135_order_refuted). Proved if main fields come first in every record, or one of the levels is main (C135_twice_partial)."
  },
  {
   "property": "C136",
   "status": "proved",
   "theorems": [
    "C136_parts",
    "C136_invalid",
    "C136_count",
    "C136_others_refuted"
   ],
   "note": "For select under the assumption on regular expressions of C59; for invalid if reading a compressed file does not end with the error for a broken pipe. With a limit, with a header and for JSON it does not hold (C136_others_refuted)."
  },
  {
   "property": "C137",
   "status": "proved",
   "theorems": [
    "C137_dealt",
    "C137_allow_refuted"
   ],
   "note": "With an allow list a record that is not on it is written by neither (C137_allow_refuted)."
  },
  {
   "property": "C138",
   "status": "proved",
   "theorems": [
    "C138_all",
    "C138_two",
    "C138_zero_refuted"
   ],
   "note": "For texts of at most usize::MAX bytes. --end 0 is no end, so a cut at 0 does not work (C138_zero_refuted)."
  },
  {
   "property": "C139",
   "status": "proved",
   "theorems": [
    "C139_match",
    "C139_filter",
    "C139_xor_refuted",
    "C139_number_refuted"
   ],
   "note": "Under the assumption that lower case of a value is lower case of its parts around a text in UTF-8, which holds for bstr's to_lowercase since it goes character by character. For ^ (C139_xor_refuted) and for numbers of fields compared with == (C139_number_refuted) it does not hold; regular expressions and =* are not covered."
  },
  {
   "property": "C140",
   "status": "proved",
   "theorems": [
    "C140_match",
    "C140_filter"
   ],
   "note": "Under the assumption that a pair of values that is similar at a threshold is similar at every lower one, which holds since a score is compared with it; regular expressions must compile, as in C59."
  },
  {
   "property": "C141",
   "status": "proved",
   "theorems": [
    "C141_explode",
    "C141_slice",
    "C141_count"
   ],
   "note": "For slice, the length of the valid records of the inputs must fit in a machine word."
  },
  {
   "property": "C142",
   "status": "proved",
   "theorems": [
    "C142_sample"
   ],
   "note": "The chances are the subject of C34."
  },
  {
   "property": "C143",
   "status": "proved",
   "theorems": [
    "C143_tally"
   ],
   "note": "Without --header, --unique, --limit and --threshold; frequency writes the values as text with invalid bytes replaced (BStr::to_string), select as bytes. Regular expressions must compile, as in C59."
  },
  {
   "property": "C144",
   "status": "proved",
   "theorems": [
    "C144_shown",
    "C144_dollar_refuted"
   ],
   "note": "C144_dollar_refuted shows that the condition on dollar signs is needed. Without --translit and conditions."
  },
  {
   "property": "C145",
   "status": "proved",
   "theorems": [
    "C145_count",
    "C145_frequency",
    "C145_describe",
    "C145_limit_refuted"
   ],
   "note": "C145_limit_refuted shows that without the condition on --limit it is false. The iteration orders of the hash maps may differ between the two runs; each is a permutation of the entries."
  },
  {
   "property": "C146",
   "status": "proved",
   "theorems": [
    "C146_each",
    "C146_divided",
    "C146_limit_refuted"
   ],
   "note": "C146_each for files, C146_divided also with stdin in the first part; the converse of C136. For select under the assumption on regular expressions of C59. C146_limit_refuted shows that it is false with --limit."
  },
  {
   "property": "C147",
   "status": "proved",
   "theorems": [
    "C147_readable",
    "C147_any_status",
    "C147_none_invalid"
   ],
   "note": "C147_readable for runs that succeed, C147_any_status and C147_none_invalid whatever the status. Uncompressed output to stdout."
  },
  {
   "property": "C148",
   "status": "proved",
   "theorems": [
    "C148_header",
    "C148_cells",
    "C148_converse_refuted",
    "C148_frequency"
   ],
   "note": "C148_header with one text for all runs, C148_cells for two headers with equally many cells, C148_converse_refuted. Output to stdout. That the text reads as the row of the cells holds with a quote style other than never (see C74)."
  },
  {
   "property": "C149",
   "status": "proved",
   "theorems": [
    "C149_no_empty",
    "C149_unique"
   ],
   "note": "C149_no_empty, C149_unique. Without --header (see C148) and --nf; output to stdout. The rows are those that the texts read as in CSV, which are unique by C74_unambiguous."
  },
  {
   "property": "C150",
   "status": "proved",
   "theorems": [
    "C150_num",
    "C150_threshold",
    "C150_reverse_refuted"
   ],
   "note": "C150_num (with or without --reverse, any threshold), C150_threshold. C150_reverse_refuted shows that the exception is needed: with --reverse the loop stops at the first row, which is the least frequent one, and every row is lost. Without --header (see C148); output to stdout. That what the csv crate takes for a number has no delimiter, quote or line break in it is a hypothesis."
  },
  {
   "property": "C151",
   "status": "proved",
   "theorems": [
    "C151_reverse",
    "C151_opposite_refuted"
   ],
   "note": "C151_reverse. Without -n and --threshold (see C150) and --header (see C148); output to stdout. C151_opposite_refuted: the rows are not in the opposite order, as rows with the same number are in the order of their cells with and without the option. That what the csv crate takes for a number has no delimiter, quote or line break in it is a hypothesis."
  },
  {
   "property": "C152",
   "status": "proved",
   "theorems": [
    "C152_styles",
    "C152_frequency",
    "C152_never_refuted"
   ],
   "note": "C152_styles, C152_frequency. Output to stdout. C152_never_refuted shows that the exception is needed. That what the csv crate takes for a number has no delimiter, quote or line break in it is a hypothesis."
  },
  {
   "property": "C153",
   "status": "proved",
   "theorems": [
    "C153_digests",
    "C153_cells_refuted"
   ],
   "note": "C153_digests. Output to stdout. C153_cells_refuted: with another number of cells hash fails. That what the csv crate takes for a number has no delimiter, quote or line break in it is a hypothesis."
  },
  {
   "property": "C154",
   "status": "proved",
   "theorems": [
    "C154_select",
    "C154_frequency",
    "C154_unique_refuted",
    "C154_counts_refuted"
   ],
   "note": "C154_select, C154_frequency. Without --header (see C148); output to stdout. Two consequences: C154_unique_refuted (select --unique --translit may write a row twice) and C154_counts_refuted (frequency --translit may list a value twice), as rows are compared before the cells are normalised. The normalisation itself is a parameter."
  },
  {
   "property": "C155",
   "status": "proved",
   "theorems": [
    "C155_once"
   ],
   "note": "C155_once. With or without --reverse; without -n and --threshold (see C150) and --header (see C148); output to stdout."
  },
  {
   "property": "C156",
   "status": "proved",
   "theorems": [
    "C156_modes"
   ],
   "note": "C156_modes. Output to stdout. What the numbers are is C49. If reading an input fails with the error of a closed pipe, count ends with status 0 and writes nothing in every format."
  }
 ]
}