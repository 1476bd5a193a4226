{
 "claims": [
  {
   "property": "C01",
   "status": "proved",
   "theorems": [
    "C01_source_chars_lossless"
   ],
   "note": ""
  },
  {
   "property": "C02",
   "status": "proved",
   "theorems": [
    "C02_source_chars_scalars"
   ],
   "note": ""
  },
  {
   "property": "C03",
   "status": "proved",
   "theorems": [
    "C03_unsafe_flag_iff_malformed"
   ],
   "note": ""
  },
  {
   "property": "C04",
   "status": "proved",
   "theorems": [
    "C04_safe_string"
   ],
   "note": ""
  },
  {
   "property": "C05",
   "status": "proved",
   "theorems": [
    "C05_position_of_text"
   ],
   "note": ""
  },
  {
   "property": "C06",
   "status": "proved",
   "theorems": [
    "C06_position_advances"
   ],
   "note": ""
  },
  {
   "property": "C07",
   "status": "proved",
   "theorems": [
    "C07_peek_source",
    "C07_peek_wolfram"
   ],
   "note": ""
  },
  {
   "property": "C08",
   "status": "proved",
   "theorems": [
    "C08_issues_recorded"
   ],
   "note": ""
  },
  {
   "property": "C09",
   "status": "proved",
   "theorems": [
    "C09_wolfram_chars_lossless"
   ],
   "note": ""
  },
  {
   "property": "C10",
   "status": "proved",
   "theorems": [
    "C10_hex2",
    "C10_hex4",
    "C10_hex6",
    "C10_octal",
    "C10_every_escape"
   ],
   "note": ""
  },
  {
   "property": "C11",
   "status": "proved",
   "theorems": [
    "C11_surrogate_escape_aborts"
   ],
   "note": "The abort is a panic in the code; the theorem characterises exactly when it happens."
  },
  {
   "property": "C12",
   "status": "proved",
   "theorems": [
    "C12_registered_name",
    "C12_unregistered_name"
   ],
   "note": ""
  },
  {
   "property": "C13",
   "status": "proved",
   "theorems": [
    "C13_malformed_escape"
   ],
   "note": ""
  },
  {
   "property": "C14",
   "status": "proved",
   "theorems": [
    "C14_tables"
   ],
   "note": ""
  },
  {
   "property": "C15",
   "status": "proved",
   "theorems": [
    "C15_lossless",
    "C15_lossless_tokenize"
   ],
   "note": ""
  },
  {
   "property": "C16",
   "status": "proved",
   "theorems": [
    "C16_character_range",
    "C16_character_range_tokenize",
    "C16_spans",
    "C16_spans_tokenize",
    "C16_contiguous"
   ],
   "note": ""
  },
  {
   "property": "C17",
   "status": "proved",
   "theorems": [
    "C17_total",
    "C17_total_requests"
   ],
   "note": ""
  },
  {
   "property": "C18",
   "status": "proved",
   "theorems": [
    "C18_peek_repeatable"
   ],
   "note": ""
  },
  {
   "property": "C19",
   "status": "proved",
   "theorems": [
    "C19_comments_nest"
   ],
   "note": ""
  },
  {
   "property": "C20",
   "status": "proved",
   "theorems": [
    "C20_string_end"
   ],
   "note": ""
  },
  {
   "property": "C21",
   "status": "proved",
   "theorems": [
    "C21_integer"
   ],
   "note": ""
  },
  {
   "property": "C22",
   "status": "proved",
   "theorems": [
    "C22_classification",
    "C22_ids",
    "C22_distinct"
   ],
   "note": ""
  },
  {
   "property": "C23",
   "status": "proved",
   "theorems": [
    "C23_call_operators",
    "C23_openers",
    "C23_closer_of_opener",
    "C23_closers_distinct",
    "C23_closers_complete",
    "C23_parselets"
   ],
   "note": ""
  },
  {
   "property": "C24",
   "status": "proved",
   "theorems": [
    "C24_kind_symbol_kind",
    "C24_symbol_kind_symbol"
   ],
   "note": ""
  },
  {
   "property": "C25",
   "status": "proved",
   "theorems": [
    "C25_first_line"
   ],
   "note": ""
  },
  {
   "property": "C26",
   "status": "proved",
   "theorems": [
    "C26_lossless",
    "C26_lines",
    "C26_unique"
   ],
   "note": ""
  },
  {
   "property": "C27",
   "status": "proved",
   "theorems": [
    "C27_grouped",
    "C27_unique"
   ],
   "note": ""
  },
  {
   "property": "C28",
   "status": "proved",
   "theorems": [
    "C28_terminated",
    "C28_malformed",
    "C28_cut",
    "C28_last",
    "C28_cut_unique",
    "C28_prefix",
    "C28_one_line",
    "C28_character_index_refuted"
   ],
   "note": "Which lines start a statement and where the text is cut: statement_line and cut in SpecReparse.v. C28_character_index_refuted is the abort with character positions."
  },
  {
   "property": "C29",
   "status": "proved",
   "theorems": [
    "C29_lossless",
    "C29_tokens"
   ],
   "note": "Before the repair of unterminated groups, as the property says: theorems take the parser with the repair switched off (keep)."
  },
  {
   "property": "C30",
   "status": "proved",
   "theorems": [
    "C30_quiescent",
    "C30_one_node"
   ],
   "note": ""
  },
  {
   "property": "C31",
   "status": "proved",
   "theorems": [
    "C31_terminates",
    "C31_total",
    "C31_total_with_assertions_refuted"
   ],
   "note": "Any repair of unterminated groups that does not itself abort. The property is false with debug assertions on: C31_total_with_assertions_refuted (\\[InvisibleComma])."
  },
  {
   "property": "C32",
   "status": "proved",
   "theorems": [
    "C32_precedence_comparison",
    "C32_one_associativity_per_level"
   ],
   "note": ""
  },
  {
   "property": "C33",
   "status": "proved",
   "theorems": [
    "C33_shapes"
   ],
   "note": "The shape is node_ok in SpecParser.v, for the parser with the repair of unterminated groups switched off."
  },
  {
   "property": "C34",
   "status": "proved",
   "theorems": [
    "C34_brackets_match",
    "C34_missing_closers"
   ],
   "note": ""
  },
  {
   "property": "C35",
   "status": "proved",
   "theorems": [
    "C35_aggregate_keeps_the_tokens",
    "C35_aggregate_keeps_the_shape",
    "C35_trimmed_is_one_tree",
    "C35_aggregate_drops_only_trivia",
    "C35_aggregate_is_defined_when_heads_are_single",
    "C35_parsed_trees_aggregate"
   ],
   "note": ""
  },
  {
   "property": "C36",
   "status": "proved",
   "theorems": [
    "C36_visit_is_preorder",
    "C36_preorder_is_one_list",
    "C36_map_visit_identity",
    "C36_depth_exists",
    "C36_map_visit_ends_if_never_deeper",
    "C36_map_visit_ends_refuted"
   ],
   "note": ""
  },
  {
   "property": "C37",
   "status": "proved",
   "theorems": [
    "C37_overlaps",
    "C37_overlaps_refuted",
    "C37_overlaps_either",
    "C37_contains",
    "C37_char_intersects",
    "C37_intersection",
    "C37_between"
   ],
   "note": ""
  },
  {
   "property": "C38",
   "status": "proved",
   "theorems": [
    "C38_first_line",
    "C38_encoding",
    "C38_stringify",
    "C38_convention",
    "C38_tag_names",
    "C38_severity_names",
    "C38_unsafe_names",
    "C38_reason",
    "C38_reason_refuted"
   ],
   "note": ""
  },
  {
   "property": "C39",
   "status": "proved",
   "theorems": [
    "C39_antisymmetry_refuted",
    "C39_transitivity_refuted",
    "C39_agree"
   ],
   "note": ""
  },
  {
   "property": "C40",
   "status": "proved",
   "theorems": [
    "C40_operator_symbol_operator",
    "C40_symbol_operator_symbol",
    "C40_operators_distinct"
   ],
   "note": ""
  },
  {
   "property": "C41",
   "status": "proved",
   "theorems": [
    "C41_printed_escape_reads_back",
    "C41_printing_total"
   ],
   "note": ""
  },
  {
   "property": "C42",
   "status": "proved",
   "theorems": [
    "C42_same_tokens",
    "C42_same_lexemes",
    "C42_same_tokens_requests",
    "C42_same_lexemes_requests",
    "C42_suffix"
   ],
   "note": ""
  },
  {
   "property": "C43",
   "status": "proved",
   "theorems": [
    "C43_iterator"
   ],
   "note": ""
  },
  {
   "property": "C44",
   "status": "proved",
   "theorems": [
    "C44_source_covers_the_tokens",
    "C44_parsed_trees_have_sources"
   ],
   "note": ""
  },
  {
   "property": "C45",
   "status": "proved",
   "theorems": [
    "C45_right_operands",
    "C45_prefix_operands"
   ],
   "note": ""
  },
  {
   "property": "C46",
   "status": "proved",
   "theorems": [
    "C46_operator",
    "C46_percents",
    "C46_line_break",
    "C46_end"
   ],
   "note": "The operator table and the rule of the longest match are in SpecLex.v; operators followed within four bytes by a backslash (which may be a line continuation or an escape) are left out."
  },
  {
   "property": "C47",
   "status": "proved",
   "theorems": [
    "C47_symbol",
    "C47_dangling_backquote"
   ],
   "note": ""
  },
  {
   "property": "C48",
   "status": "proved",
   "theorems": [
    "C48_number",
    "C48_bad_base",
    "C48_index"
   ],
   "note": "The grammar is number in SpecLex.v, what may follow after_number."
  },
  {
   "property": "C49",
   "status": "proved",
   "theorems": [
    "C49_named_character"
   ],
   "note": ""
  },
  {
   "property": "C50",
   "status": "proved",
   "theorems": [
    "C50_file",
    "C50_open_brackets",
    "C50_no_file",
    "C50_file_blank",
    "C50_file_line_break",
    "C50_tag",
    "C50_no_tag",
    "C50_quoted"
   ],
   "note": ""
  },
  {
   "property": "C51",
   "status": "proved",
   "theorems": [
    "C51_between_covers",
    "C51_from_first",
    "C51_from_second",
    "C51_total_refuted"
   ],
   "note": ""
  },
  {
   "property": "C52",
   "status": "proved",
   "theorems": [
    "C52_terminates",
    "C52_total",
    "C52_total_refuted",
    "C52_assertions_refuted"
   ],
   "note": ""
  },
  {
   "property": "C53",
   "status": "proved",
   "theorems": [
    "C53_layout",
    "C53_shift"
   ],
   "note": "forget and shift are in SpecMove.v; the parser has the repair of unterminated groups switched off (keep)."
  },
  {
   "property": "C54",
   "status": "proved",
   "theorems": [
    "C54_nested",
    "C54_source"
   ],
   "note": "within, nested, inside and placed are in SpecPlace.v; the parser has the repair of unterminated groups switched off (keep)."
  },
  {
   "property": "C55",
   "status": "proved",
   "theorems": [
    "C55_kept",
    "C55_kept_refuted"
   ],
   "note": "token_items, ast_items and the exceptions (keeps_names) are in SpecItems.v; the parser has the repair of unterminated groups switched off (keep)."
  },
  {
   "property": "C56",
   "status": "proved",
   "theorems": [
    "C56_value",
    "C56_one_value",
    "C56_quirks",
    "C56_own_head_refuted"
   ],
   "note": "worlds, means and denotes are in SpecValue.v. Formatting a string in quotes (done by wolfram-expr) is a parameter, taken to put bare words in quotes. Not given a meaning there: infix tilde chains, file names with characters that are escaped in strings, and trees with errors."
  },
  {
   "property": "C57",
   "status": "proved",
   "theorems": [
    "C57_sequence",
    "C57_node",
    "C57_container",
    "C57_result",
    "C57_ast",
    "C57_parsed_trees_can_be_put",
    "C57_aggregates_can_be_put",
    "C57_aborts"
   ],
   "note": "denotes (what a complete expression on a link is) and the forms are in SpecLink.v. The link itself is taken not to fail; the last part has the repair of unterminated groups switched off (keep)."
  },
  {
   "property": "C58",
   "status": "proved",
   "theorems": [
    "C58_node",
    "C58_told_apart",
    "C58_container",
    "C58_plain_container",
    "C58_parsed_text",
    "C58_aggregated_text",
    "C58_no_memory",
    "C58_newlines_refuted",
    "C58_confidence_refuted",
    "C58_raw_issue_refuted",
    "C58_more_sources_refuted",
    "C58_spanning_refuted"
   ],
   "note": "readable, told, settled (what the kernel makes of nested associations) are in SpecLink.v. Evaluation by the kernel is taken to do nothing else than merge nested associations. The _refuted theorems are the exceptions the property lists; the parts on parsed texts have the repair of unterminated groups switched off (keep)."
  },
  {
   "property": "C59",
   "status": "proved",
   "theorems": [
    "C59_settings",
    "C59_one_meaning",
    "C59_given_back",
    "C59_unknown_setting"
   ],
   "note": "set_to and says are in SpecLink.v."
  },
  {
   "property": "C60",
   "status": "proved",
   "theorems": [
    "C60_left_operands"
   ],
   "note": "left_operand, open_at_end, ends_operand and the exceptions are in SpecParser.v; the parser has the repair of unterminated groups switched off (keep). For the later operands of a chain the case is left out that a newline at top level stands before the operator, because it can end them (C60_newline)."
  },
  {
   "property": "C61",
   "status": "proved",
   "theorems": [
    "C61_issues",
    "C61_issues_refuted"
   ],
   "note": "gives, given and the usual heads are in SpecIssues.v, hidden in SpecItems.v; the parser has the repair of unterminated groups switched off (keep)."
  },
  {
   "property": "C62",
   "status": "proved",
   "theorems": [
    "C62_patched",
    "C62_complete",
    "C62_complete_single",
    "C62_lossless",
    "C62_shapes",
    "C62_total_refuted"
   ],
   "note": "patched and complete are in SpecRepair.v; keep leaves unterminated groups alone."
  },
  {
   "property": "C63",
   "status": "proved",
   "theorems": [
    "C63_debug_assertions",
    "C63_converse_refuted"
   ],
   "note": "For the parser; the debug assertions of abstraction are part of C52."
  },
  {
   "property": "C64",
   "status": "proved",
   "theorems": [
    "C64_same_trees",
    "C64_same_shapes",
    "C64_public_trees",
    "C64_public_shapes",
    "C64_incomplete_refuted"
   ],
   "note": "Of two parses that both return; when a parse returns is C30."
  },
  {
   "property": "C65",
   "status": "proved",
   "theorems": [
    "C65_resume",
    "C65_public_resume"
   ],
   "note": "Of two parses that both return; the public parser on inputs that leave nothing open."
  },
  {
   "property": "C66",
   "status": "proved",
   "theorems": [
    "C66_placeholders",
    "C66_public"
   ],
   "note": "The public parser on inputs that leave nothing open."
  },
  {
   "property": "C67",
   "status": "proved",
   "theorems": [
    "C67_colon_sides",
    "C67_colon_right",
    "C67_colon_left",
    "C67_public"
   ],
   "note": "The public parser on inputs that leave nothing open."
  },
  {
   "property": "C68",
   "status": "proved",
   "theorems": [
    "C68_newlines",
    "C68_brackets",
    "C68_neighbours",
    "C68_separate",
    "C68_public"
   ],
   "note": "The public parser on inputs that leave nothing open."
  },
  {
   "property": "C69",
   "status": "proved",
   "theorems": [
    "C69_parsed",
    "C69_one",
    "C69_returns",
    "C69_unique",
    "C69_brackets",
    "C69_printed",
    "C69_printed_guarded"
   ],
   "note": "expr, proper, spells and shows are in SpecPrint.v. Not expressions of that kind: blanks and patterns with colons, slots, message names, spans, semicolons, tilde chains, file names, integrals, linear syntax. No backslash may follow an operator within four bytes (C46). No line break in front of an operator outside brackets, and no line that begins with a differential operator."
  },
  {
   "property": "C70",
   "status": "proved",
   "theorems": [
    "C70_value",
    "C70_returns",
    "C70_one",
    "C70_printed"
   ],
   "note": "worth is in SpecWorth.v, lawful and denotes in SpecValue.v. The expressions are those of C69; file names, message names, slots and patterns with blanks have values in C56 only. Rust's debug output is taken to put printable ASCII text in quotation marks, as in C56."
  },
  {
   "property": "C71",
   "status": "proved",
   "theorems": [
    "C71_errors",
    "C71_error_free",
    "C71_errors_refuted"
   ],
   "note": "flaws and ast_flaws are in SpecErrors.v. Nodes that only boxes give (groups without an opening bracket, chains of ~) do not occur in parsed text. C71_errors_refuted is the exception, the same as in C61."
  },
  {
   "property": "C72",
   "status": "proved",
   "theorems": [
    "C72_prints",
    "C72_needs",
    "C72_character_positions",
    "C72_tells_trees_apart",
    "C72_quotes_refuted",
    "C72_same_text"
   ],
   "note": "For trees whose unclosed groups are left as parsed (keep), as in C29 and C57; the tool prints them after repair. The text is made in one piece, so output before a panic is not modelled. C72_quotes_refuted is about trees: whether two texts with quotes can print the same is not decided."
  },
  {
   "property": "C73",
   "status": "proved",
   "theorems": [
    "C73_attached",
    "C73_public"
   ],
   "note": "joined, continues and attached are in SpecSlots.v. C73_public is for texts whose brackets are closed. Names and strings have the spellings of SpecLex (C66); a line continuation or a backslash between the two is outside the hypotheses."
  },
  {
   "property": "C74",
   "status": "proved",
   "theorems": [
    "C74_parse",
    "C74_parse_raw"
   ],
   "note": "The counterpart for reading characters is C03, for tokenizing C28_malformed. That the parse answers at all is C31."
  },
  {
   "property": "C75",
   "status": "proved",
   "theorems": [
    "C75_parse",
    "C75_parse_answered",
    "C75_nothing_else_matters",
    "C75_one_meaning",
    "C75_tokenize",
    "C75_tokenize_answered",
    "C75_leaf",
    "C75_leaf_answered",
    "C75_safe_string",
    "C75_token_is_empty",
    "C75_round_trip",
    "C75_failure"
   ],
   "note": "bytes_request, leaf_request, report_form and sound_texts are in SpecRequests.v. The texts, confidence and actions of issues and the order in which sets of places are gone through are parameters (Requests.v, texts). The _answered theorems are for release builds of codeparser-wll and for release builds of the parser; C75_parse_answered needs closed brackets, C75_leaf_answered well-formed bytes. The functions that read files, make sessions, and Abstract are not modelled."
  },
  {
   "property": "C76",
   "status": "proved",
   "theorems": [
    "C76_character",
    "C76_escaped",
    "C76_in_code",
    "C76_no_other"
   ],
   "note": "unexpected, reported_as, spells and issue_about are in SpecSuggestions.v. looks_like is the generated table of the code. Raw text is meant as UTF-8 (as_itself). A carriage return is outside C76_character: it has an issue of its own. C76_in_code is about the function that reports, at any character that was read; which tokens call it is in Tokenizer.v."
  },
  {
   "property": "C77",
   "status": "proved",
   "theorems": [
    "C77_reported",
    "C77_silent",
    "C77_offered",
    "C77_distance",
    "C77_nearest",
    "C77_unclosed"
   ],
   "note": "edits, nearest, helps and silent are in SpecSpelling.v. The crate edit_distance is not in the repository: it is taken to compute the Levenshtein distance of the characters, as documented. Names behind two backslashes (UnrecognizedLongName) are in C77_nearest only, not in C77_reported. That nothing at all is recorded is proved (C77_silent) for the end of the text and for numbers, not in front of malformed text, which has issues of its own. C77_offered is about the issues as built (bad_escape), and C77_reported says that one of these is recorded; the reader keeps tag, severity and place of it. A byte order mark behind the backslash counts as malformed text here. The log may already be full or hold the issue, hence addIssue_log."
  },
  {
   "property": "C78",
   "status": "proved",
   "theorems": [
    "C78_crowded",
    "C78_apart",
    "C78_end",
    "C78_split",
    "C78_unasked",
    "C78_message"
   ],
   "note": "OPERATORS, CROWDS, kept and carried_out are in SpecSpacing.v. The reader keeps tag, severity and place of an issue; the whole issue is built in Spacing.v and tied to it by kept. The character behind the operator is printable ASCII other than a backslash; escapes, line ends and other characters are not covered. C78_split is about an operator with two such characters behind it. The issues about spaces and signs in numbers are not built."
  }
 ]
}