NOTES = {
 "C11": "The abort is a panic in the code; the theorem characterises exactly when it happens.",
 "C28": "Which lines start a statement and where the text is cut: statement_line and cut in SpecReparse.v. C28_character_index_refuted is the abort with character positions.",
 "C29": "Before the repair of unterminated groups, as the property says: theorems take the parser with the repair switched off (keep).",
 "C31": "Any repair of unterminated groups that does not itself abort. The property is false with debug assertions on: C31_total_with_assertions_refuted (\\[InvisibleComma]).",
 "C33": "The shape is node_ok in SpecParser.v, for the parser with the repair of unterminated groups switched off.",
 "C46": "The operator table and the rule of the longest match are in SpecLex.v; operators followed within four bytes by a backslash (which may be a line continuation or an escape) are left out.",
 "C48": "The grammar is number in SpecLex.v, what may follow after_number.",
}
NOTES["C53"] = "forget and shift are in SpecMove.v; the parser has the repair of unterminated groups switched off (keep)."
NOTES["C54"] = "within, nested, inside and placed are in SpecPlace.v; the parser has the repair of unterminated groups switched off (keep)."
NOTES["C55"] = "token_items, ast_items and the exceptions (keeps_names) are in SpecItems.v; the parser has the repair of unterminated groups switched off (keep)."
NOTES["C56"] = "worlds, means and denotes are in SpecValue.v. Formatting a string in quotes (done by wolfram-expr) is a parameter, taken to put bare words in quotes. Not given a meaning there: infix tilde chains, file names with characters that are escaped in strings, and trees with errors."
NOTES["C57"] = "denotes (what a complete expression on a link is) and the forms are in SpecLink.v. The link itself is taken not to fail; the last part has the repair of unterminated groups switched off (keep)."
NOTES["C58"] = "readable, told, settled (what the kernel makes of nested associations) are in SpecLink.v. Evaluation by the kernel is taken to do nothing else than merge nested associations. The _refuted theorems are the exceptions the property lists; the parts on parsed texts have the repair of unterminated groups switched off (keep)."
NOTES["C59"] = "set_to and says are in SpecLink.v."
NOTES["C60"] = "left_operand, open_at_end, ends_operand and the exceptions are in SpecParser.v; the parser has the repair of unterminated groups switched off (keep). For the later operands of a chain the case is left out that a newline at top level stands before the operator, because it can end them (C60_newline)."
NOTES["C61"] = "gives, given and the usual heads are in SpecIssues.v, hidden in SpecItems.v; the parser has the repair of unterminated groups switched off (keep)."
PARTIAL = {}
NOTES["C62"] = "patched and complete are in SpecRepair.v; keep leaves unterminated groups alone."
NOTES["C64"] = "Of two parses that both return; when a parse returns is C30."
NOTES["C65"] = "Of two parses that both return; the public parser on inputs that leave nothing open."
NOTES["C66"] = "The public parser on inputs that leave nothing open."
NOTES["C67"] = "The public parser on inputs that leave nothing open."
NOTES["C63"] = "For the parser; the debug assertions of abstraction are part of C52."
NOTES["C68"] = "The public parser on inputs that leave nothing open."
NOTES["C69"] = "expr, proper, spells and shows are in SpecPrint.v. Not expressions of that kind: blanks and patterns with colons, slots, message names, spans, semicolons, tilde chains, file names, integrals, linear syntax. No backslash may follow an operator within four bytes (C46). No line break in front of an operator outside brackets, and no line that begins with a differential operator."
NOTES["C70"] = "worth is in SpecWorth.v, lawful and denotes in SpecValue.v. The expressions are those of C69; file names, message names, slots and patterns with blanks have values in C56 only. Rust's debug output is taken to put printable ASCII text in quotation marks, as in C56."
NOTES["C71"] = "flaws and ast_flaws are in SpecErrors.v. Nodes that only boxes give (groups without an opening bracket, chains of ~) do not occur in parsed text. C71_errors_refuted is the exception, the same as in C61."
NOTES["C72"] = "For trees whose unclosed groups are left as parsed (keep), as in C29 and C57; the tool prints them after repair. The text is made in one piece, so output before a panic is not modelled. C72_quotes_refuted is about trees: whether two texts with quotes can print the same is not decided."
NOTES["C73"] = "joined, continues and attached are in SpecSlots.v. C73_public is for texts whose brackets are closed. Names and strings have the spellings of SpecLex (C66); a line continuation or a backslash between the two is outside the hypotheses."
NOTES["C74"] = "The counterpart for reading characters is C03, for tokenizing C28_malformed. That the parse answers at all is C31."
NOTES["C75"] = "bytes_request, leaf_request, report_form and sound_texts are in SpecRequests.v. The texts, confidence and actions of issues and the order in which sets of places are gone through are parameters (Requests.v, texts). The _answered theorems are for release builds of codeparser-wll and for release builds of the parser; C75_parse_answered needs closed brackets, C75_leaf_answered well-formed bytes. The functions that read files, make sessions, and Abstract are not modelled."
NOTES["C76"] = "unexpected, reported_as, spells and issue_about are in SpecSuggestions.v. looks_like is the generated table of the code. Raw text is meant as UTF-8 (as_itself). A carriage return is outside C76_character: it has an issue of its own. C76_in_code is about the function that reports, at any character that was read; which tokens call it is in Tokenizer.v."
NOTES["C77"] = "edits, nearest, helps and silent are in SpecSpelling.v. The crate edit_distance is not in the repository: it is taken to compute the Levenshtein distance of the characters, as documented. Names behind two backslashes (UnrecognizedLongName) are in C77_nearest only, not in C77_reported. That nothing at all is recorded is proved (C77_silent) for the end of the text and for numbers, not in front of malformed text, which has issues of its own. C77_offered is about the issues as built (bad_escape), and C77_reported says that one of these is recorded; the reader keeps tag, severity and place of it. A byte order mark behind the backslash counts as malformed text here. The log may already be full or hold the issue, hence addIssue_log."
NOTES["C78"] = "OPERATORS, CROWDS, kept and carried_out are in SpecSpacing.v. The reader keeps tag, severity and place of an issue; the whole issue is built in Spacing.v and tied to it by kept. The character behind the operator is printable ASCII other than a backslash; escapes, line ends and other characters are not covered. C78_split is about an operator with two such characters behind it. The issues about spaces and signs in numbers are not built."
