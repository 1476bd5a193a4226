# Formal model of WolframResearch/codeparser (crate `wolfram-parser`)

Source: `/repo/crates/wolfram-parser/src` (read as text only, unchanged). Prover: Coq 8.16.1.
Everything is under `rocq/theories`, logical name `Verif`.

## Approach

The code is a pipeline: bytes -> source characters (`read/byte_decoder.rs`) -> Wolfram
characters (`read/character_decoder.rs`) -> tokens (`tokenize/tokenizer.rs`) -> concrete
syntax (`parse.rs`, `parse/parselet*`, `parse_cst.rs`) -> repair of unterminated text
(`error.rs`) -> aggregation (`agg.rs` and the first part of `abstract_cst.rs`) -> abstract
syntax (`abstract_cst.rs`, `abstract_call_node.rs`). Each layer is a set of total Gallina
functions, one per Rust function:

* `&mut self` becomes a state passed through a state+error monad
  `M A := st -> res (A * st)`; `res` is `Ok | Panic | OutOfFuel`. Every Rust panic path
  (`unwrap`, `assert!`, `panic!`, `todo!`, slice out of range, `NonZero` at zero) that the
  modelled code can reach is an explicit `Panic`. `debug_assert!` is a panic when the flag
  `dbg` (`a_dbg` in the abstraction) is on; theorems quantify over it.
* Unbounded loops are fuel recursions which return `OutOfFuel`, never a silent default.
  The theorems that claim termination exclude `OutOfFuel` for the fuel the entry point
  computes from the size of its argument.
* A buffer pointer + offset becomes the list of remaining bytes. Seeking back to a mark
  restores the remembered list.
* Bytes, code points, token kinds, operators, precedences, columns are `Z`. A `CodePoint` is
  encoded as in `CodePoint::as_i32` (specials negative).
* The parser is a continuation machine in the code (parselets push contexts and call each
  other through function pointers). In the model there is one fuel-indexed function per
  parselet action and the pushed continuations are constructors of a data type.
* Tables (long names, token kinds, precedences, parselet maps, operator symbols) are
  generated from the Rust text by `tools/gen_tables.py` into `Gen*.v`, in source order.

## Layout

| file | content |
|---|---|
| `Gen*.v` | generated tables |
| `Base.v` | results, list helpers |
| `Source.v`, `Ranges.v`, `BoxPosition.v` | locations, spans, policies, options, reader state (`source.rs`, `read.rs`) |
| `ByteDecoder.v`, `CharDecoder.v`, `WLChar.v`, `LongNames.v`, `Iter.v`, `Format.v` | reader layer, iterators, printing of characters |
| `TokenKind.v`, `Tokenizer.v` | token layer |
| `Parselets.v`, `Parser.v` | parser layer |
| `Cst.v` | concrete syntax trees: tokens, sources, visitors, aggregation |
| `ErrorReparse.v`, `Utils.v` | repair of unterminated tokens and groups, list utilities, option codes, issue order |
| `Ast.v`, `Abstract.v` | abstract syntax trees and the abstraction |
| `Spec*.v` | small independent specifications used in statements (see the table below) |
| `Props*.v` | the property theorems only, each followed by `Print Assumptions` and examples |
| `Conform*.v` | the code's own tests, as examples about the model |
| all other files | lemmas: `Decode`, `TextProofs`, `ReaderProofs`, `WlDecode`, `Logic` (reader), `TokLogic`, `TokenizerProofs`, `TokenLoop`, `TokSim`, `TokAgree`, `TokSpecs`, `TokResults`, `Lex*` (tokenizer), `Parser*` (parser), `CstProofs`, `Reparse*`, `Abstract*` |

## Per-property plan

| id | modelled | specification | proof |
|---|---|---|---|
| C01, C02, C03, C04 | byte buffer + byte decoder, `safe_string` | `SpecText`: UTF-8 encoder written from the Unicode definition | every step leaves a strict suffix; encode/decode round trip by arithmetic on the byte ranges, inversion of each step for the converse |
| C05, C06 | `Location`/`SourceManager` updates | `SpecText`: position computed from the text | invariant over reader steps |
| C07 | peek = mark; next; seek | the state itself | position projection; determinism independent of the log |
| C08 | `add_issue` | list without repetitions, at most ten fatal | induction over the reports |
| C09, C10, C11, C12, C13 | character decoder | `SpecReader`: grammar of escapes | `WlDecode`: a pure function equal to the decoder; symbolic execution for all digits; table lookup |
| C14 | tables + std binary search | list membership | computation on finite tables + general binary search theorem |
| C15, C16, C17, C18, C43 | whole tokenizer | `SpecTokenizer`: what a token sequence has to do with the input | compositional triples: every handler moves along source characters and cannot panic; fuel by remaining length |
| C19, C20, C21 | comment, string, number handlers | recursive definitions of nesting, escaping, digits | refinement |
| C22, C23, C24, C32, C38, C40 | enums, tables, `Precedence::greater` | published lists written out | exhaustive computation lifted by `forallb_forall`; arithmetic |
| C25 | `handle_first_line` | decision rule over the first tokens | refinement over token runs |
| C26, C27 | `utils.rs` | concatenation and a predicate on neighbours | induction on lists, with uniqueness |
| C28 | `error.rs` on tokens | `SpecReparse`: which line starts a statement, where the text is cut | `ReparseProofs`, `ReparseTheorems`; witness for the abort |
| C29, C30, C31, C33, C34, C45, C60 | parser session, contexts, node stack, group stack, all parselets | `SpecParse`, `SpecParser`: the shapes of nodes, what opens and closes, precedences | one invariant for all procedures, by induction on fuel; fuel by tokens left and stack |
| C35, C36, C44 | aggregation, visitors, sources | `SpecCst`: token list, preorder, trimmed trees | structural induction |
| C37, C39 | span operations, `Issue` order | positions as sets | arithmetic; the symmetric / lawful claims are false of the code: refutation + corrected theorem |
| C41 | `Display` of characters | reading back | case analysis over the ranges of code points |
| C42 | options | equality of tokens of two runs | simulation between two runs (`TokSim`) |
| C46, C47, C48, C49, C50 | tokenizer | `SpecLex`, `SpecFiles`: operator table, grammar of names, numbers, tags, file names | refinement to the grammar |
| C51 | box positions | `SpecBox`: covered paths | arithmetic; refutation of totality |
| C52 | abstraction, `parse_ast_seq` | `SpecAbstract`: the list of trees that make it give up | induction on the size of the tree, each case of `abstract_node`; witnesses for the list |
| C53 | abstraction | `SpecMove`: forgetting and moving positions | commutation with a change of positions, for every function of the abstraction |
| C54 | abstraction | `SpecPlace`: nested sources, the source of a node | invariant of every function of the abstraction |
| C55 | abstraction | `SpecItems`: names, strings and numbers of both kinds of tree | counting invariant of every function; witnesses for the exceptions |
| C56 | abstraction | `SpecValue`: worlds, the value of a concrete tree (`means`) and of an abstract one (`denotes`) | refinement: every function of the abstraction keeps the value; a lawful world over the integers; witnesses for the exceptions |
| C57 | link to the kernel (`Link`) | `SpecLink`: what is on a link, the forms of trees, issues, containers, results | a writer with a schedule of abort answers; one-expression invariant of every `put` by induction on trees; totality on the trees of the parser from their shapes and the order of their tokens |
| C58 | reading expressions (`Link`) | `SpecLink`: `readable`, `told`, `settled` | `node_read` by induction on trees from the forms of C57; metadata as a list of fields; positions of parsed tokens bounded by the length of the text (`LinkPlaces`) |
| C59 | `quirks_of` (`Link`) | `SpecLink`: `set_to`, `says` | induction on the rules |
| C60 | expression parser | `SpecParser`: `left_operand`, `open_at_end`, `ends_operand` | invariant of the parsing contexts, with the precedence of the innermost operator; exceptions stated with witnesses |
| C61 | abstraction, issues of call heads | `SpecIssues`: `gives`, `usual`, `complaint` | weights of issues kept by every step of abstraction, as for C55; then the computed issues are the specified ones |
| C62 | `parse_cst_seq`, `parse_cst` (`ErrorReparse`) | `SpecRepair`: `patched`, `complete` | two runs side by side, with and without repair: one lemma per construct of the parser (`ParserRepair`, section `Walk`), for any relation between runs the basic operations preserve; instantiated with stacks that differ in repaired groups, and with equal stacks while no closer is missing |
| C63 | parser with `dbg` | none needed | the same lemma, for equal results |
| C64 | parser and repair | `SpecAgree`: `alike`; `same_places`, `same_lexeme` | two runs with different options side by side (`ParserAgree`): tokens of both have equal kind and text (C42's simulation), so every branch is the same |
| C65 | `parse_loop` | `alike`, `all_tokens` | the run on the rest is related to the second half of the run on the whole; the split of the loop uses the text lemma of C29 |
| C66 | expression parser | `SpecGaps`: `PLACEHOLDERS`, `seat`, `placeholders_ok` | invariant of the stack frames (`ParserGaps`): what the children of the node under construction may be |
| C67 | `ColonParselet` and contexts | `SpecGaps`: `colon_sides`, `colon_right`, `colon_left`, `exposed` | the same invariant: below a context that is naming a pattern no colon is exposed; finished operands that a colon meets have no open right end (from C60) |
| C68 | expression parser, tokenizer | `SpecLines`: `breaks`, `may_break`, `brackets_ok`, `beside`, `separate` | invariant of the stack frames (`ParserLines`): between which children lines have ended so far, and after which finished operands nothing can go on; the tokenizer makes no end of line inside brackets (`TokKinds`) |
| C69 | expression parser, tokenizer | `SpecPrint`: `expr`, `proper`, `spells`, `shows`, `guarded`, `proper_program` | simulation of the parser on spelled text (`ParserPrint`): one claim per form of expression, by induction on expressions, in continuation form (after the operand, the climbing loop goes on with the rest); precedences and bracket depth from finite tables; consequences in `PrintResults` |
| C70 | expression parser, aggregation, abstraction | `SpecWorth`: `worth`, with `SpecPrint` and `SpecValue` | the tree that shows an expression is aggregated to one with exactly its children (`agg_plain`), which has the value of the expression (`worth_means`, induction on expressions); then C56 and C69; no node of it is one at which abstraction gives up (`all_settled`, C52) |
| C71 | abstraction | `SpecErrors`: `flaws`, `ast_flaws` | along C55 and C61: any weight on errors is kept by every function of abstraction (`AbstractErrors`, `k_node`), by the shapes of nodes (`fits`), operators never being error tokens (all kinds); equal counts make a permutation |
| C72 | printing (`FmtExpr`) | `SpecFmt`: `shown`, `unquoted`, `counted` | totality: as for C57, by the shapes of parsed trees (`FmtTotal`); telling apart: printed forms are a prefix code, by induction on trees (`FmtProofs`, `trees_unique`), symbols found again by table |
| C73 | parser and reader, as in C29 | `SpecSlots`: `joined`, `continues`, `attached`, `heads` | a Hoare logic over the parselets with the invariant that every token of every tree so far is accounted for (`ParserSlots`, `fine`); the text behind a token from the tiling of C29 |
| C74 | parser and reader, as in C29 | `SpecReader`: `well_formed_no_bom` | the last thing a parse does is to look at the end of the text, so all characters have been read by then (`ParserFlag`) |
| C75 | `Requests`: arguments as lists, the entry points of `codeparser-wll/src/lib.rs`, `parse_to_token` | `SpecRequests`: `bytes_request`, `leaf_request`, `report_form`; the forms of `SpecLink` | inversion of the reading of arguments; C57 for the forms, C74 for the choice between tree and reason; `total` for what is put (`RequestsProofs`) |
| C76 | `Suggestions`: issues with their texts, confidence and code actions, for unexpected and non-ASCII characters | `SpecSuggestions`: `unexpected`, `reported_as`, `spells`, `issue_about` | a finite check of the tables for names and replacements, the reader lemmas of C09 for names and digits (`SuggestionsProofs`); inversion of the reader for escapes (`SuggestionsEscapes`) |
| C77 | `Spelling`: issues with their texts and code actions for backslashes that begin no escape, edit distance by rows, the first nearest name | `SpecSpelling`: `edits`, `nearest`, `helps`, `about_escape`, `silent` | induction for the distance; a finite check of the names; inversion of the reader, each step reachable (`SpellingReader`) |
| C78 | `Spacing`: the issues about crowded operators with their texts and code actions | `SpecSpacing`: `OPERATORS`, `CROWDS`, `kept`, `carried_out` | the tokenizer run symbolically on the operator and the character behind it |

Properties that turn out false of the faithful model are kept in view: the property file
has a `_refuted` theorem with a concrete witness plus the strongest corrected theorem.

The parser theorems are about `parse_cst_raw` with a parameter for the repair of unterminated
groups (`error.rs`, groups only). `keep` leaves such groups as they are; C31 holds for any
repair that does not itself abort. C29, C33, C34, C35, C44, C45, C52-C55, C60 and C61 are stated for
`keep`, because the repair of the code changes the tree in ways that make them false (it
cuts text off the end, `{` followed by several lines). C62 carries them over to the public
functions for complete input, and says what the repair may change otherwise.

## Trusted base

* Coq's kernel, including `vm_compute`.
* No axioms: `Print Assumptions` answers "Closed under the global context" for every property
  theorem (list at the end of this file). `vcheck` lists seven constants of
  `Coq.ssr.ssrunder` as library axioms; they are fields of a module type in Coq's own
  library, loaded with it, and no theorem depends on them.
* The reading of Rust into Gallina (comments cite file and lines), including
  `tools/gen_tables.py` for tables.
* The specifications in `Spec*.v` say what the English says.

## The model against the code's own tests

The code cannot be run here, but its tests say what it does. `tools/conformance` reads them and
writes two files of examples, checked in the build:

* `ConformRust.v`: 256 assertions of the Rust tests (tokens, concrete trees, sources, aggregated and
  abstract trees), all true of the model. Assertions the script cannot read (issues, steps of the
  tokenizer, FFI codes) are left out.
* `ConformWl.v`: tests of the Wolfram Language package with a string as input and the whole result
  spelled out, compared with what the model puts on the link. Left out: results changed by the
  Wolfram Language part of the package (definitions, packages, commas at top level) and results that
  contain a string printed by the `wolfram-expr` crate, which is a parameter of the model.

## Modelled

`read/*.rs`, `read.rs`, `source.rs` (locations, spans, positions, box positions, ranges,
characters), `issue.rs` (recording, order, names), `long_names.rs`, `symbol.rs` and the tables,
`tokenize/*.rs`, `precedence.rs`, `parse.rs`, `parse_cst.rs`, `parse/*.rs` and all parselets,
`cst.rs`, `cst/visit.rs`, `agg.rs`, `error.rs`, `utils.rs`, `quirks.rs`, `iter.rs`, `ast.rs`,
`abstract_cst.rs`, `abstract_call_node.rs`, `fmt_as_expr.rs`, the entry points of `lib.rs`; of the crate
`codeparser-wll`: `convert_wstp.rs` (putting on a link) `from_expr.rs` (reading expressions)
and the entry points of `lib.rs` that take bytes.

## Not modelled / simplified (general)

* `u32`/`usize` overflow: numbers are unbounded. Recursion depth (stack overflow) likewise.
* Message texts and code actions of issues: an issue is (tag, severity, span, more spans). Only those of
  unexpected and non-ASCII characters (`Suggestions.v`, C76), of broken escapes (`Spelling.v`, C77) and of crowded operators (`Spacing.v`, C78) are modelled.
* The crate `edit_distance`, which is not in the repository, is modelled by what it is documented to compute.
* Allocation, references/lifetimes, FFI, of the LibraryLink entry points those that read files, make sessions, and
  `Abstract`; `convert_expr.rs` (behind a feature that is off), errors of the link itself, `Diagnostics.rs` (counters),
  `bin/main.rs`, macros for tests.
* Nodes that only box input makes (`TokenInput` other than text, box nodes, code nodes) are
  in the types and the abstraction has their cases, but the parser from text never makes them.
* `char::is_alphanumeric` on non-ASCII: an arbitrary predicate, part of the options; all
  theorems hold for every choice.
* Non-default cargo features `FAST_STRING_SCAN`, `CHECK_ABORT` are off, `COMPUTE_SOURCE` is on.
  Whether issues are checked and out-of-band data computed are options of the model.

## Property theorems and their assumptions

<!-- generated below by tools/design_tail.py -->

| property | theorem | `Print Assumptions` |
|---|---|---|
| C01 | `C01_source_chars_lossless` | Closed under the global context |
| C02 | `C02_source_chars_scalars` | Closed under the global context |
| C03 | `C03_unsafe_flag_iff_malformed` | Closed under the global context |
| C04 | `C04_safe_string` | Closed under the global context |
| C05 | `C05_position_of_text` | Closed under the global context |
| C06 | `C06_position_advances` | Closed under the global context |
| C07 | `C07_peek_source` | Closed under the global context |
| C07 | `C07_peek_wolfram` | Closed under the global context |
| C08 | `C08_issues_recorded` | Closed under the global context |
| C09 | `C09_wolfram_chars_lossless` | Closed under the global context |
| C10 | `C10_hex2` | Closed under the global context |
| C10 | `C10_hex4` | Closed under the global context |
| C10 | `C10_hex6` | Closed under the global context |
| C10 | `C10_octal` | Closed under the global context |
| C10 | `C10_every_escape` | Closed under the global context |
| C11 | `C11_surrogate_escape_aborts` | Closed under the global context |
| C12 | `C12_registered_name` | Closed under the global context |
| C12 | `C12_unregistered_name` | Closed under the global context |
| C13 | `C13_malformed_escape` | Closed under the global context |
| C14 | `C14_tables` | Closed under the global context |
| C15 | `C15_lossless` | Closed under the global context |
| C15 | `C15_lossless_tokenize` | Closed under the global context |
| C16 | `C16_character_range` | Closed under the global context |
| C16 | `C16_character_range_tokenize` | Closed under the global context |
| C16 | `C16_spans` | Closed under the global context |
| C16 | `C16_spans_tokenize` | Closed under the global context |
| C16 | `C16_contiguous` | Closed under the global context |
| C17 | `C17_total` | Closed under the global context |
| C17 | `C17_total_requests` | Closed under the global context |
| C18 | `C18_peek_repeatable` | Closed under the global context |
| C19 | `C19_comments_nest` | Closed under the global context |
| C20 | `C20_string_end` | Closed under the global context |
| C21 | `C21_integer` | Closed under the global context |
| C22 | `C22_classification` | Closed under the global context |
| C22 | `C22_ids` | Closed under the global context |
| C22 | `C22_distinct` | Closed under the global context |
| C23 | `C23_call_operators` | Closed under the global context |
| C23 | `C23_openers` | Closed under the global context |
| C23 | `C23_closer_of_opener` | Closed under the global context |
| C23 | `C23_closers_distinct` | Closed under the global context |
| C23 | `C23_closers_complete` | Closed under the global context |
| C23 | `C23_parselets` | Closed under the global context |
| C24 | `C24_kind_symbol_kind` | Closed under the global context |
| C24 | `C24_symbol_kind_symbol` | Closed under the global context |
| C25 | `C25_first_line` | Closed under the global context |
| C26 | `C26_lossless` | Closed under the global context |
| C26 | `C26_lines` | Closed under the global context |
| C26 | `C26_unique` | Closed under the global context |
| C27 | `C27_grouped` | Closed under the global context |
| C27 | `C27_unique` | Closed under the global context |
| C28 | `C28_terminated` | Closed under the global context |
| C28 | `C28_malformed` | Closed under the global context |
| C28 | `C28_cut` | Closed under the global context |
| C28 | `C28_last` | Closed under the global context |
| C28 | `C28_cut_unique` | Closed under the global context |
| C28 | `C28_prefix` | Closed under the global context |
| C28 | `C28_one_line` | Closed under the global context |
| C28 | `C28_character_index_refuted` | Closed under the global context |
| C29 | `C29_lossless` | Closed under the global context |
| C29 | `C29_tokens` | Closed under the global context |
| C30 | `C30_quiescent` | Closed under the global context |
| C30 | `C30_one_node` | Closed under the global context |
| C31 | `C31_terminates` | Closed under the global context |
| C31 | `C31_total` | Closed under the global context |
| C31 | `C31_total_with_assertions_refuted` | Closed under the global context |
| C32 | `C32_precedence_comparison` | Closed under the global context |
| C32 | `C32_one_associativity_per_level` | Closed under the global context |
| C33 | `C33_shapes` | Closed under the global context |
| C34 | `C34_brackets_match` | Closed under the global context |
| C34 | `C34_missing_closers` | Closed under the global context |
| C35 | `C35_aggregate_keeps_the_tokens` | Closed under the global context |
| C35 | `C35_aggregate_keeps_the_shape` | Closed under the global context |
| C35 | `C35_trimmed_is_one_tree` | Closed under the global context |
| C35 | `C35_aggregate_drops_only_trivia` | Closed under the global context |
| C35 | `C35_aggregate_is_defined_when_heads_are_single` | Closed under the global context |
| C35 | `C35_parsed_trees_aggregate` | Closed under the global context |
| C36 | `C36_visit_is_preorder` | Closed under the global context |
| C36 | `C36_preorder_is_one_list` | Closed under the global context |
| C36 | `C36_map_visit_identity` | Closed under the global context |
| C36 | `C36_depth_exists` | Closed under the global context |
| C36 | `C36_map_visit_ends_if_never_deeper` | Closed under the global context |
| C36 | `C36_map_visit_ends_refuted` | Closed under the global context |
| C37 | `C37_overlaps` | Closed under the global context |
| C37 | `C37_overlaps_refuted` | Closed under the global context |
| C37 | `C37_overlaps_either` | Closed under the global context |
| C37 | `C37_contains` | Closed under the global context |
| C37 | `C37_char_intersects` | Closed under the global context |
| C37 | `C37_intersection` | Closed under the global context |
| C37 | `C37_between` | Closed under the global context |
| C38 | `C38_first_line` | Closed under the global context |
| C38 | `C38_encoding` | Closed under the global context |
| C38 | `C38_stringify` | Closed under the global context |
| C38 | `C38_convention` | Closed under the global context |
| C38 | `C38_tag_names` | Closed under the global context |
| C38 | `C38_severity_names` | Closed under the global context |
| C38 | `C38_unsafe_names` | Closed under the global context |
| C38 | `C38_reason` | Closed under the global context |
| C38 | `C38_reason_refuted` | Closed under the global context |
| C39 | `C39_antisymmetry_refuted` | Closed under the global context |
| C39 | `C39_transitivity_refuted` | Closed under the global context |
| C39 | `C39_agree` | Closed under the global context |
| C40 | `C40_operator_symbol_operator` | Closed under the global context |
| C40 | `C40_symbol_operator_symbol` | Closed under the global context |
| C40 | `C40_operators_distinct` | Closed under the global context |
| C41 | `C41_printed_escape_reads_back` | Closed under the global context |
| C41 | `C41_printing_total` | Closed under the global context |
| C42 | `C42_same_tokens` | Closed under the global context |
| C42 | `C42_same_lexemes` | Closed under the global context |
| C42 | `C42_same_tokens_requests` | Closed under the global context |
| C42 | `C42_same_lexemes_requests` | Closed under the global context |
| C42 | `C42_suffix` | Closed under the global context |
| C43 | `C43_iterator` | Closed under the global context |
| C44 | `C44_source_covers_the_tokens` | Closed under the global context |
| C44 | `C44_parsed_trees_have_sources` | Closed under the global context |
| C45 | `C45_right_operands` | Closed under the global context |
| C45 | `C45_prefix_operands` | Closed under the global context |
| C46 | `C46_operator` | Closed under the global context |
| C46 | `C46_percents` | Closed under the global context |
| C46 | `C46_line_break` | Closed under the global context |
| C46 | `C46_end` | Closed under the global context |
| C47 | `C47_symbol` | Closed under the global context |
| C47 | `C47_dangling_backquote` | Closed under the global context |
| C48 | `C48_number` | Closed under the global context |
| C48 | `C48_bad_base` | Closed under the global context |
| C48 | `C48_index` | Closed under the global context |
| C49 | `C49_named_character` | Closed under the global context |
| C50 | `C50_file` | Closed under the global context |
| C50 | `C50_open_brackets` | Closed under the global context |
| C50 | `C50_no_file` | Closed under the global context |
| C50 | `C50_file_blank` | Closed under the global context |
| C50 | `C50_file_line_break` | Closed under the global context |
| C50 | `C50_tag` | Closed under the global context |
| C50 | `C50_no_tag` | Closed under the global context |
| C50 | `C50_quoted` | Closed under the global context |
| C51 | `C51_between_covers` | Closed under the global context |
| C51 | `C51_from_first` | Closed under the global context |
| C51 | `C51_from_second` | Closed under the global context |
| C51 | `C51_total_refuted` | Closed under the global context |
| C52 | `C52_terminates` | Closed under the global context |
| C52 | `C52_total` | Closed under the global context |
| C52 | `C52_total_refuted` | Closed under the global context |
| C52 | `C52_assertions_refuted` | Closed under the global context |
| C53 | `C53_layout` | Closed under the global context |
| C53 | `C53_shift` | Closed under the global context |
| C54 | `C54_nested` | Closed under the global context |
| C54 | `C54_source` | Closed under the global context |
| C55 | `C55_kept` | Closed under the global context |
| C55 | `C55_kept_refuted` | Closed under the global context |
| C56 | `C56_value` | Closed under the global context |
| C56 | `C56_one_value` | Closed under the global context |
| C56 | `C56_quirks` | Closed under the global context |
| C56 | `C56_own_head_refuted` | Closed under the global context |
| C57 | `C57_sequence` | Closed under the global context |
| C57 | `C57_node` | Closed under the global context |
| C57 | `C57_container` | Closed under the global context |
| C57 | `C57_result` | Closed under the global context |
| C57 | `C57_ast` | Closed under the global context |
| C57 | `C57_parsed_trees_can_be_put` | Closed under the global context |
| C57 | `C57_aggregates_can_be_put` | Closed under the global context |
| C57 | `C57_aborts` | Closed under the global context |
| C58 | `C58_node` | Closed under the global context |
| C58 | `C58_told_apart` | Closed under the global context |
| C58 | `C58_container` | Closed under the global context |
| C58 | `C58_plain_container` | Closed under the global context |
| C58 | `C58_parsed_text` | Closed under the global context |
| C58 | `C58_aggregated_text` | Closed under the global context |
| C58 | `C58_no_memory` | Closed under the global context |
| C58 | `C58_newlines_refuted` | Closed under the global context |
| C58 | `C58_confidence_refuted` | Closed under the global context |
| C58 | `C58_raw_issue_refuted` | Closed under the global context |
| C58 | `C58_more_sources_refuted` | Closed under the global context |
| C58 | `C58_spanning_refuted` | Closed under the global context |
| C59 | `C59_settings` | Closed under the global context |
| C59 | `C59_one_meaning` | Closed under the global context |
| C59 | `C59_given_back` | Closed under the global context |
| C59 | `C59_unknown_setting` | Closed under the global context |
| C60 | `C60_left_operands` | Closed under the global context |
| C61 | `C61_issues` | Closed under the global context |
| C61 | `C61_issues_refuted` | Closed under the global context |
| C62 | `C62_patched` | Closed under the global context |
| C62 | `C62_complete` | Closed under the global context |
| C62 | `C62_complete_single` | Closed under the global context |
| C62 | `C62_lossless` | Closed under the global context |
| C62 | `C62_shapes` | Closed under the global context |
| C62 | `C62_total_refuted` | Closed under the global context |
| C63 | `C63_debug_assertions` | Closed under the global context |
| C63 | `C63_converse_refuted` | Closed under the global context |
| C64 | `C64_same_trees` | Closed under the global context |
| C64 | `C64_same_shapes` | Closed under the global context |
| C64 | `C64_public_trees` | Closed under the global context |
| C64 | `C64_public_shapes` | Closed under the global context |
| C64 | `C64_incomplete_refuted` | Closed under the global context |
| C65 | `C65_resume` | Closed under the global context |
| C65 | `C65_public_resume` | Closed under the global context |
| C66 | `C66_placeholders` | Closed under the global context |
| C66 | `C66_public` | Closed under the global context |
| C67 | `C67_colon_sides` | Closed under the global context |
| C67 | `C67_colon_right` | Closed under the global context |
| C67 | `C67_colon_left` | Closed under the global context |
| C67 | `C67_public` | Closed under the global context |
| C68 | `C68_newlines` | Closed under the global context |
| C68 | `C68_brackets` | Closed under the global context |
| C68 | `C68_neighbours` | Closed under the global context |
| C68 | `C68_separate` | Closed under the global context |
| C68 | `C68_public` | Closed under the global context |
| C69 | `C69_parsed` | Closed under the global context |
| C69 | `C69_one` | Closed under the global context |
| C69 | `C69_returns` | Closed under the global context |
| C69 | `C69_unique` | Closed under the global context |
| C69 | `C69_brackets` | Closed under the global context |
| C69 | `C69_printed` | Closed under the global context |
| C69 | `C69_printed_guarded` | Closed under the global context |
| C70 | `C70_value` | Closed under the global context |
| C70 | `C70_returns` | Closed under the global context |
| C70 | `C70_one` | Closed under the global context |
| C70 | `C70_printed` | Closed under the global context |
| C71 | `C71_errors` | Closed under the global context |
| C71 | `C71_error_free` | Closed under the global context |
| C71 | `C71_errors_refuted` | Closed under the global context |
| C72 | `C72_prints` | Closed under the global context |
| C72 | `C72_needs` | Closed under the global context |
| C72 | `C72_character_positions` | Closed under the global context |
| C72 | `C72_tells_trees_apart` | Closed under the global context |
| C72 | `C72_quotes_refuted` | Closed under the global context |
| C72 | `C72_same_text` | Closed under the global context |
| C73 | `C73_attached` | Closed under the global context |
| C73 | `C73_public` | Closed under the global context |
| C74 | `C74_parse` | Closed under the global context |
| C74 | `C74_parse_raw` | Closed under the global context |
| C75 | `C75_parse` | Closed under the global context |
| C75 | `C75_parse_answered` | Closed under the global context |
| C75 | `C75_nothing_else_matters` | Closed under the global context |
| C75 | `C75_one_meaning` | Closed under the global context |
| C75 | `C75_tokenize` | Closed under the global context |
| C75 | `C75_tokenize_answered` | Closed under the global context |
| C75 | `C75_leaf` | Closed under the global context |
| C75 | `C75_leaf_answered` | Closed under the global context |
| C75 | `C75_safe_string` | Closed under the global context |
| C75 | `C75_token_is_empty` | Closed under the global context |
| C75 | `C75_round_trip` | Closed under the global context |
| C75 | `C75_failure` | Closed under the global context |
| C76 | `C76_character` | Closed under the global context |
| C76 | `C76_escaped` | Closed under the global context |
| C76 | `C76_in_code` | Closed under the global context |
| C76 | `C76_no_other` | Closed under the global context |
| C77 | `C77_reported` | Closed under the global context |
| C77 | `C77_silent` | Closed under the global context |
| C77 | `C77_offered` | Closed under the global context |
| C77 | `C77_distance` | Closed under the global context |
| C77 | `C77_nearest` | Closed under the global context |
| C77 | `C77_unclosed` | Closed under the global context |
| C78 | `C78_crowded` | Closed under the global context |
| C78 | `C78_apart` | Closed under the global context |
| C78 | `C78_end` | Closed under the global context |
| C78 | `C78_split` | Closed under the global context |
| C78 | `C78_unasked` | Closed under the global context |
| C78 | `C78_message` | Closed under the global context |
