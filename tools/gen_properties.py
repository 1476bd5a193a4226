#!/usr/bin/env python3
"""Writes properties.jsonl.  One entry per property: keep this file the single source."""
import json, os
S = "crates/wolfram-parser/src/"
P = []
def p(id, title, statement, quantifier, why, *anchors):
    P.append(dict(id=id, title=title, statement=statement, quantifier=quantifier,
                  why_tests_cant=why, anchors=[a if a.startswith("crates/") else S + a for a in anchors]))

# ---------------- reading bytes ----------------
p("C01", "Reading source characters consumes every input byte exactly once",
  "Repeatedly asking a reader for the next source character over any byte sequence terminates, never skips and never re-reads a byte: the pieces of the input consumed by the successive characters, concatenated in order, are the whole input, and every piece is non-empty until end of file is returned, after which end of file is returned for ever.",
  "every byte sequence (valid UTF-8 or not), every tab width > 0, both source conventions",
  "There are infinitely many byte sequences, and the hard ones are malformed sequences truncated at every possible place.",
  "read/byte_decoder.rs ByteDecoder_nextSourceCharacter", "read/byte_buffer.rs", "iter.rs source_chars")
p("C02", "Source characters of well-formed UTF-8 are its Unicode scalar values",
  "For every sequence of Unicode scalar values other than U+FEFF, reading the source characters of its UTF-8 encoding returns exactly these scalars in order, except that each CR LF pair is returned as one CRLF character.",
  "every list of Unicode scalar values without U+FEFF",
  "Needs all code points in all contexts, including every boundary of the UTF-8 length classes.",
  "read/byte_decoder.rs ByteDecoder_nextSourceCharacter", "iter.rs source_chars")
p("C03", "Malformed encodings are always reported and well-formed ones never are",
  "After all source characters have been read, the unsafe-character-encoding flag is unset if and only if the bytes are well-formed UTF-8 with no U+FEFF.",
  "every byte sequence",
  "Requires an if-and-only-if against the Unicode definition over all byte strings.",
  "read/byte_decoder.rs", "read.rs setUnsafeCharacterEncodingFlag", "lib.rs tokenize_bytes")
p("C04", "safe_string returns the input itself or an error",
  "safe_string(bytes) returns Ok exactly when the bytes are well-formed UTF-8 with no U+FEFF, and then the returned string is the input, byte for byte.",
  "every byte sequence",
  "A sample of inputs cannot show that no malformed input is accepted.",
  "lib.rs safe_string", "read/byte_decoder.rs")
p("C05", "Line and column positions are those of the text read so far",
  "After reading any number of source characters the line/column position of the reader equals the position computed from the text already consumed alone: line is 1 plus the number of LF, CR or CRLF line endings in it, and the column is obtained by walking the last line, one per character, tabs advancing to the next tab stop.",
  "every byte sequence, every number of reads, every tab width > 0",
  "Position bugs depend on combinations of tabs, CR, LF, malformed bytes and multi-byte characters in arbitrary order.",
  "read/byte_decoder.rs SourceManager newline windowsNewline tab increment")
p("C06", "Positions never move backwards and advance with every character",
  "Reading one source character that is not end of file moves the position strictly forward in both source conventions; reading end of file leaves it unchanged.",
  "every reader state, both source conventions, every tab width > 0",
  "A monotonicity claim over all states.",
  "read/byte_decoder.rs", "source.rs Location")
p("C07", "Peeking does not disturb what is read next",
  "Peeking at the next source character or Wolfram character any number of times leaves position, offset and end-of-file state as they were, and reading afterwards returns the peeked character.",
  "every reader state and policy",
  "A frame property over all states, with internal backtracking at arbitrary depth.",
  "read.rs peek_source_char peek_wolfram_char mark seek")
p("C08", "Issues are recorded without duplicates and at most ten are fatal",
  "Whatever sequence of issues is reported to a reader, the recorded fatal issues number at most ten, no issue is recorded twice, the recorded issues appear in the order of first report, every recorded issue was reported and every reported non-fatal issue is recorded.",
  "every sequence of reported issues",
  "Histories of reports are unbounded.",
  "read.rs addIssue", "issue.rs Issue")

# ---------------- Wolfram characters ----------------
p("C09", "Reading a Wolfram character is lossless and makes progress",
  "Reading Wolfram characters (with escapes decoded) from any input consumes a non-empty prefix of the remaining bytes at each step until end of file, never skipping or repeating a byte, whatever malformed escapes occur; the characters' source pieces concatenate to the input.",
  "every byte sequence and policy for which the reader does not abort",
  "Malformed escapes backtrack; all interleavings of escapes and malformed bytes are needed.",
  "read/character_decoder.rs CharacterDecoder_nextWLCharacter", "iter.rs wolfram_chars")
p("C10", "Hex and octal escapes decode to the code point they spell",
  "Printing any code point with the 2-, 4- or 6-digit hex or 3-digit octal escape notation and reading it back yields one Wolfram character with that code point and that escape kind, consuming exactly the escape, for every code point the notation can spell that is a Unicode scalar value and is not canonicalised (quote and backslash read as their string-meta forms).",
  "every code point the notation can express, any text following it, upper- or lower-case digits",
  "1.1 million code points times arbitrary continuations.",
  "read/character_decoder.rs CharacterDecoder_handle2Hex handle4Hex handle6Hex handleOctal", "read/wl_character.rs Display")
p("C11", "Surrogate hex escapes abort the process",
  "Reading a 4-digit (or 6-digit) hex escape that spells a surrogate code point D800-DFFF aborts (a panic), in contrast with every other 4-digit escape, which never does.",
  "every 4-digit and 6-digit hex escape followed by any bytes",
  "All 65536 4-digit values in every context; only a proof shows the surrogates are the only failing ones.",
  "read/character_decoder.rs CharacterDecoder_handle4Hex CharacterDecoder_handle6Hex")
p("C12", "Long names decode to their registered code point",
  "For each registered long name, reading its bracketed escape yields one Wolfram character with the registered code point, whatever follows; for each name that is not registered it yields a lone backslash and the reading position is immediately after the backslash.",
  "every name of ASCII letters and digits starting with an upper-case letter, any following bytes",
  "The unregistered names are infinitely many.",
  "read/character_decoder.rs CharacterDecoder_handleLongName", "long_names.rs", "generated/long_names_registration.rs")
p("C13", "A malformed escape reads as a lone backslash",
  "When the characters after a backslash do not form a recognised escape, the result is a backslash character without escape and the next read starts right after the backslash.",
  "every byte sequence after a backslash that is not one of the documented escape forms",
  "The complement of a regular language over all byte strings.",
  "read/character_decoder.rs CharacterDecoder_handleUnhandledEscape CharacterDecoder_handle2Hex")
p("C14", "Long-name tables are searched correctly",
  "The name-to-code-point table is strictly sorted and duplicate free, so binary search finds every registered name; every raw, letter-like, punctuation, whitespace, newline and uninterpretable set is sorted so membership tests agree with list membership.",
  "every string / every code point looked up",
  "Absence of a name cannot be tested for all strings.",
  "long_names.rs", "generated/long_names_registration.rs")

# ---------------- tokens ----------------
p("C15", "Tokenizing is lossless",
  "For any bytes, the texts of the tokens produced one after the other by the tokenizer, including the final end-of-file token, concatenate to exactly the input, and every token before end of file is non-empty.",
  "every byte sequence, every option setting, every mix of toplevel/group contexts",
  "All inputs; each of the roughly one hundred character handlers can drop or repeat bytes in rare branches.",
  "tokenize/tokenizer.rs Tokenizer_nextToken", "lib.rs tokenize_bytes", "iter.rs tokens")
p("C16", "Token spans are contiguous and describe the token text",
  "Each token's span starts where the previous token ended and ends at the position computed from all text up to its end; spans never run backwards.",
  "every byte sequence, both source conventions, every tab width > 0",
  "All inputs.",
  "tokenize/tokenizer.rs token", "tokenize/token.rs skip")
p("C17", "Tokenizing always terminates without aborting, except on surrogate escapes",
  "For every byte sequence in which no hex escape spells a surrogate, producing all tokens finishes: it neither loops for ever nor panics (before the post-processing of unterminated tokens).",
  "every byte sequence without surrogate hex escapes",
  "Termination and absence of panics over all inputs.",
  "tokenize/tokenizer.rs", "lib.rs tokenize_bytes")
p("C18", "Peeking tokens is repeatable",
  "Peeking a token any number of times returns the same token and leaves the position unchanged, and skipping it moves exactly to its end.",
  "every tokenizer state",
  "Frame property over all states.",
  "tokenize/tokenizer.rs peek_token", "tokenize/token.rs skip")
p("C19", "Comments nest",
  "A comment token consists of balanced (* *) pairs: it ends at the first position where the opening and closing marks balance; if there is none the rest of the input is one unterminated-comment error token.",
  "every byte sequence starting with (*",
  "Unbounded nesting depth.",
  "tokenize/tokenizer.rs Tokenizer_handleComment")
p("C20", "A string token ends at the first unescaped quote",
  "A string token extends to the first double quote that is not escaped by a backslash; if there is none the rest of the input is one unterminated-string error token.",
  "every byte sequence starting with a double quote",
  "Unbounded strings with arbitrary escapes.",
  "tokenize/tokenizer.rs Tokenizer_handleString")
p("C21", "Decimal integers tokenize as one integer",
  "A maximal run of decimal digits followed by a character that cannot continue a number is one Integer token with exactly these digits.",
  "every non-empty digit string and every continuation",
  "Unbounded digit strings and continuations.",
  "tokenize/tokenizer.rs Tokenizer_handleNumber")
p("C22", "Token kind classification bits agree with the published lists",
  "For every token kind, each classification test (trivia, closer, error, unterminated, empty, possible beginning) is true exactly when the kind is in the corresponding list, and kinds are identified by distinct numbers.",
  "every token kind and every classification",
  "All kinds times all bit tests, and it is a bit-packing argument.",
  "tokenize/token_kind.rs")
p("C23", "Openers and closers correspond one to one",
  "Every group-opening token kind has exactly one closer, distinct openers with the same closer are only the documented ones, and each closer kind is classified as a closer.",
  "every token kind",
  "Total over all kinds.",
  "tokenize/token_kind.rs GroupOpenerToCloser TokenToCloser")
p("C24", "Token kinds survive conversion to symbols and back",
  "Converting a token kind to its symbol and back returns the same kind, except that a toplevel newline comes back as an internal newline.",
  "every token kind",
  "Total over all kinds.",
  "tokenize/token_kind.rs to_symbol from_symbol")
p("C25", "First-line handling only removes a leading script line",
  "With script or check behaviour, the tokens removed at the start are exactly a leading #, or #! and everything up to and including the first line ending; all remaining tokens are those of the remaining text. With not-script behaviour nothing is removed.",
  "every byte sequence and behaviour",
  "All inputs.",
  "tokenize/tokenizer.rs handle_first_line")

# ---------------- unterminated-input repair ----------------
p("C26", "Splitting into lines is lossless",
  "Splitting text into lines with their separators and concatenating the pieces gives back the text; no line contains a line break and every separator but the last is LF, CR or CRLF.",
  "every string",
  "All strings, mixing LF, CR and CRLF.",
  "error.rs split_lines_keep_sep")
p("C27", "Grouping by adjacent pairs is lossless",
  "Splitting a list by a predicate on adjacent pairs yields non-empty groups whose concatenation is the list, with the predicate true inside groups and false between them.",
  "every list and every predicate",
  "All lists and predicates.",
  "utils.rs split_by_pairs")
p("C28", "What tokenize does with an unterminated token",
  "tokenize returns the tokens of the text unchanged if none is unterminated, and an error if the text is not well-formed UTF-8 without a byte order mark. Only the last token can be unterminated. With line and column positions its kind, start and all tokens before it are kept, and it is cut in front of the first later line that looks like the start of a statement: if there are lines between, the text keeps the lines before the last non-empty one of them while the span reaches to the end of that line; if all of them are empty, tokenize aborts. With character positions tokenize can abort on a text of one line.",
  "every text, option and position convention",
  "All texts with any number of lines in the unterminated token.",
  "lib.rs tokenize tokenize_bytes", "error.rs reparse_unterminated_tokens first_chunk_and_last_good_line")

# ---------------- parsing ----------------
p("C29", "Every token of the input appears in the concrete syntax exactly once, in order",
  "For any bytes, the leaves of the parsed concrete syntax, read left to right, concatenate to the text that was consumed: no token is dropped, duplicated or reordered (before the repair of unterminated groups).",
  "every byte sequence",
  "All inputs, all operator nestings, including error recovery.",
  "parse.rs ParserSession", "parse/parselet.rs", "parse_cst.rs ParseCst")
p("C30", "Parsing keeps its stacks balanced",
  "When a toplevel expression is complete the operator-context stack and the open-group stack are empty and exactly one node has been produced; no internal assertion about them can fail.",
  "every byte sequence, including arbitrarily mis-nested brackets",
  "Unbounded nesting.",
  "parse.rs is_quiescent", "parse/parselet.rs GroupParselet")
p("C31", "Parsing terminates and does not abort",
  "The parser finishes on every byte sequence on which the tokenizer does not abort: every iteration of every parsing loop consumes input or returns, and no parselet aborts.",
  "every byte sequence",
  "Termination over all inputs.",
  "parse.rs do_parse", "parse/parselet.rs", "parse/token_parselets.rs")
p("C32", "The precedence comparison implements associativity",
  "When deciding whether an operator may extend the expression to its left: higher precedence continues, lower stops, and equal precedence continues exactly for right-associative operators.",
  "every pair of precedences",
  "All pairs of precedence values, and their use on operator chains of any length.",
  "precedence.rs Precedence::greater", "parse.rs parse_climb", "generated/precedence_values.rs")
p("C33", "Every parsed node has its documented shape",
  "In the concrete syntax, ignoring trivia, every binary node has exactly operand operator operand, prefix nodes operator operand, postfix nodes operand operator, ternary five parts, groups begin with their opener and end with their closer, and infix nodes alternate operands and operators of one kind starting and ending with an operand.",
  "every byte sequence",
  "All inputs.",
  "cst.rs", "parse/parselet.rs", "parse_cst.rs")
p("C34", "Groups match their brackets",
  "Every group node produced has a closing token that is the closer of its opening token, and a group is reported as missing its closer only if nothing but trivia follows or the next token is the closer of an enclosing open group, and not of the group itself or a group between the two.",
  "every byte sequence",
  "Unbounded nesting.",
  "parse/parselet.rs GroupParselet", "parse.rs check_group")
p("C35", "Trivia never changes the tree",
  "Aggregating a concrete syntax tree removes exactly the trivia leaves: the non-trivia leaves are kept in the same order.",
  "every concrete syntax tree",
  "All trees.",
  "cst.rs", "abstract_cst.rs aggregate_cst")
p("C36", "Visiting reaches every node once",
  "Visiting a tree calls the function on every node exactly once in pre-order, and mapping with the identity returns the same tree.",
  "every concrete syntax tree and function",
  "All trees.",
  "cst/visit.rs")

# ---------------- data types ----------------
p("C37", "Span algebra",
  "Two line/column spans overlap exactly when they share a position; merging two spans covers both.",
  "every pair of spans",
  "All pairs of spans.",
  "source.rs LineColumnSpan::overlaps Span::between", "utils.rs intersection")
p("C38", "Option codes convert back and forth",
  "Converting the integer codes of first-line behaviour, encoding mode, stringify mode and source convention accepts exactly the documented codes; textual names of issue tags, severities and encoding failures convert back to themselves.",
  "every integer code and every enumeration value",
  "All integers.",
  "lib.rs TryFrom", "issue.rs", "tokenize/tokenizer.rs UnsafeCharacterEncoding")
p("C39", "Issue ordering is not a lawful order",
  "Sorting issues is deterministic only if the comparison is a total order; the comparison violates antisymmetry.",
  "every pair of issues",
  "A law over all pairs.",
  "issue.rs Ord for Issue")
p("C40", "Operator symbols convert back and forth",
  "Each operator of each family converts to a symbol and back to itself, and distinct operators have distinct symbols.",
  "every operator",
  "Total over all operators.",
  "parse/operators.rs to_symbol try_from_symbol")

# ---------------- added while the model grew ----------------
p("C41", "Escaped characters print as text that reads back",
  "Every character that was read from an escape sequence (other than the raw long names, which print as themselves) prints as a text that, read again anywhere, is the same character; characters can always be printed without aborting.",
  "every reader state and every escape sequence in the input",
  "All characters times all escape styles, including the roughly one thousand long names.",
  "read/wl_character.rs Display", "long_names.rs")
p("C42", "Tokens do not depend on reporting options",
  "Turning issue checking or the computation of embedded newlines and tabs on or off, or changing the encoding mode, gives the same tokens; changing the source convention or the tab width changes only their spans; and the text already consumed does not influence the tokens of the remaining text.",
  "every byte sequence, every pair of option settings",
  "A relational property over all inputs and all pairs of configurations.",
  "tokenize/tokenizer.rs", "read.rs")
p("C43", "The token iterator and tokenizing at once agree",
  "Iterating over tokens until end of file yields the same tokens as tokenizing everything at once.",
  "every byte sequence without surrogate hex escapes",
  "All inputs.",
  "iter.rs tokens", "lib.rs tokenize_bytes")

p("C44", "The source of a node covers exactly its tokens",
  "If the tokens of a tree follow each other in the source and no node of it is empty, then asking any node for its source succeeds and gives the span from the start of its first token to the end of its last token.",
  "every tree, at every depth, in both source conventions",
  "Trees of any shape and depth; the assertions inside the span computation depend on the order of all tokens below a node.",
  "cst.rs Cst::get_source", "tokenize/token.rs Span::between")

p("C45", "Right operands bind at least as tightly as their operator",
  "In the concrete syntax, an operand to the right of a binary or infix operator, and the operand of a prefix operator, is not itself an expression with a looser operator at its root (or an equally tight one, unless the operator associates to the right), except inside brackets.",
  "every byte sequence",
  "Operator sequences of any length and nesting, with every mixture of some three hundred operators.",
  "parse.rs parse_prefix parse_climb", "parse/parselet.rs", "precedence.rs Precedence::greater")

p("C46", "Operators are read by longest match",
  "The next token is the longest operator of the table the rest of the input begins with (a dot before a digit starts a number, an open parenthesis before a star a comment), with exactly the operator's characters as text; a run of percent signs is one token; blanks are one-character tokens, a line feed, a carriage return or both are one line break token whose kind depends on whether the token is asked for at top level, and the end of the input is an empty end-of-file token.",
  "every operator, every text after it, every position in every input, every policy and all options",
  "Some ninety operators, each followed by any text, in any context; a lookahead that forgets to put a character back shows for particular successors only.",
  "tokenize/tokenizer.rs Tokenizer_nextToken and the Tokenizer_handle* functions")

p("C47", "Symbols are read whole",
  "Letters, dollar signs, digits, every non-ASCII character that is not a token by itself (written literally, by name or by number) and single backquotes between names make one symbol token up to the first other character; after a hash sign it is a string; a backquote in front of something that is not a letter ends an error token.",
  "every symbol text of any length with any number of contexts, every text after it",
  "Names are unbounded, mix spellings, and the set of letters is the complement of several tables.",
  "tokenize/tokenizer.rs Tokenizer_handleSymbol Tokenizer_handleSymbolSegment", "read/wl_character.rs isMBLetterlike")

p("C48", "Numbers are read whole and classified by their form",
  "Digits with an optional base, fractional part, precision or accuracy and exponent are one token; it is a real if it has a dot or a backquote, else a rational if its exponent is negative and not zero, else an integer; a digit that does not exist in the base or a base outside 2 to 36 makes it an error. After a hash or percent sign only digits are read.",
  "every number of the grammar with any number of digits, every text that cannot continue it",
  "Digit runs, bases and exponents of any length, times every possible continuation, with several places where the tokenizer must back up.",
  "tokenize/tokenizer.rs Tokenizer_handleNumber computeTok Tokenizer_handlePossibleFractionalPartPastDot")

p("C49", "Named characters are the same token however they are written",
  "A character whose name is the name of a token kind is a token of that kind by itself, whether it is written literally, as \\[Name], or by its number; named blanks and line breaks are blanks and line breaks, and a few named characters are always an error token.",
  "every registered name, every spelling of its character, every text after it",
  "Over a thousand names times six spellings times every context; the tables of names, code points and kinds are generated separately and must agree.",
  "generated/long_names_registration.rs", "tokenize/tokenizer.rs Tokenizer_handleMBPunctuation")

p("C50", "Tags and file names",
  "After :: the next token is the longest name, or a string, or else an empty missing-tag token. After <<, >> and >>> it is the longest text of file-name characters and balanced brackets, or a string; a text whose brackets are open at a blank or at the end is an unterminated-file token that stops there; where nothing can be a file name there is an empty missing-file token; blanks and line breaks in front are tokens of their own.",
  "every name, every file name with any nesting of brackets, every text after it, every option",
  "File names are unbounded and brackets nest; what ends one depends on the character and on how many brackets are open.",
  "tokenize/tokenizer.rs Tokenizer_nextToken_stringifyAsTag Tokenizer_nextToken_stringifyAsFile Tokenizer_handleFileOpsBrackets")

p("C51", "The box position of a run of boxes covers it",
  "The box position computed from the positions of the first and last box of a node covers everything these two cover, if they are in reading order: from the first box of a row it is the row box, from the second box it is the run. (It is not defined for every run: from the third box on it panics, which is stated as a refuted totality claim.)",
  "every pair of box positions in reading order",
  "Positions are paths of any depth in two shapes each for start and end; the tests show six pairs.",
  "source.rs BoxPosition::between")

p("C52", "Parsing to abstract syntax gives a tree",
  "Turning concrete syntax into abstract syntax always ends. For every program it gives a tree, with or without debug assertions, unless the program contains one of a short list of things: a sign in front of empty parentheses, a file operator without a file name, brackets holding several expressions where they make no sense, an application quirk, and in debug builds derivatives and implicit products under a minus. (Without the exceptions the claim is refuted: each of them is shown to panic.)",
  "every well-formed input, every parse option and first-line behaviour, every quirk setting, debug and release builds",
  "The code has dozens of panic paths that rest on what the parser can produce; that none of the others can be reached is a fact about all trees the parser builds.",
  "abstract_cst.rs abstract_cst abstract_ negate flatten_times_cst abstractPlus abstractInfixInequality", "abstract_cst/abstract_call_node.rs abstract_call_node", "lib.rs parse_ast_seq")

p("C53", "Abstract syntax does not depend on layout",
  "Two programs whose concrete syntax trees agree once blanks, comments and positions are left out have the same abstract syntax tree once positions are left out, or both have none. Moving a tree to other positions in the same order moves the sources of its abstract tree and changes nothing else.",
  "every pair of well-formed inputs, every parse option, every quirk setting, debug and release builds; every tree and every order-preserving change of positions",
  "Abstraction reads positions and combines them at every node, and may panic when they are out of order; that nothing but the sources of the result depends on them is a fact about all trees.",
  "abstract_cst.rs abstract_cst abstract_", "abstract_cst/abstract_call_node.rs abstract_call_node", "source.rs Span::between", "lib.rs parse_ast_seq")

p("C54", "Sources in abstract syntax trees",
  "Every source in the abstract syntax tree of an expression, those of its issues included, lies between the start of the first token and the end of the last token of the expression, and no tree has a source in it that sticks out of its own. The source of the abstract tree of every node is exactly from its first token to its last, except that parentheses around one expression are left out and that a derivative has no source.",
  "every well-formed input whose abstraction succeeds, every parse option and quirk setting, every node of the tree",
  "Abstraction makes up nodes for operators that have no node of their own and gives them sources combined from those of the operands; that none is too wide is a fact about all trees.",
  "abstract_cst.rs abstract_cst abstract_ negate abstractPlus abstractTimes abstractInfixInequality", "abstract_cst/abstract_call_node.rs abstract_call_node", "source.rs Span::between", "lib.rs parse_ast_seq")

p("C55", "Abstraction keeps names, strings and numbers",
  "The names, strings and numbers in the abstract syntax tree of a program that have a place in the source are those of its concrete syntax tree (with the operands put in where one is missing), each exactly as often; names have the same text and place and strings the same place. There are three exceptions, each shown to be one: the head of f@x among the operands of f written as an operator, what follows a zero in a negated pair of parentheses holding several expressions, and a head that is spelled like the internal head for commas.",
  "every well-formed input whose abstraction succeeds, every parse option and quirk setting",
  "Abstraction rearranges operands in dozens of ways: it flattens products, turns divisions into powers, reverses operands, folds comparison chains and drops operator tokens. That no operand gets lost or doubled on the way is a fact about every tree.",
  "abstract_cst.rs abstract_cst abstract_ negate flatten_times_cst abstractPlus abstractInfixInequality selectChildren abstract_replace_token", "abstract_cst/abstract_call_node.rs abstract_call_node")

p("C56", "Abstraction keeps the meaning of expressions",
  "Give values to names, numbers and strings and let functions act on values in any way, as long as Plus adds, Times multiplies, Power raises, the comparisons compare, a minus sign in front of the digits negates and digits spell the integer they stand for. Then the abstract syntax tree of an expression has the value that the expression has as it was written: signs, subtraction, division, parentheses, chains of comparisons of any mixture, calls, parts, the forms of application, derivatives, messages, %%% and other shorthands, blanks, slots, file operators, type specifiers, brackets and the other operators, and the characters that spell names such as Pi, at any depth and with any number of operands. The quirk settings do not change the value. There are exceptions, shown to be such: f@x as an operand of the operator form of f, and Comma@x between commas.",
  "every concrete syntax tree built of these forms, every quirk setting, every assignment of values that satisfies the stated laws",
  "Abstraction negates numbers textually, merges nested products and sums, turns a quotient into a product with a power, folds chains of comparisons and flattens calls; that no combination of these changes what the expression says is a fact about all trees and all values.",
  "abstract_cst.rs abstract_cst abstract_ negate flatten_times_cst abstractPlus abstractInfixInequality simplifyInfixInequality processInfixBinaryAtQuirk selectChildren", "abstract_cst/abstract_call_node.rs abstract_call_node")

p("C57", "What is sent to the kernel is one expression of the documented form",
  "Sending a concrete or abstract syntax tree, a container with its metadata and issues, or the result of a parse to the kernel writes exactly one complete expression: every head is followed by as many arguments as it announces, at every depth. The expression is the documented form of what was sent: node heads, operator and token symbols, texts, children in order, and <|Source -> ...|> with the place from the first to the last child. When the kernel asks for an abort at an element of a list of nodes, $Aborted stands in the place of that element and the rest is still complete. The trees of every well-formed text can be sent whatever the answers to the questions for an abort.",
  "every tree (also ones no parser makes), container, issue and result, every sequence of answers to the abort question, both compatibility settings, debug and release builds; every well-formed input for the last part",
  "A wrong argument count anywhere corrupts the rest of the link; counts depend on which optional fields are present and on aborts that can come at any element.",
  "crates/codeparser-wll/src/convert_wstp.rs WstpPut", "crates/codeparser-wll/src/lib.rs abortQ")

p("C58", "What was sent to the kernel can be read back",
  "A tree or container that was sent to the kernel, evaluated there and given back is read as the same tree or container: node types, operators, token kinds, texts, children, positions, box kinds, code, container kind, reason of a missing input, issues with their actions, and metadata. In particular this holds for the trees of every text whose positions fit 32 bits, with or without white space, so two such trees that are sent alike are the same. The exceptions are exact: the two kinds of newlines are not told apart; a container with a confidence level in its metadata is never read; issues are read only after evaluation, and reading one with additional sources panics; spanning positions of boxes come back as unknown; trees of boxes are read only without the checks of debug builds. What an earlier (also a failed) call left in the cell for the kind of the container changes no later result.",
  "every node and container with readable positions (nested to any depth), every text without length limit other than the range of positions, every earlier content of the cell",
  "Writer and reader are two independent hand-written walks over 10 node types and 12 metadata fields; agreement is needed at every depth and combination of optional fields.",
  "crates/codeparser-wll/src/convert_wstp.rs WstpPut", "crates/codeparser-wll/src/from_expr.rs FromExpr CONTAINER_KIND")

p("C59", "Quirk settings are read from an association",
  "Reading quirk settings from an association gives for each of InfixBinaryAt, FlattenTimes and OldAtAtAt the value of the last rule for it if that is True or False, and its default (True, False, False) if there is no rule or the value is something else. Settings written as three rules come back. A rule with any other left side is a panic.",
  "every association of rules with any right sides, in any order and with repetitions",
  "The number, order and repetition of rules are unbounded.",
  "crates/codeparser-wll/src/from_expr.rs QuirkSettings::from_expr", "crates/wolfram-parser/src/quirks.rs QuirkSettings")

p("C60", "Left operands end before their operator",
  "In the concrete syntax, what stands to the left of a binary, ternary, infix or postfix operator or of the bracket of a call could not have gone on with that operator: every operator whose last operand reaches to the right end of the left operand (at any depth, outside brackets) binds more tightly than the operator that follows, or equally tightly if that operator does not associate to the right. Words after <<, >>, >>> and :: do not count as operands, and nothing is claimed where the last operand is missing or an error token. The only other exceptions are implicit products before the differential of an integral and before a further ;;. This holds for every operand that is followed by an operator of its node, so also for the second and later operands of a chain or ternary, unless a line at top level ends between such a later operand and the operator (which can end the operand, as shown). So with C45 the grouping of an expression is the one the precedences demand on both sides.",
  "every byte sequence, every operator node and every operator open at the right end of one of its operands before an operator",
  "The operator that ends an operand may be nested under any number of others: only an argument over all operator sequences shows that each of them compared its precedence with the one that follows.",
  "parse.rs ParserSession parse_climb parse_prefix", "parse/parselet.rs", "precedence.rs Precedence::greater")

p("C61", "Abstraction reports the issues of a program, no more and no fewer",
  "The issues in the abstract syntax tree of a program are exactly those its expressions give rise to, each as often as it occurs, with its tag, severity, confidence and places: one for !!a (at the operator), one for a message name with four or more parts (at the whole name), one for h::[x] unless h is a string (at h), and one for a call h[x] or a part h[[x]] whose head is ## or ##n (an error) or otherwise unusual (at the opening and closing bracket), where the usual heads and the severity of the others are listed. An issue is lost only with what follows a zero in a negated pair of parentheses holding several expressions, which is shown to happen.",
  "every well-formed input whose abstraction succeeds, every parse option and quirk setting",
  "Issues are attached while operands are negated, flattened, reversed and merged; that none is lost or doubled on the way, and that none is reported for a usual head, is a fact about every tree.",
  "abstract_cst/abstract_call_node.rs abstract_call_node OK_CALL_BOX_KINDS", "abstract_cst.rs abstractNot2 abstract_ abstract_cst")

p("C62", "Incomplete input is repaired only where it is incomplete",
  "The tree the public parser returns is that of the grammar, except that a comment or string without end may be shortened (keeping its kind) and the contents of a bracket that is never closed may be replaced by some of the tokens in them, in order; the session records the same issues and positions. For an input in which every bracket is closed and every comment and string ends, the public parser and the parser without repair return the same trees, and neither fails where the other succeeds, so what is said of the grammar (losslessness, shapes, brackets, precedences) holds of the public functions. Repair itself can abort: on an unclosed bracket in text that is not UTF-8, and on an unclosed comment followed by an empty line, which is shown.",
  "every input, option and script mode; every input whose tree is complete",
  "The repair replaces parts of the parser's stack in the middle of a parse that later decisions look at; that none of them depends on what was replaced is a statement about every parse.",
  "error.rs reparse_unterminated_group_node reparse_unterminated", "parse_cst.rs ParseCst::finish reduce_unterminated_group", "lib.rs parse_cst_seq parse_cst")

p("C63", "Debug assertions only abort",
  "If the parser returns trees with debug assertions enabled, it returns the same trees, positions and issues without them. The converse fails, which is shown.",
  "every input, option and script mode",
  "The assertions stand in every parselet; that no result depends on one is a statement about every path through them.",
  "parse_cst.rs", "parse/parselet.rs")

p("C64", "The tree does not depend on how it is reported",
  "Parsing the same bytes with different options for issues, extra data and encoding mode returns the same trees; a different source convention or tab width changes only the positions in them, not their shape, kinds or text. This holds of the public parser too; only where a bracket, comment or string is left open can the convention change which tokens the repair keeps, which is shown.",
  "every input, every pair of options and script mode",
  "The options are consulted on every character read and every token made; that none of these decides a branch of the parser is a statement about every pair of runs.",
  "source.rs SourceConvention", "lib.rs ParseOptions parse_cst_seq", "parse.rs", "parse/parselet.rs", "error.rs reparse_unterminated_group_node")

p("C65", "A parse can be resumed between expressions",
  "The trees after the first n are those of parsing what is left of the input after the text of the first n trees: nothing that was parsed before influences how the rest is read.",
  "every input, every place between two top-level trees",
  "An editor that reparses from the last unchanged expression relies on it for every input and every split; tests can try some splits.",
  "parse.rs do_parse is_quiescent", "parse/parselet.rs", "tokenize/tokenizer.rs")

p("C66", "Made-up operands and stray closers stand only in their places",
  "A token that stands for a missing operand stands only where that kind of operand can be missing: nothing before the first comma, nothing after a comma, nothing after a semicolon, the open ends of a span, the integrand before a differential; an expected operand only as an operand of an operator; a closing bracket that closes nothing only directly inside a group, in the arguments of a call or between the expressions of the input.",
  "every input, every build profile and tab width, every node of every tree; the public parser on inputs that leave nothing open",
  "Every operator has its own code for a missing operand, and consumers give each placeholder a meaning by its place; tests try some operators.",
  "parse/parselet.rs", "parse/parselet/semi_semi_parselet.rs", "parse/parselet/integral_parselet.rs", "parse.rs do_parse")
p("C67", "What a colon makes of its sides",
  "a:b is a named pattern exactly where the left side is a symbol (or an error token), an optional pattern where it is a named pattern or a blank, and a syntax error where it is neither. What a colon names goes on to the next colon outside brackets and not past it. A colon takes the shortest operand to its left: one without an operator that could have gone on, or what another colon made.",
  "every input, every build profile and tab width, every colon of every tree; the public parser on inputs that leave nothing open",
  "The meaning of a colon depends on the whole expression to its left and on a flag that must be kept by every operator that may stand to its right; tests try some operators.",
  "parse/parselet.rs ColonParselet", "parse.rs check_pattern_precedence push_context")
p("C68", "Where an expression ends",
  "Outside brackets a line may end inside an expression only after an operator that asks for more (a prefix operator, a binary one, the first operator of a chain): never before the first operator, at an edge of an expression, around an implicit multiplication, inside a span, or after a semicolon or the double colon of a message name. Inside brackets the end of a line never ends anything, except before a file name. Two expressions stand side by side in brackets, or in one line outside them, only if one of the two is an error: in all other cases they are combined.",
  "every input, every build profile and tab width, every node of every tree; the public parser on inputs that leave nothing open",
  "Every parselet decides for itself whether to look past the end of a line, and nesting decides whether there is one; tests try some operators and some nestings.",
  "parse/parselet.rs", "parse/parselet/times_parselet.rs", "parse/parselet/semi_semi_parselet.rs", "parse.rs do_parse", "parse/token_parselets.rs", "tokenize/tokenizer.rs")
p("C69", "Printing and parsing",
  "Text that spells one expression after the other, with brackets wherever the precedence of the operators requires them, is parsed as exactly those expressions: the trees have their nodes, operators and tokens, and besides only white space. Blanks and comments may stand between all tokens, line breaks between expressions, inside brackets and behind operators. A line ends an expression, unless its last chain of operators goes on in the next line. So a text spells one list of expressions at most. Every expression whose operators have the right number of operands can be spelled: with parentheses around all operands, and blanks behind each token.",
  "every list of expressions built from names, numbers, strings, prefix, postfix, binary and infix operators (with any mixture of operators in one chain, and implicit multiplication), brackets, argument lists and commas, of any size and depth; every text that spells it; every build profile and tab width",
  "The right tree depends on every pair of neighbouring operators at every depth of nesting; tests try pairs and a few nestings.",
  "parse/parselet.rs", "parse/parselet/times_parselet.rs", "parse.rs do_parse", "parse/token_parselets.rs", "precedence.rs", "tokenize/tokenizer.rs")

p("C70", "The value of a text",
  "The abstract syntax trees of a text have the values of the expressions that the text spells, however it is laid out: with the precedence of the operators, brackets and implicit multiplication as they are meant, differences and quotients as sums and products, chains of comparisons, calls, parts, primes, groups and all other operators by their functions. In release builds the trees exist whenever all the expressions have a value. The quirk settings make no difference, except where an operand is written with the name of its own operator and @.",
  "every list of expressions as in C69 that have a value; every text that spells it; every interpretation of names, numbers, strings and functions in which Plus adds, Times multiplies, and so on; every quirk setting, build profile and tab width",
  "That a text has the right value depends on the parser and on abstraction together, for all combinations of operators at all depths; tests compare trees for a few texts.",
  "parse/parselet.rs", "parse.rs do_parse", "abstract_cst.rs abstract_cst", "abstract_cst.rs aggregate_cst", "precedence.rs")

p("C71", "The errors in an abstract syntax tree",
  "The error nodes of an abstract syntax tree are exactly the errors of the tree it comes from: every error token, every syntax error, every group or call without its closing bracket, and every construct that is grammatical but has no meaning - parentheses around a list of arguments or around nothing, brackets that belong to no function, a chain of ?, \\! without linear syntax. Each appears exactly once, of the same kind and at the same place, wherever it is nested, and there are no others. The exception is what follows a zero in negated parentheses.",
  "every input, every build profile, tab width and quirk setting, every node of every tree",
  "Abstraction rewrites sums, products, comparisons, calls and groups, and any of these steps could drop, repeat or invent an error that is nested in it; tests look at errors in a few places.",
  "abstract_cst.rs abstract_cst", "abstract_cst.rs abstract_replace_token", "abstract_cst.rs negate", "abstract_cst.rs aggregate_cst")

p("C72", "Trees printed as expressions",
  "The printed form of a parse, which the command line tool shows, exists for every UTF-8 text when positions are lines and columns, and only then: it never exists for a non-empty tree placed by character index or for a token that is not UTF-8. What is printed tells trees apart: two trees that print the same and hold no double quote have the same nodes, operators, token kinds, texts and places, except that newlines inside and between expressions look alike. So two texts without double quotes that print the same are the same text, up to a line continuation at the end. With double quotes, which are not escaped, different trees can print the same.",
  "every input, every build profile and tab width, every pair of trees",
  "Tests compare the printed form of a few trees with an expected text; that no two trees share a printed form, and that no tree makes printing panic, are claims about all trees.",
  "fmt_as_expr.rs FmtAsExpr", "fmt_as_expr.rs put_op", "bin/main.rs handle")

p("C73", "What is written at once behind a slot, a blank or a name belongs to it",
  "A token that may belong to a slot, a slot sequence, an output sign, a blank or a name, and that is written at once behind it, is read as part of it, wherever in the text that is: in #12, #abc, #\"abc\", ##2, %3, _h, __h, ___h, x_, x__, x___ and x_. the two make one operand with the expected name. Behind # and ## and % only the digits count (#1.5 is the slot 1 times .5, ##2^^101 starts with the slot sequence 2), and a name behind # is a string. The one exception is a name that is itself the head of a blank: it takes no further blank.",
  "every input, every build profile, tab width and start of text, every token of every tree",
  "Reading an operand in one piece depends on how the tokenizer is asked for the next token in each of these places and on what the tokens behind are; tests try a few slots and patterns in a few contexts.",
  "parse/parselet.rs HashParselet", "parse/parselet.rs HashHashParselet", "parse/parselet.rs PercentParselet", "parse/parselet/under_parselet.rs UnderParselet", "parse/parselet/under_parselet.rs UnderDotParselet", "parse/parselet.rs SymbolParselet")

p("C74", "A parse reports an unsafe encoding exactly for malformed bytes",
  "Whenever parse_bytes_cst_seq answers, its result names an unsafe character encoding if and only if the bytes are not well-formed UTF-8 without a byte order mark, wherever in the text the malformed bytes are: in a comment, a string, a name, between tokens or behind the last of them.",
  "every sequence of bytes, every option, build profile and start of text",
  "It must not be possible to get past a malformed byte without noticing, whatever the parser looks at or jumps over; a test has a few malformed bytes in a few places.",
  "crates/wolfram-parser/src/lib.rs parse_bytes_cst_seq create_parse_result", "crates/wolfram-parser/src/parse.rs parse")

p("C75", "Questions of a kernel are answered as documented",
  "ConcreteParseBytes, TokenizeBytes, ConcreteParseLeaf, SafeString and TokenIsEmpty answer only if they are called with the documented arguments in the documented order: a session, the bytes, codes for the source convention, the first line, the encoding and the way of reading, a tab width of 32 bits, readable settings. The answer is one expression: of the tree, the tokens or the token for just these bytes and options with the issues and places found, or the reason why there is none, which is that the bytes are malformed. Questions asked this way are answered if nothing is missing in the text and it has no surrogate escapes. The session, and for these functions the settings, do not matter. RoundTripTest gives back the container it is given, and what tells of a failure unchanged.",
  "every list of arguments, every text in them, every answer to whether the kernel asks to abort",
  "The arguments come one after the other from a link without types; a swapped pair of small integers is noticed only for some values, and a few calls do not tell.",
  "crates/codeparser-wll/src/lib.rs read_session_from_link read_parse_options_from_link read_input_bytes ConcreteParseBytes_LibraryLink TokenizeBytes_LibraryLink ConcreteParseLeaf_LibraryLink SafeString_LibraryLink TokenIsEmpty_LibraryLink RoundTripTest_LibraryLink", "crates/wolfram-parser/src/lib.rs parse_to_token create_parse_result")

p("C76", "Suggestions about unexpected characters read back as promised",
  "A character of the text is reported exactly when it is unexpected (a control, a joiner, a curly quote, an invisible operator, an arrow that looks like a rule, planes 15 and 16) or is not ASCII in the normal encoding mode; inside of strings and comments it is a remark only, and unexpected blanks of the code are left to the tokenizer. The issue is about the place of that character. Every code action is about that same place, and replaces it with another spelling of the character, which is plain ASCII and is read as this character wherever it stands, with plain characters that look like it, or with the character that was meant; another spelling and all plain characters that look like it are offered. The same holds for a character written as an escape by its name or number, and for unexpected blanks, letters and line ends of the code. Nothing is ever suggested to be inserted, and deleting only for one invisible operator.",
  "every text, every state of the reader, every character and every way to write it",
  "There are more than a million characters and some thousand names; a wrong entry, a boundary of a range or the wrong number of digits shows for a few of them only.",
  "crates/wolfram-parser/src/read/byte_decoder.rs ByteDecoder_strangeWarning ByteDecoder_nonASCIIWarning", "crates/wolfram-parser/src/read/character_decoder.rs check_strange_syntax_issue", "crates/wolfram-parser/src/tokenize/tokenizer.rs add_unexpected_char_issue", "crates/wolfram-parser/src/utils.rs certainCharacterReplacementActions", "crates/wolfram-parser/src/long_names.rs asciiReplacements replacementGraphical")

p("C77", "What is suggested for a broken escape mends it",
  "A backslash that begins no escape is reported, unless it ends the text, is followed by malformed text, or begins a number beyond the last character. The issue covers the backslash and the text behind it that was looked at. Everything that is suggested mends it: with an inserted bracket, the text is read as the character of that name; a replacement is the escape of a known name, an escaped backslash in front of the same text, or a template with letters to fill in. A name that is not known is replaced by the nearest known name, counted in letters to change, leave out or put in, if there is one at most two such edits away, and by nothing else. The label of an inserted bracket shows the very name that comes out. Something is suggested unless the name is unknown and not near to any, or the character behind the backslash is not visible ASCII.",
  "every text, every state of the reader, every misspelling of every name",
  "There are more than a thousand names and every text is near to some of them or not; a test tries a few misspellings, and none would tell that another name had been nearer.",
  "crates/wolfram-parser/src/read/character_decoder.rs CharacterDecoder_handleLongName CharacterDecoder_handle4Hex CharacterDecoder_handle2Hex CharacterDecoder_handle6Hex CharacterDecoder_handleOctal CharacterDecoder_handleUnhandledEscape CharacterDecoder_longNameSuggestion", "crates/wolfram-parser/src/issue.rs replace_text insert_text")

p("C78", "Crowded operators are reported, and the suggested space settles it",
  "When ++, --, |> or _. is directly followed by a character that could belong to another operator (an equals sign; a greater sign behind --; a dot behind _.), the token is the operator all the same, and if issues are asked for, one is recorded: about formatting in front of an equals sign, with a message that names the two, and an error otherwise. A space behind the operator is suggested. After any suggestion is carried out, reading the new text records nothing and gives the same operator, or -> where --> was replaced. In front of any other visible ASCII character or a blank, but no backslash, and at the end of the text, nothing is recorded. The same holds of =, <, | and / in front of a character that seems to continue them but does not, as in a=!b, a<-b, a|-b and a/.5.",
  "every text behind the operator, every state of the reader, every policy, in groups or not",
  "A test tries an operator in a few places; that carrying out the suggestion leaves the token as it was, and is not reported again, must hold whatever follows.",
  "crates/wolfram-parser/src/tokenize/tokenizer.rs Tokenizer_handleUnder Tokenizer_handleMinus Tokenizer_handleBar Tokenizer_handlePlus Tokenizer_handleEqual Tokenizer_handleLess Tokenizer_handleSlash Tokenizer_backupAndWarn", "crates/wolfram-parser/src/issue.rs FormatIssue replace_text insert_text")

here = os.path.dirname(os.path.abspath(__file__))
with open(os.path.join(here, "..", "properties.jsonl"), "w") as f:
    for x in P:
        f.write(json.dumps(x) + "\n")
