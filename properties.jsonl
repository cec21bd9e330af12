{"id": "C01", "title": "match is sound with respect to the regex language", "statement": "If ctre::match<P>(s) reports a match, then s as a whole belongs to the language of P under the usual declarative reading of the regex operators (literals, classes, concatenation, alternation, counted/greedy/lazy/possessive repetition, groups, anchors, lookahead, backreferences), and the reported capture spans are those of one derivation of that membership.", "quantifier": "every pattern AST without negative lookaround (or with it, over the fragment of C02), every subject string of any length, both line modes, both case modes", "why_tests_cant": "There are infinitely many pattern/subject pairs; a false positive can hide in any nesting of quantifiers, alternations and captures.", "anchors": ["include/ctre/evaluation.hpp: evaluate (all overloads)", "include/ctre/wrapper.hpp: match_method::exec"]}
{"id": "C02", "title": "match is complete with respect to the regex language", "statement": "If the whole subject s belongs to the language of P, ctre::match<P>(s) reports a match: backtracking never misses an existing match.", "quantifier": "every pattern (the property is refuted for bodies of repetitions with several ways to match; proved when each repeated body has at most one way to match at each position and consumes input), every subject", "why_tests_cant": "A missed match needs a specific interaction of alternation order and iteration; tests sample a few.", "anchors": ["include/ctre/evaluation.hpp: evaluate_recursive, evaluate(repeat), evaluate(lazy_repeat), evaluate(possessive_repeat)"]}
{"id": "C03", "title": "starts_with returns the first match in backtracking priority order", "statement": "The end position and the captures of ctre::starts_with<P>(s) are those of the first successful path in Perl priority order: alternatives left to right, greedy repetition longest first, lazy shortest first, possessive and atomic without giving anything back.", "quantifier": "every pattern of the fragment of C02, every subject, every start position", "why_tests_cant": "Priority is a statement about all other paths that were not chosen; a test sees only one.", "anchors": ["include/ctre/evaluation.hpp: evaluate(select), evaluate_recursive, evaluate(lazy_repeat)", "include/ctre/wrapper.hpp: starts_with_method::exec"]}
{"id": "C04", "title": "match spans exactly the whole subject", "statement": "A successful ctre::match reports capture 0 as [begin, end) of the whole subject, and a successful starts_with / search reports capture 0 starting at the position where the attempt started and ending inside the subject.", "quantifier": "every pattern, every subject, every modifier list", "why_tests_cant": "Range over all patterns and subjects, including captures and lookarounds that reset marks.", "anchors": ["include/ctre/wrapper.hpp: match_method::exec, starts_with_method::exec, search_method::exec", "include/ctre/evaluation.hpp: evaluate(start_mark), evaluate(end_mark)"]}
{"id": "C05", "title": "search finds the leftmost match", "statement": "ctre::search<P>(s) returns a match at the smallest start position at which an attempt of P succeeds, and reports no match only if no start position succeeds.", "quantifier": "every pattern that the library does not treat as anchored (anchored ones in C29), every subject", "why_tests_cant": "Leftmost is a statement about all earlier positions of all subjects.", "anchors": ["include/ctre/wrapper.hpp: search_method::exec"]}
{"id": "C06", "title": "match implies starts_with implies search", "statement": "Whenever ctre::match<P>(s) succeeds, ctre::starts_with<P>(s) succeeds; whenever starts_with succeeds, ctre::search<P>(s) succeeds with exactly the same span and captures.", "quantifier": "every pattern (no restriction), every subject, every modifier list", "why_tests_cant": "Requires relating two different runs of the matcher on every pattern.", "anchors": ["include/ctre/wrapper.hpp: match_method, starts_with_method, search_method"]}
{"id": "C07", "title": "capture spans lie inside the subject and are ordered", "statement": "In every successful result each participating capture has begin <= end, both inside the searched subject; a capture that did not participate is false.", "quantifier": "every pattern, every subject, every capture id", "why_tests_cant": "A stale begin combined with a new end (loops, alternations, lookaheads) would only show on particular nestings.", "anchors": ["include/ctre/evaluation.hpp: evaluate(capture), evaluate(numeric_mark)", "include/ctre/return_type.hpp: storage::set_start, set_end"]}
{"id": "C08", "title": "no out-of-range access on random access subjects", "statement": "Evaluating any pattern on a contiguous subject [begin,end) never dereferences, increments past, or decrements before the subject, whatever the pattern and the data.", "quantifier": "every pattern that compiles, every subject of any length including empty, every start position", "why_tests_cant": "Memory safety has to hold on every path; sanitizers only see executed paths.", "anchors": ["include/ctre/evaluation.hpp: evaluate (current, std::prev, std::next uses), match_string, match_against_range"]}
{"id": "C09", "title": "zero-terminated subjects behave like string views up to the terminator", "statement": "ctre::match/search/starts_with on a const char* give the same decision, spans and captures as on the string_view of the characters before the first NUL, and never read past the terminator.", "quantifier": "every pattern, every NUL-terminated buffer", "why_tests_cant": "The sentinel is evaluated by reading memory at each comparison, so every comparison in every overload matters.", "anchors": ["include/ctre/wrapper.hpp: zero_terminated_string_end_iterator, regular_expression::exec(const char*)"]}
{"id": "C10", "title": "UTF-8 subjects are matched code point by code point", "statement": "Matching a pattern against a u8string_view holding well-formed UTF-8 gives the same decision as matching it against the decoded char32_t string, with spans translated to code unit offsets on code point boundaries.", "quantifier": "every pattern (refuted when a lazy quantifier is present; proved without lazy quantifiers), every well-formed UTF-8 text", "why_tests_cant": "All code points, lengths and alignments of multi-byte sequences are in range.", "anchors": ["include/ctre/utf8.hpp: utf8_iterator", "include/ctre/evaluation.hpp: evaluate(lazy_repeat) line 300", "include/ctre/wrapper.hpp: exec(std::u8string_view)"]}
{"id": "C11", "title": "utf8_iterator decodes every code point and steps by its length", "statement": "For every Unicode scalar value, dereferencing a utf8_iterator at its encoding yields the value, ++ advances by exactly the encoded length, and -- from the following position returns to its first byte.", "quantifier": "all scalar values and all neighbouring well-formed text", "why_tests_cant": "1.1 million code points times contexts; table-driven bit tricks (0x3A55...) hide single-entry errors.", "anchors": ["include/ctre/utf8.hpp: operator*, operator++, operator--"]}
{"id": "C12", "title": "iterating arbitrary bytes as UTF-8 stays inside the buffer", "statement": "For any byte sequence (also malformed or truncated) iteration with utf8_iterator reads only bytes of the buffer and visits positions inside it.", "quantifier": "every byte sequence", "why_tests_cant": "Attack inputs are exactly the byte strings nobody put into a test.", "anchors": ["include/ctre/utf8.hpp: operator*, operator++, operator--, sentinel comparison"]}
{"id": "C13", "title": "pattern strings given as UTF-8 are decoded to their code points", "statement": "Constructing ctll::fixed_string from a u8 literal that is the UTF-8 encoding of a list of code points yields exactly these code points, in order, with correct() true.", "quantifier": "every list of Unicode scalar values", "why_tests_cant": "All code points and all concatenations.", "anchors": ["include/ctll/fixed_string.hpp: fixed_string(construct_from_pointer_t, const T*), length_and_value_of_utf8_code_point"]}
{"id": "C14", "title": "pattern strings given as UTF-16 are decoded to their code points", "statement": "Constructing ctll::fixed_string from a char16_t literal that is the UTF-16 encoding of a list of scalar values yields exactly these code points with correct() true; ill-formed surrogate sequences are flagged.", "quantifier": "every list of Unicode scalar values; every malformed sequence (flagging is refuted for a trailing lone lead surrogate)", "why_tests_cant": "All surrogate pairs and all positions of malformed units.", "anchors": ["include/ctll/fixed_string.hpp: length_and_value_of_utf16_code_point, constructor"]}
{"id": "C15", "title": "pattern parsing terminates on every pattern text", "statement": "Building a regex from any pattern text ends after a number of parser steps bounded linearly in its length with either an AST or a syntax error.", "quantifier": "every finite sequence of code points", "why_tests_cant": "Termination for all inputs of an LL(1) machine with epsilon moves cannot be sampled.", "anchors": ["include/ctll/parser.hpp: parser::decide", "include/ctre/pcre.hpp: rule table"]}
{"id": "C16", "title": "a literal pattern matches exactly itself", "statement": "For every text w of ordinary (non-meta) characters, ctre::match<w>(s) succeeds iff s = w.", "quantifier": "every text of ordinary characters, every subject", "why_tests_cant": "End-to-end over pattern decoding, parsing, string building and evaluation, for unbounded lengths.", "anchors": ["include/ctre/pcre.hpp", "include/ctre/actions/characters.inc.hpp", "include/ctre/actions/sequence.inc.hpp", "include/ctre/evaluation.hpp: match_string"]}
{"id": "C17", "title": "escaping every metacharacter gives a literal pattern", "statement": "For every text w over printable characters, the pattern obtained by putting a backslash before each metacharacter matches exactly w.", "quantifier": "every text over ordinary characters and escaped metacharacters, every subject", "why_tests_cant": "Unbounded texts; one missing LL(1) table entry for a character after a backslash would break it.", "anchors": ["include/ctre/pcre.hpp: rule(esc, ...)", "include/ctre/actions/characters.inc.hpp"]}
{"id": "C18", "title": "character classes have their documented extension", "statement": "Each shorthand or POSIX class (\\d \\w \\s \\h \\v [[:alnum:]] ... [[:punct:]]) accepts exactly the documented set of code units, its negated form accepts exactly the complement, a bracket set accepts the union of its items and a negated bracket set the complement of that union.", "quantifier": "every code unit value, every set built from items, both case modes", "why_tests_cant": "The whole value domain of char32_t; arbitrary nesting of items.", "anchors": ["include/ctre/atoms_characters.hpp", "include/ctre/actions/class.inc.hpp", "include/ctre/actions/named_class.inc.hpp", "include/ctre/actions/set.inc.hpp"]}
{"id": "C19", "title": "case-insensitive matching folds exactly ASCII letters", "statement": "With ctre::case_insensitive, flipping the case of any ASCII letters of the subject does not change decision or spans, and for subjects/patterns without ASCII letters the modifier has no effect.", "quantifier": "every pattern, every subject, every choice of flipped letters (refuted for ranges such as [Z-a] and for backreferences; proved otherwise with the greedy optimisation off)", "why_tests_cant": "Exponentially many case variants of unbounded subjects.", "anchors": ["include/ctre/atoms_characters.hpp: character::match_char, char_range::match_char", "include/ctre/flags_and_modes.hpp"]}
{"id": "C20", "title": "counted repetition matches between min and max copies", "statement": "r{A,B} accepts exactly concatenations of k copies of r with A <= k <= B (B omitted: no upper limit), {0} and {0,0} accept only the empty string.", "quantifier": "every A, B, every class r, every subject (the {0}/{0,0}/{A,0} reading is refuted)", "why_tests_cant": "Unbounded counts and subjects.", "anchors": ["include/ctre/evaluation.hpp: less_than, less_than_or_infinite, evaluate(repeat)", "include/ctre/actions/repeat.inc.hpp"]}
{"id": "C21", "title": "possessive and atomic constructs never give characters back", "statement": "Once a possessive repetition or an atomic group has matched, the overall result is that of continuing after its first (preferred) match only; an atomic group whose preferred match is empty succeeds without consuming.", "quantifier": "every body, every continuation, every subject (the empty case is refuted)", "why_tests_cant": "A statement about paths not taken.", "anchors": ["include/ctre/evaluation.hpp: evaluate(possessive_repeat), evaluate(atomic_group)"]}
{"id": "C22", "title": "lookahead consumes nothing and leaks nothing", "statement": "A positive lookahead succeeds iff its content matches at the current position, consumes nothing and keeps the captures it set; a negative lookahead succeeds iff its content does not match, consumes nothing and leaves all captures unchanged.", "quantifier": "every content, every continuation, every subject", "why_tests_cant": "All contents and contexts.", "anchors": ["include/ctre/evaluation.hpp: evaluate(lookahead_positive), evaluate(lookahead_negative), evaluate(end_lookahead_mark)"]}
{"id": "C23", "title": "lookbehind tests the text before the current position", "statement": "(?<=r) succeeds at i iff some j <= i exists with s[j..i) in the language of r, (?<!r) iff none exists, for r made of characters, classes, strings, sequences and alternations; anchors inside keep their meaning.", "quantifier": "every such r, every subject and position (anchors and nested lookarounds inside are refuted)", "why_tests_cant": "Requires reversing arbitrary content; only unbounded reasoning covers all shapes.", "anchors": ["include/ctre/evaluation.hpp: evaluate(lookbehind_positive), evaluate(lookbehind_negative)", "include/ctre/rotate.hpp", "include/ctre/actions/look.inc.hpp"]}
{"id": "C24", "title": "word boundary assertions are complementary and symmetric", "statement": "\\b succeeds at i iff exactly one of the neighbours of i is a word character; \\B succeeds exactly where \\b fails.", "quantifier": "every subject and position (the \\B half is refuted)", "why_tests_cant": "All subjects and positions.", "anchors": ["include/ctre/evaluation.hpp: evaluate(boundary)", "include/ctre/actions/boundaries.inc.hpp"]}
{"id": "C25", "title": "anchors have their line-mode dependent meaning", "statement": "^ succeeds at i iff i=0, or multiline mode is on and s[i-1] is a newline; $ iff i=len, or multiline mode is on and s[i] is a newline; \\A iff i=0; \\z iff i=len; \\Z iff i=len or (multiline mode) s[i] is a final newline.", "quantifier": "every subject, position, mode", "why_tests_cant": "All subjects and positions.", "anchors": ["include/ctre/evaluation.hpp: evaluate(assert_*)", "include/ctre/actions/asserts.inc.hpp"]}
{"id": "C26", "title": "search_all yields the ordered, non-overlapping leftmost matches and ends", "statement": "Iterating ctre::search_all<P>(s) yields matches in increasing, non-overlapping order, each the leftmost one at or after the end of the previous, none is skipped, and the iteration ends.", "quantifier": "every pattern, every subject (ending is refuted for patterns with an empty match before the end of the subject; proved when matches are not empty)", "why_tests_cant": "A history property over an unbounded number of increments.", "anchors": ["include/ctre/iterators.hpp: regex_iterator", "include/ctre/range.hpp: regex_range"]}
{"id": "C27", "title": "split pieces and separators reassemble the subject", "statement": "The pieces of ctre::split<P>(s) in order, interleaved with the matches found by search_all<P>(s), concatenate to s, and the iteration ends.", "quantifier": "every pattern with non-empty matches, every subject (refuted for anchored patterns and empty matches)", "why_tests_cant": "A history property over an unbounded number of increments.", "anchors": ["include/ctre/iterators.hpp: regex_split_iterator::modify_match, match_rest", "include/ctre/wrapper.hpp: search_method (set_end_mark on failure)"]}
{"id": "C28", "title": "tokenize yields contiguous tokens from the beginning", "statement": "The tokens of ctre::tokenize<P>(s) start at 0, each token starts where the previous one ended, and the sequence stops at the first position where P does not match.", "quantifier": "every pattern, every subject", "why_tests_cant": "A history property over an unbounded number of increments.", "anchors": ["include/ctre/wrapper.hpp: tokenize_method", "include/ctre/iterators.hpp: regex_iterator"]}
{"id": "C29", "title": "the anchored-search shortcut does not change results", "statement": "When the library decides that a pattern is anchored and tries only the first position, the result of search is the same as when every position is tried.", "quantifier": "every pattern, every subject (refuted for anchors under repetitions that may run zero times; proved otherwise)", "why_tests_cant": "The shortcut is a static analysis; soundness quantifies over all patterns and subjects.", "anchors": ["include/ctre/starts_with_anchor.hpp", "include/ctre/wrapper.hpp: search_method::exec"]}
{"id": "C30", "title": "the greedy-to-possessive optimisation does not change results", "statement": "Matching gives the same decision, span and captures whether or not CTRE_DISABLE_GREEDY_OPT is defined.", "quantifier": "every pattern, subject, mode (refuted with case-insensitive mode and with zero-width assertions after the repetition; proved for the remaining fragment)", "why_tests_cant": "Static first-set analysis whose soundness ranges over all patterns, tails and subjects.", "anchors": ["include/ctre/first.hpp: first, collides, point_set, negative_helper", "include/ctre/evaluation.hpp: evaluate(repeat) line 392"]}
{"id": "C31", "title": "matching terminates", "statement": "Every call of match/search/starts_with on a finite subject returns.", "quantifier": "every pattern, every subject (refuted for repetitions whose body can match empty through an inner greedy repetition; proved when every unbounded repetition body consumes input)", "why_tests_cant": "Termination for all inputs.", "anchors": ["include/ctre/evaluation.hpp: evaluate_recursive, evaluate(end_cycle_mark)", "include/ctre/flags_and_modes.hpp: not_empty_match, consumed_something"]}
{"id": "C32", "title": "captures are numbered by opening parenthesis", "statement": "In every accepted pattern the n-th capturing '(' (named or not) gets id n, the result type offers exactly the ids 0..count, and a named group is the same capture as its number.", "quantifier": "every accepted pattern text (availability refuted for groups inside lookbehind and atomic groups)", "why_tests_cant": "All nestings of capturing and non-capturing groups.", "anchors": ["include/ctre/actions/capture.inc.hpp", "include/ctre/find_captures.hpp", "include/ctre/return_type.hpp: captures"]}
{"id": "C33", "title": "comparing a result with a string", "statement": "result == sv holds iff the result matched and its text equals sv, and result != sv is the negation, for the whole match and for every capture.", "quantifier": "every result, capture and string (the != half is refuted for captures that did not participate)", "why_tests_cant": "All results and strings.", "anchors": ["include/ctre/return_type.hpp: operator==, operator!="]}
{"id": "C34", "title": "filtering a range of subjects", "statement": "Iterating (subjects | ctre::match<P>) yields the results of exactly those subjects that match, in order, and ends; iterator != end is consistent with == end.", "quantifier": "every list of subjects, every pattern (one operator!= overload is refuted)", "why_tests_cant": "Unbounded lists of subjects.", "anchors": ["include/ctre/range.hpp: multi_subject_range::iterator"]}
{"id": "C35", "title": "merging adjacent repetitions preserves meaning", "statement": "The AST rewriting done while parsing (merging X{a,b}X{c,d} of the same atom and quantifier kind, merging literals into strings, flattening sequences and alternatives) does not change which texts match.", "quantifier": "every pattern, every subject (refuted for possessive repetitions merged into a sequence and for bounds with max < min)", "why_tests_cant": "All shapes of neighbouring quantified atoms.", "anchors": ["include/ctre/actions/fusion.inc.hpp", "include/ctre/actions/sequence.inc.hpp", "include/ctre/actions/options.inc.hpp"]}
{"id": "C36", "title": "backreferences repeat the captured text", "statement": "\\g{n} / \\n / \\g{name} succeeds at i iff group n participated and the text of its last iteration occurs at i, and consumes exactly that text.", "quantifier": "every group content, every subject and position", "why_tests_cant": "All texts captured so far.", "anchors": ["include/ctre/evaluation.hpp: evaluate(back_reference), match_against_range", "include/ctre/actions/backreference.inc.hpp"]}
{"id": "C37", "title": "numbers in patterns denote their value", "statement": "Repetition bounds and hexadecimal escapes denote the number written in the pattern.", "quantifier": "every digit string (refuted at 2^64 wrap-around; proved below)", "why_tests_cant": "Digit strings of any length.", "anchors": ["include/ctre/actions/repeat.inc.hpp", "include/ctre/actions/hexdec.inc.hpp"]}
{"id": "C38", "title": "inline mode switches act to the end of their group", "statement": "(?i), (?c), (?m), (?s) change the mode from their position to the end of the enclosing group, in all alternatives of it, and several letters in one switch act like the switches one after another.", "quantifier": "every pattern (refuted: leak out of groups, loss in later alternatives, loss of all but the last letter)", "why_tests_cant": "All nestings of groups, alternations and switches.", "anchors": ["include/ctre/actions/mode.inc.hpp", "include/ctre/evaluation.hpp: evaluate(mode_switch)"]}
{"id": "C39", "title": "malformed pattern encodings are rejected", "statement": "A pattern literal that is not well-formed UTF-8 is not silently turned into some other regex.", "quantifier": "every byte sequence used as pattern (refuted: correct() is never consulted and truncated sequences are accepted)", "why_tests_cant": "All malformed byte sequences.", "anchors": ["include/ctll/fixed_string.hpp", "include/ctre/wrapper.hpp: regex_builder"]}
{"id": "C40", "title": "failed matches expose no data", "statement": "When match/search/starts_with fail, the result converts to false, all captures are false and optional conversions are empty; the outcome does not depend on earlier failed alternatives.", "quantifier": "every pattern, subject", "why_tests_cant": "Leaking captures from a failed branch requires particular nestings.", "anchors": ["include/ctre/evaluation.hpp: not_matched", "include/ctre/return_type.hpp: regex_results(not_matched_tag_t), unmatch"]}
{"id": "C41", "title": "iterator comparison", "statement": "Iterators of one match range that are not at the end compare equal exactly when they were incremented equally often, and < follows the number of increments; != is the negation of ==.", "quantifier": "every pattern without empty matches before the end, every subject, all pairs of iterators (refuted for the pair last match / end: only the position is compared)", "why_tests_cant": "Equality of positions needs every distance between every two matches.", "anchors": ["include/ctre/iterators.hpp: regex_iterator::operator==, operator!=, operator<"]}
{"id": "C42", "title": "conversions of captures stay inside the subject", "statement": "to_optional_view is the text of the capture if it took part and empty otherwise; to_view, to_string and size of a capture that took part give exactly its text and length, without reading outside the subject. A group that took no part holds no positions, reads as the empty text and has size 0.", "quantifier": "every pattern, subject, capture of match/search/starts_with (refuted for the whole match of a failed search: the end mark is set, the begin is not)", "why_tests_cant": "All captures of all patterns, including those unset by backtracking.", "anchors": ["include/ctre/return_type.hpp: captured_content::storage", "include/ctre/wrapper.hpp: search_method::exec"]}
{"id": "C43", "title": "the pattern syntax", "statement": "A text compiles exactly when it is a pattern of the documented syntax, and then to the AST that the syntax assigns to it; the reading is unique; match and search of the compiled pattern decide the language of the unrewritten AST denoted by the text.", "quantifier": "every text over every alphabet, every table of Unicode properties, every subject (mode switches of several letters are excluded from 'only if': refuted; rewriting-free language under the conditions of C35)", "why_tests_cant": "There are infinitely many texts, accepted and rejected; a wrong table entry or action shows only in one context.", "anchors": ["include/ctre/pcre.hpp: pcre (LL(1) table)", "include/ctre/actions/*.inc.hpp", "include/ctll/parser.hpp: parser::decide"]}
{"id": "C44", "title": "Unicode lookups stay inside the tables and find what is listed", "statement": "Every lookup behind an accepted \\p{...} ends with an answer for every value that is not negative, without reading outside of a table; a search in a packed table finds exactly the entry whose span has the value, a search in a plain list answers yes exactly for the listed values.", "quantifier": "every property name and value accepted, every value >= 0, every table of the data base (plain lists of 20 or more elements: refuted, four of them are searched by halving but not sorted; beyond U+10FFFF: refuted, tries answer modulo a power of two)", "why_tests_cant": "2^32 values for each of about 600 tables and constants; a bad index shows only for particular code points.", "anchors": ["include/unicode-db/unicode-db.hpp: bool_trie::lookup, range_array::lookup, flat_array::lookup, compact_range::value, compact_list::value, lower_bound, upper_bound", "include/ctre/atoms_unicode.hpp: property_filter_function"]}
{"id": "C45", "title": "the Unicode data are consistent", "statement": "General category, lower and upper case, identifier start and continue, mirroring and numeric values agree with Unicode 14 as recorded by another implementation; categories are disjoint; derived properties follow from the properties they are derived from; a code point has an age exactly if it is assigned.", "quantifier": "every code point from 0 to U+10FFFF (refuted for 15 dashes, \\p{Assigned} on private use, group C, Case_Ignorable and age= on unassigned code points)", "why_tests_cant": "1114112 code points for each property; the tables are generated and compressed.", "anchors": ["include/unicode-db/unicode-db.hpp: get_category, cp_category_is, cp_property_is, cp_age, cp_numeric_value, cp_is_assigned, tables"]}
{"id": "C46", "title": "names of Unicode properties, and \\p from the text to the answer", "statement": "Names are compared without regard to letter case, space, hyphen and low line; every listed name of a property, script or block means what it is listed with; the standard names of the general categories mean those categories; \\p{name} and \\p{name=value} compile to a pattern that matches exactly the single code points with the property, \\P exactly those without.", "quantifier": "every name and value, every subject of code points up to U+10FFFF, every mode (refuted: script_extensions is unknown; \\p{Pd} does not match a hyphen)", "why_tests_cant": "About 700 names with all their spellings, times all code points.", "anchors": ["include/unicode-db/unicode-db.hpp: propnamecomp, *_from_string, get_binary_prop", "include/ctre/atoms_unicode.hpp: property_type_from_name, property_type_builder", "include/ctre/actions/properties.inc.hpp"]}
{"id": "C47", "title": "calls on well-formed patterns always answer, and rightly", "statement": "A check of the pattern tells when the program is well-formed (every overload, conversion and capture that the evaluation can need exists). If moreover the bodies of unbounded repetitions consume, match, starts_with and search return a result on every subject: no undefined behaviour, no endless loop, no ill-formed program. On the fragment of C01-C03 the result says exactly whether the subject (a prefix, a part) is described by the pattern, and its captures are those of a derivation.", "quantifier": "every accepted pattern text, every subject (contiguous, NUL-terminated, bytes read as UTF-8), every modifier, with and without the greedy optimisation (refuted: lookbehinds with repetitions or groups, groups in atomic groups; with the optimisation mode switches and doubly negated sets near a greedy repetition; backreferences on UTF-8)", "why_tests_cant": "A test runs finitely many subjects; totality and the absence of ill-formed instantiations are claims about all of them and all patterns.", "anchors": ["include/ctre/evaluation.hpp: evaluate overloads", "include/ctre/first.hpp: first, collides", "include/ctre/wrapper.hpp: match_method, starts_with_method, search_method", "include/ctre/find_captures.hpp", "include/ctre/return_type.hpp: start_capture, end_capture"]}
{"id": "C48", "title": "regular patterns answer as textbook regular expressions do", "statement": "A pattern without references, assertions, lookarounds and atomic groups denotes a textbook regular expression over predicates on characters. Whatever match or search finds is a word of it; for patterns that pass the checks of C47, match, starts_with and search give exactly the answer of Brzozowski's derivatives: membership, membership of a prefix, the first position from which a piece is a word.", "quantifier": "every pattern text of the regular fragment (mode switches in textual scope), every subject, every modifier, with and without the greedy optimisation (refuted without the check on loops: (?:a|ab)*c on abc)", "why_tests_cant": "Equality with an independent decision procedure on all words and all patterns is not a finite statement.", "anchors": ["include/ctre/evaluation.hpp: evaluate, evaluate_recursive, evaluate_lazy", "include/ctre/wrapper.hpp: match_method, starts_with_method, search_method", "include/ctre/atoms.hpp", "include/ctre/atoms_characters.hpp"]}
{"id": "C49", "title": "the position of a syntax error", "statement": "A rejected pattern text is reported with a position. What precedes the position can be completed to a text of the grammar; if the grammar (not a semantic action) rejects, it can not be together with the next character, so the position is the length of the longest good prefix. Every text that agrees up to and including the next character is rejected at the same position.", "quantifier": "every rejected pattern text, every table of properties (refuted for rejections by semantic actions: their position is behind the cause)", "why_tests_cant": "Both completability and its impossibility quantify over all continuations of all texts.", "anchors": ["include/ctll/parser.hpp: results, move, decide, trampoline_decide", "include/ctll/grammars.hpp: augment_grammar", "include/ctre/wrapper.hpp: problem_at_position, regex_builder", "include/ctre/pcre.hpp"]}
{"id": "C50", "title": "patterns combined with | and >>", "statement": "a | b answers what a answers if a matches and otherwise what b answers: the same span and the same groups, although both parts number their groups from 1; a search finds the part that starts further left, a on ties. a >> b fully matches exactly the concatenations of what a and what b fully match.", "quantifier": "all pairs of patterns (|: references only by number to own groups, also nested combinations; >>: regular patterns that pass the checks of C48), every subject, every modifier (refuted for >>: mode switches act on the second part, clashing groups are lost)", "why_tests_cant": "All pairs of patterns and all subjects; the clash of the group numbers shows only in some pairs.", "anchors": ["include/ctre/operators.hpp: operator|, operator>>", "include/ctre/evaluation.hpp: evaluate select, sequence", "include/ctre/find_captures.hpp", "include/ctre/return_type.hpp: start_capture, end_capture, get"]}
{"id": "C51", "title": "numbers from captures", "statement": "to_number of a capture that took part gives the number written at the front of its text in the given base if it fits the type, and 0 otherwise; to_optional_number is empty exactly for captures that did not take part. -?[0-9]+ fully matches exactly the written numbers, and writing any value of a signed type, matching and converting gives the value back.", "quantifier": "every pattern, subject and capture, every integer type, every base from 2 to 36 (refuted: a number out of range is not told from 0, not even by to_optional_number; the plain conversion of a failed search has no range to read)", "why_tests_cant": "All numbers of all widths and bases, all texts around them.", "anchors": ["include/ctre/return_type.hpp: captured_content::storage::to_number, to_optional_number", "include/ctre/return_type.hpp: regex_results::to_number, to_optional_number"]}
{"id": "C52", "title": "possessive repetitions and atomic groups against greedy ones", "statement": "If what a possessive repetition or an atomic group would give back cannot be continued, then match, starts_with and search give the same result and the same captures as the pattern with greedy repetitions and repetitions of exactly once (as in (?:..){1,1}) in their place. The set of derivations is the same in any case.", "quantifier": "every pattern with groups numbered from the text that passes the static check tight_check, every subject, with and without the greedy optimisation (refuted without the check: a++ab; a lookahead whose group is read outside it may choose the wrong group)", "why_tests_cant": "All patterns and all subjects at once.", "anchors": ["include/ctre/evaluation.hpp: possessive_repeat", "include/ctre/evaluation.hpp: atomic_group", "include/ctre/evaluation.hpp: lookahead_positive, lookahead_negative"]}
{"id": "C53", "title": "the parser table against the grammar it was generated from", "statement": "The parser table in pcre.hpp reads exactly the texts that the grammar pcre.gram generates; the grammar is unambiguous, also about the semantic actions; and the result of parsing a text is the outcome of performing the actions of its derivation in order, each with the last character read before it. A pattern is accepted with a regex if and only if the grammar derives it and the actions make that regex; a rejected pattern is outside of the grammar or rejected by one of its actions.", "quantifier": "every text, every table of Unicode properties", "why_tests_cant": "The table is generated by a tool outside of the repository; tests cannot compare two infinite languages.", "anchors": ["include/ctre/pcre.gram", "include/ctre/pcre.hpp", "include/ctll/parser.hpp"]}
{"id": "C54", "title": "number of steps of a match", "statement": "For every pattern in which the body of each unbounded repetition consumes, the number of evaluation steps (calls, turns of loops, compared characters) of match and starts_with is at most A*(n+2)^d and of search at most A*(n+2)^(d+1) on every subject of n units, where the degree d is computed from the pattern (one for each unbounded repetition that can give back, on the way to each loop or back reference, plus the nesting of loops) and A depends on the pattern only; the depth of the recursion has the same bound. The greedy optimisation never raises d. Outside of this class a match can take unboundedly many steps, and A can be exponential in the length of the pattern. A range that ends lists at most max(1,n) matches (split: n+1 pieces), and the whole loop over it takes at most A*(n+2)^(d+2) steps (tokenize: d+1); one that has not ended with fuel A*(n+2)^(d+1) never ends.", "quantifier": "every pattern of the class, every subject (array, NUL terminated, UTF-8), position and mode, with and without the greedy optimisation", "why_tests_cant": "Tests run finitely many subjects; the bound is about all lengths.", "anchors": ["include/ctre/evaluation.hpp:46-562", "include/ctre/wrapper.hpp:68-117"]}
{"id": "C55", "title": "the set of points of the first-set analysis", "statement": "calculate_size_of_first is large enough: inserting the first set of any pattern into point_set never writes or reads outside of its array. The points stay sorted by their lower ends, lower_bound finds the first place that is not below, check(low, high) is true exactly if the interval meets a point, and collides is exact on first sets without negation and properties; without a collision nothing is shared for any first set. With negative sets it may report a collision that is none.", "quantifier": "every two first sets", "why_tests_cant": "The capacity argument is about all nested sets; the analysis runs at compile time where an overrun shows up only for the patterns a test contains.", "anchors": ["include/ctre/first.hpp:301-322", "include/ctre/first.hpp:391-549"]}
{"id": "C56", "title": "the work-around for MSVC changes no answer", "statement": "Compiled with CTRE_MSVC_GREEDY_WORKAROUND (which _MSC_VER defines), evaluate_recursive writes its answer through a reference instead of returning it; evaluate and the calls give the same results as without the macro, and what the reference holds on entry never comes out again.", "quantifier": "every pattern, subject, iterator type, flags, modifier list, with and without the greedy optimisation", "why_tests_cant": "The tests of one compiler never see the other branch; a stale result would only show for particular orders of failing and succeeding rounds.", "anchors": ["include/ctre/evaluation.hpp: lines 16-21, evaluate_recursive (344-379), evaluate(repeat) lines 410-416"]}
{"id": "C57", "title": "the ranges list what the meaning of the pattern determines", "statement": "search_all, tokenize and split end and list exactly the matches, tokens and pieces, with their captures, that are computed from the declarative outcomes of the pattern: each match begins at the leftmost place at or behind the end of the one before where the pattern has an outcome and is the preferred outcome there; tokens begin where the token before ended; pieces are what lies between the matches.", "quantifier": "every pattern text that passes the computable checks (termination, priority, compilation) and consumes input (or whose preferred outcome is not empty before the end), every subject: string view, NUL-terminated, UTF-8", "why_tests_cant": "A statement on the whole sequence of matches for all subjects; it joins the iterator loops to the declarative meaning, so an error anywhere between would break it.", "anchors": ["include/ctre/iterators.hpp: regex_iterator (18-94), regex_split_iterator (96-192)", "include/ctre/range.hpp: regex_range, regex_split_range", "include/ctre/wrapper.hpp: search_all, tokenize, split"]}
{"id": "C58", "title": "utf8_iterator arithmetic, comparison and utf8_range agree with the code points of the text", "statement": "Over the encoding of a text, it + k and it - k move by k code points and undo each other, a loop over utf8_range visits the code points of the text and a reverse walk visits them backwards; over any units the loop ends, reads only inside the view and yields the decoding. The comparisons written out for compilers without <=> give what C++20 derives, except pointer != iterator, which gives the opposite (utf8.hpp line 95).", "quantifier": "every well formed text (any units for the loop), every step count, every position, every pair of operands", "why_tests_cant": "Texts of any length with code points of one to four units at any place; the wrong overload is in a branch compiled only before C++20 and not called by the library.", "anchors": ["include/ctre/utf8.hpp: utf8_iterator (18-232), utf8_range (234-247)"]}
{"id": "C59", "title": "exactly when the ranges end", "statement": "The loop over search_all or tokenize ends exactly when every match (token) that the meaning of the pattern determines is not empty or ends at the end of the subject; the loop over split ends exactly when no match is empty and none is found at the very end, and, for a pattern that begins with a subject-begin anchor, exactly when it matches the whole of a non-empty subject or fails in an empty one. When it ends it lists what C57 says; when it does not, no number of steps suffices, and no step reads outside the subject.", "quantifier": "every pattern text that passes the computable checks (termination, priority, compilation), every subject: string view, NUL-terminated, UTF-8; no condition on empty matches", "why_tests_cant": "Non-termination of a loop is not observable by a test, and the condition depends on pattern and subject together.", "anchors": ["include/ctre/iterators.hpp: regex_iterator (18-94), regex_split_iterator (96-192)", "include/ctre/range.hpp: regex_range, regex_split_range"]}
{"id": "C60", "title": "comparing two patterns", "statement": "For two calls (match, starts_with or search; a mode; a pattern text) a computable walk over pairs of derivatives with finitely many representative characters answers Holds, Fails with a subject, or Unknown. Holds: for every subject both calls give an answer and the answers are related as asked (the same, the first implies the second, never both). Fails: with that subject both calls give an answer and the answers are not so related.", "quantifier": "every two pattern texts, functions and modes, with or without the greedy optimisation; Holds covers every subject of code units or code points, of any length", "why_tests_cant": "That two patterns accept the same subjects, or that one accepts only what the other does, concerns infinitely many subjects; tests compare finitely many.", "anchors": ["include/ctre/wrapper.hpp: match, starts_with, search", "include/ctre/evaluation.hpp: evaluate", "include/ctre/atoms_characters.hpp: match_char of sets, ranges, negations"]}
{"id": "C61", "title": "assertions, boundaries and lookarounds as regular expressions in a context", "statement": "A pattern without back references denotes a regular expression whose words stand in a context: assertions, word boundaries, lookaheads and lookbehinds are tests of what is to the left and to the right, nothing is said of positions, captures or preference. The pieces of a subject that the pattern derives are the words of that expression between their neighbours. match answers whether the whole subject is a word, starts_with whether some prefix is, search gives the first place from which some piece is a word where it stands, and such a piece; all decided by derivatives that carry the context. Search of a pattern that starts with an anchor is included when no anchor is under a repetition that may be empty; otherwise it is refuted.", "quantifier": "every pattern text without back references that passes the computable checks (termination, soundness, completeness, compilation, scope of mode switches), every mode, with or without the greedy optimisation, every subject (string view, NUL-terminated, UTF-8)", "why_tests_cant": "The meaning of a lookaround or a boundary depends on everything around the piece; a test fixes one pattern and one subject.", "anchors": ["include/ctre/evaluation.hpp: assert_* (153-208), boundary, lookahead_positive, lookahead_negative, lookbehind_positive, lookbehind_negative, atomic_group", "include/ctre/starts_with_anchor.hpp", "include/ctre/wrapper.hpp: match, starts_with, search"]}
{"id": "C62", "title": "the fold over the pattern and the literals that run it", "statement": "The parser is a fold with one placeholder per character of the pattern, whose moves pop a terminal together with the rule that pushed it. With the library's actions it decides what the loop of the model decides, with the same subject or the same error position. For any actions one placeholder per character is enough, no accepted text does with fewer, the fold never ends undecided, it accepts only at the end with an empty stack, and k placeholders depend on the first k+1 characters only. _ctre_test accepts exactly the texts of the grammar, _ctre_syntax those the actions accept too, _ctre yields the regex of compile, _ctre_gen that regex alone (a switch of several letters leaves more on the stack, refuted).", "quantifier": "every pattern text; for the fold every choice of semantic actions and subject", "why_tests_cant": "The number of folded steps grows with the pattern; tests run finitely many patterns and cannot show that a decision is always reached.", "anchors": ["include/ctll/parser.hpp: results, get_current_term, get_previous_term, move, decide, trampoline_decide, correct_with (15-188)", "include/ctll/grammars.hpp: augment_grammar (91-117)", "include/ctll/actions.hpp: empty_actions, identity", "include/ctre/literals.hpp: _ctre, _ctre_test, _ctre_gen, _ctre_syntax"]}
{"id": "C63", "title": "comparing two patterns always gives an answer", "statement": "Two calls whose patterns are explained by C48 can be compared by a procedure that always answers: equality, inclusion, disjointness or any other relation of their answers either holds for every subject or fails at a subject that the procedure returns, and no shorter subject fails. With enough fuel it is never Unknown, more fuel does not change the answer, and it never contradicts the comparison of C60. Underneath, inclusion of the words of two textbook expressions is decided.", "quantifier": "every two calls (function, mode, pattern text) with explained patterns, every relation of two answers, every subject of characters", "why_tests_cant": "Agreement of two patterns on all subjects is a statement about infinitely many subjects; a test can only find a difference.", "anchors": ["include/ctre/wrapper.hpp: match_method, search_method, starts_with_method", "include/ctre/evaluation.hpp: evaluate"]}
{"id": "C64", "title": "the exact meaning of the calls", "statement": "Every call of match, starts_with and search answers, and the answer is the first of the outcomes of the pattern in order of preference, where one iteration of a repetition keeps only the first outcome that made progress and is not taken back, and where the repetitions that the greedy optimisation makes possessive are written possessively. The result, its beginning, its end and every group are those of that outcome; without an outcome the call fails. This holds with the bodies of repetitions that C47 leaves out (ambiguous ones, ones that can be empty, nested ones), on contiguous, UTF-8 and NUL-terminated subjects. The greedy optimisation is exactly a rewriting of the pattern.", "quantifier": "every compiled pattern that passes the check (no group refers to itself, unlimited repetitions consume, lookbehinds hold what can be evaluated backwards) and terminates, every subject, mode and function", "why_tests_cant": "The difference from the usual meaning shows only for patterns where the first outcome of an iteration is not the one the rest needs, at unbounded depth and for unboundedly long subjects.", "anchors": ["include/ctre/evaluation.hpp: evaluate(repeat), evaluate(lazy_repeat), evaluate(possessive_repeat), evaluate(atomic_group), evaluate(end_cycle_mark)", "include/ctre/first.hpp: collides", "include/ctre/wrapper.hpp: match_method, search_method, starts_with_method"]}
{"id": "C65", "title": "the library's own tests", "statement": "The model gives what the assertions of the library's test suite expect, all 1123 of them in 17 files: trees built by the parser, syntax errors, results of match, search and starts_with and their groups, fixed strings, decoding, the MSVC variant and the Unicode properties. What tests/is_prime.cpp checks for twelve subjects holds for all: match of .?|(..+?)\\g{1}+ always answers, and it succeeds exactly on the texts shorter than two characters and on the repetitions of a text of at least two characters; so on n equal characters it fails exactly when n is prime. Without the optimisation of greedy repetitions the assertion of tests/matching.cpp line 133 never ends.", "quantifier": "every row of the tables; every subject, character and number; the optimisation on or off", "why_tests_cant": "The tests check twelve subjects of one length each; the theorem speaks about all subjects. That an assertion does not end cannot be observed by running it.", "anchors": ["tests/matching.cpp", "tests/matching2.cpp", "tests/matching3.cpp", "tests/generating.cpp", "tests/parsing.cpp", "tests/is_prime.cpp", "tests/_unicode.cpp", "include/ctre/evaluation.hpp: evaluate_recursive"]}
{"id": "C66", "title": "what the README promises", "statement": "Every text that is accepted as a pattern passes a small scanner that keeps track of groups, braces, brackets and escapes. Hence a backslash that is not itself escaped is always followed by one of the known characters (an unknown escape is an error wherever it stands), and outside brackets and escapes an opening parenthesis followed by a question mark is followed by one of : > ! = < i c m s (comments, conditions, callouts, recursion and other names are errors), parentheses balance, and a brace opens a number. The programs of the README do what they say on every subject: extract_number returns the digits exactly on texts of letters followed by digits, extract_date the three parts exactly on dates, lexer tells words of letters from words of digits. Options are accepted, though listed as unsupported, and \\012 is accepted with another meaning.", "quantifier": "every text and property table; every subject, optimisation on or off", "why_tests_cant": "The tests reject a few texts with one unsupported feature each; the theorem speaks about every text that contains it, of any length and in any context. The programs are checked on one date.", "anchors": ["README.md: 25-46", "README.md: 164-241", "include/ctre/pcre.hpp", "include/ctll/parser.hpp"]}
{"id": "C67", "title": "words and separators", "statement": "When a pattern is one or more characters of a class, search_all shows exactly the words of the subject (the longest stretches of characters of the class, in order), and split shows the parts between the stretches; when it is one character of a class, split shows all the parts between such characters, also the empty ones at the beginning, at the end and between two separators. The README's search_all<\"([0-9]+),?\"> shows in its group exactly the numbers of the subject. On UTF-8 the words are shown encoded; search_all<\"\\p{Letter}+\"> shows exactly the words of Unicode letters.", "quantifier": "every class, flags, optimisation on or off, every subject of any length; every text of scalar values (without the eight misclassified dashes) for the last", "why_tests_cant": "The tests split and search a few fixed texts; the theorem says what is shown for every text, including empty parts and the ends.", "anchors": ["README.md: 245-275", "include/ctre/range.hpp", "include/ctre/iterators.hpp", "include/ctre/evaluation.hpp"]}
{"id": "C68", "title": "tokenize is a lexer", "statement": "When a pattern is a choice of rules (one character of a class, a run, a name, a literal text; each in a numbered or named group or in none), tokenize lists exactly the tokens of the subject: at each place the first rule that applies is taken, and takes as much as it can; the list ends where no rule applies. Each result shows the token, its rule's group shows the same text, and the groups of the other rules are not set. The list is unique and covers the subject up to the rest. On UTF-8 the tokens are the encodings.", "quantifier": "every list of rules, flags, optimisation on or off, every subject of any length", "why_tests_cant": "No test calls tokenize; the order of the rules, the longest token and the groups that are not set are seen only over all texts.", "anchors": ["include/ctre/range.hpp", "include/ctre/iterators.hpp: 18-94", "include/ctre/wrapper.hpp", "README.md: 220-243"]}
{"id": "C69", "title": "the exact lists of the ranges", "statement": "search_all, tokenize and split list exactly the matches, tokens and pieces computed from the exact outcomes of the pattern under the library's own discipline (an iteration of a repetition keeps its first outcome, optimised repetitions keep what they took); their loops end exactly when no such match is empty before the end (split: nor at the end; an anchored split: when the whole subject is matched, or nothing in an empty one), and otherwise no number of steps suffices. Where the usual meaning applies as well the two accounts agree.", "quantifier": "every pattern text that passes the computable checks of C64, optimisation on or off, every subject: string view, NUL-terminated, UTF-8, any bytes", "why_tests_cant": "The usual meaning is no guide for these patterns, non-termination is not observable by a test, and the lists depend on pattern and subject together.", "anchors": ["include/ctre/iterators.hpp: regex_iterator (18-94), regex_split_iterator (96-192)", "include/ctre/range.hpp: regex_range, regex_split_range", "include/ctre/evaluation.hpp"]}
{"id": "C70", "title": "a utf8_range as the subject", "statement": "match, starts_with, search and the three ranges on a ctre::utf8_range behave on the encoding of a text as on its code points, with every position moved to the offset where that code point begins, lazy repetitions and back references included; on any bytes patterns that do not step back behave as on what the decoder reads. size() of a capture counts code points, unit_size() code units, to_string() is the encoding of the captured text. On bytes whose last sequence is cut short the capture can end beyond the bytes, and to_string() then reads outside them.", "quantifier": "every compiling pattern text, optimisation on or off, every flag set, every well-formed text / every byte string, every capture", "why_tests_cant": "The repository has no test that lazy repetitions or back references see whole code points on such a range, and malformed tails are unbounded in number; reading past the end is not observable.", "anchors": ["include/ctre/utf8.hpp: utf8_range (233-245), utf8_iterator", "include/ctre/wrapper.hpp: exec(Range &&) (201-203)", "include/ctre/return_type.hpp: size, unit_size, data_unsafe, to_string"]}
{"id": "C71", "title": "rewriting patterns", "statement": "A part of a pattern can be replaced, inside any surroundings but a lookbehind, by one with the same outcomes in the same order of preference, and no call and no range changes its result: same answer, same groups, same lists, same termination. Laws that allow it: alternatives (nesting, later copies, what never matches), sequences (nesting, empty parts, multiplying out alternatives in front, taking out a common beginning with at most one outcome), unrolling repetitions of one letter, a possessive repetition as a greedy one in an atomic group, double and repeated lookaheads, literal strings and sets. Laws of regular expressions that fail here: r{1} = r, r+ = rr*, ab|ac = a(b|c), nested atomic groups, and with the optimisation a*+ = (?>a*).", "quantifier": "every pattern covered by the computable checks of C64, every surroundings, every state and subject, optimisation on or off", "why_tests_cant": "Equivalence of two patterns quantifies over all surroundings and all subjects; the failing laws show that intuition is no guide.", "anchors": ["include/ctre/evaluation.hpp: evaluate (46-562)"]}
{"id": "C72", "title": "results as subjects and pipes", "statement": "A call or a range on a part of an array, on a capture or on a result gives what it gives on the text of the part alone, moved to its place; nothing outside the part is read, so anchors, word boundaries and lookarounds do not see what is around. A pipe of a range and any number of match, search and starts_with stages ends and lists, in order, each piece replaced by the outcome of the stages on its text, without those on which a stage fails; computed by the meaning of the patterns alone. Structured bindings of a result are the whole match and the groups in the order of their parentheses, when no group hides and no switch has several letters. A group that took no part is, as a subject, the empty one.", "quantifier": "every array, every part of it, every pattern (for the exact lists: those covered by the checks of C64 and C69), every number of stages, optimisation on or off", "why_tests_cant": "The surroundings of a part and the length of a pipe are unbounded; a read just outside the part is invisible to a test on an array that goes on.", "anchors": ["include/ctre/wrapper.hpp: multi_exec, exec, operator| (169-177, 201-203, 261-277)", "include/ctre/range.hpp: regex_range, regex_split_range, multi_subject_range (9-132)", "include/ctre/return_type.hpp: begin, end, get, tuple_size, tuple_element (71-76, 499-504, 528-530, 559-566)"]}
{"id": "C73", "title": "ctll: the LL(1) machine for every grammar", "statement": "For every grammar written for ctll and all semantic actions, a text the parser accepts is a sentence of the context-free grammar the rule overloads stand for, and the resulting subject is that of the sentence's actions in order, each given the last character before it. If the grammar passes the LL(1) check, the parser always comes to a decision within as many placeholders as the input has characters, reads every sentence and rejects every other text, and no text has two sentences. The grammar of patterns passes the check; the parser of patterns is this machine on its table, and the table generates the texts of pcre.gram. With ignore_unknown there is always a program. Rules that overlap without an exact term have no program; a rule that pushes its own nonterminal first never ends.", "quantifier": "every grammar (any number of nonterminals, overloads and matchers), all semantic actions and subjects, every input", "why_tests_cant": "Grammars, actions and inputs are unbounded; every test instantiates one grammar on a few texts.", "anchors": ["include/ctll/grammars.hpp: term, range, set, neg_set, anything, augment_grammar (6-112)", "include/ctll/parser.hpp: decide, move, trampoline_decide (15-186)", "include/ctll/actions.hpp: ignore_unknown (21-26)", "include/ctre/pcre.hpp: rules (13-461)"]}
{"id": "C74", "title": "no hard errors outside five words", "statement": "A pattern text in which none of five words stands - a mode switch of several letters, a character by a number in braces of more than eight digits, a reference by name, a possessive option directly behind a parenthesis, a dash behind a named class - and which does not have both a lookbehind and a mode switch is either a regex or is rejected with the library's own diagnosis; its parse never reaches a semantic action without overload. None of the conditions can be left out: each has a text that breaks only this one and is a hard error.", "quantifier": "every text of any length over all characters, every table of Unicode properties", "why_tests_cant": "Texts are unbounded, and a hard error cannot be tested at all: the test program does not compile.", "anchors": ["include/ctre/pcre.hpp: rules (13-461)", "include/ctre/actions/*.inc.hpp: apply", "include/ctll/parser.hpp: decide (77-153)"]}
{"id": "C75", "title": "ordinary texts are programs", "statement": "A pattern text in which none of the words of C74, no lookbehind, no atomic group and no backreference stands is rejected, or every match, starts_with and search with its regex, on arrays, zero-terminated strings and UTF-8, is a well-formed program; with the greedy optimisation if each node of the regex passes a check (no mode switch, no complement below a complement, no fused possessive repetition that cannot match). If its repetitions end, every such call answers on every subject. None of the three further words and not the check can be left out.", "quantifier": "every text of any length, every subject, every call, optimisation on or off", "why_tests_cant": "Texts and subjects are unbounded, and a call that is no program cannot be tested at all: the test does not compile.", "anchors": ["include/ctre/pcre.hpp: rules (13-461)", "include/ctre/evaluation.hpp: evaluate (46-562)", "include/ctre/first.hpp: first, collides (11-549)"]}
{"id": "C76", "title": "everyday texts are programs with every option", "statement": "A pattern text in which none of the words of C75, no mode switch, no possessive repetition and no complement other than [^...] (no \\D \\S \\W \\H \\V \\N \\P, no [:^) stands is rejected, or every match, starts_with and search with its regex, on arrays, zero-terminated strings and UTF-8, with the greedy optimisation and without, is a well-formed program: no check of the regex is left. If its repetitions end, every such call answers on every subject, and (under the check of C64 on characters) with the best outcome. None of the four further words can be left out.", "quantifier": "every text of any length, every subject, every call, optimisation on or off", "why_tests_cant": "Texts and subjects are unbounded, and a call that is no program cannot be tested at all: the test does not compile.", "anchors": ["include/ctre/pcre.hpp: rules (13-461)", "include/ctre/actions/set.inc.hpp", "include/ctre/actions/fusion.inc.hpp: combine_repeat (9-32)", "include/ctre/first.hpp: first, collides (11-549)"]}
{"id": "C77", "title": "texts all of whose calls answer", "statement": "A pattern text of less than 2^58 characters in which none of the words of C74 and no closing parenthesis followed by *, + or { stands has only repetitions that end (the check of C31 holds for its regex, also after the fusion of options). So an everyday text (C76) without that word is rejected, or every match, starts_with and search with its regex answers on every array, every zero-terminated string and (for regexes without lazy repetitions and looks back) every byte string, with the greedy optimisation and without; an ordinary text (C75) likewise without the optimisation. The conditions are about the characters of the text alone. The word cannot be left out: there is an everyday text with a call that never answers.", "quantifier": "every text of less than 2^58 characters, every subject, every call", "why_tests_cant": "Texts and subjects are unbounded; a test cannot show that all calls end, nor that fused limits do not wrap modulo 2^64.", "anchors": ["include/ctre/pcre.hpp: rules (13-461)", "include/ctre/actions/fusion.inc.hpp: combine_max_repeat_length, combine_repeat (4-32)", "include/ctre/actions/repeat.inc.hpp", "include/ctre/actions/options.inc.hpp (24-41)", "include/ctre/evaluation.hpp: repetitions (271-440)"]}
{"id": "C78", "title": "compiled trees have no empty lists; exact answers from the characters", "statement": "In the regex of every accepted pattern text each sequence, alternative, repetition, group, lookaround and atomic group has content, also after fusion and after the reversal of lookbehinds. For ordinary texts (C75) the conditions under which C64 gives exact answers reduce to the characters of the regex: each below 2^31, each range in order, and each range read case-insensitively either of letters of one case or closed under the change of case. So an everyday text (C76) without repeated groups (C77) is rejected, or every match, starts_with and search under such flags answers with the best outcome of the pattern on every array, with the greedy optimisation and without. The condition on the characters cannot be left out: [Z-a] read case-insensitively has an outcome on A that the call does not find.", "quantifier": "every pattern text, every set of flags, every subject of values in range, every call", "why_tests_cant": "Texts and subjects are unbounded; that no action ever leaves an empty list is an invariant of all runs of the parser.", "anchors": ["include/ctre/actions/sequence.inc.hpp", "include/ctre/actions/fusion.inc.hpp (4-68)", "include/ctre/actions/options.inc.hpp (14-41)", "include/ctre/actions/look.inc.hpp (41-66)", "include/ctre/rotate.hpp (19-86)", "include/ctre/atoms_characters.hpp"]}
{"id": "C79", "title": "exact answers from the text alone", "statement": "Let a pattern text consist of characters from 0 to 2^31 - 1, without eight hexadecimal digits in a row, and let the Unicode tables be in that range. Then every literal of its regex is a character below 2^31: escapes by number are read without wrapping, strings and sets keep the characters, classes are those of the named tables. Without a minus sign in the text every range of the regex is one of a named class, in order and right in both cases. So an everyday text (C76) without repeated groups (C77), of less than 2^58 such characters and without a minus sign, is rejected, or every match, starts_with and search with its regex answers on every array of values in range, under all flags, with the greedy optimisation and without, with the best outcome of the pattern; with minus signs the same holds if the ranges of the regex are in order. All conditions of the first form are about the characters of the text. None can be left out.", "quantifier": "every pattern text, every table of properties, every set of flags, every subject of values in range, every call", "why_tests_cant": "Texts, subjects and tables are unbounded; a test cannot show that no run of the parser leaves a literal out of range.", "anchors": ["include/ctre/pcre.hpp: rules (13-461)", "include/ctre/actions/hexdec.inc.hpp", "include/ctre/actions/characters.inc.hpp", "include/ctre/actions/set.inc.hpp", "include/ctre/actions/properties.inc.hpp", "include/ctre/atoms_characters.hpp"]}
{"id": "C80", "title": "type lists of ctll are lists and sets", "statement": "On the type lists of ctll, rotate reverses the list; front, pop_front and pop_and_get_front agree with each other and with push_front; concat adds the sizes. add_item keeps a list without repetitions so, loses nothing, adds at most the item, and is idempotent; after it exists_in finds the item. remove_item takes out that type, every occurrence and nothing else, in order. When no other type of the list converts to the item, exists_in, add_item and remove_item are membership, insertion and deletion of finite sets. Otherwise they are not: exists_in also counts types that convert to the item, add_item then does not add it, and remove_item, which looks at the type itself, leaves it to be found.", "quantifier": "every type of elements, every relation of conversion, every list and item", "why_tests_cant": "The lists and the relation of conversion are arbitrary; the library has no use of the set operations that a test could go through.", "anchors": ["include/ctll/list.hpp: list, size, empty, concat, push_front, pop_front, pop_and_get_front, front (8-48)", "include/ctll/list.hpp: rotate_item, rotate (51-57)", "include/ctll/list.hpp: item_matcher, exists_in, add_item, remove_item (60-89)"]}
