# Formal model of CTRE (compile-time regular expressions) in Rocq/Coq 8.16.1

## 1. What is modelled

Source read as text: `/repo/include/ctre`, `/repo/include/ctll` (never built or run).

| file in `rocq/theories` | models | source |
|---|---|---|
| `Chars.v`   | `match_char` of character, char_range, set, negative_set, negate, enumeration; class definitions; flags | atoms_characters.hpp, flags_and_modes.hpp |
| `Syntax.v`  | regex AST and stack atoms | atoms.hpp |
| `First.v`   | first sets, point_set, collides | first.hpp |
| `View.v`    | iterators as operation tables (array, zero terminated, UTF-8, raw char8_t pointer, reversed) | wrapper.hpp, utf8.hpp, std::reverse_iterator |
| `Eval.v`    | all `evaluate` overloads, fuelled | evaluation.hpp |
| `Api.v`     | match / search / starts_with methods, anchor analysis, captures list | wrapper.hpp, starts_with_anchor.hpp, find_captures.hpp |
| `Iter.v`    | regex_iterator, regex_split_iterator, multi_subject_range | iterators.hpp, range.hpp |
| `Results.v` | comparison operators and conversions of results | return_type.hpp |
| `Utf8.v`, `FixedString.v` | utf8_iterator, pattern decoding | utf8.hpp, fixed_string.hpp |
| `Grammar.v`, `Actions.v`, `Parser.v` | LL(1) table, semantic actions, parser | pcre.hpp, actions/*.inc.hpp, parser.hpp |
| `Spec.v`    | independent specification: ordered enumeration `enum`, relation `sem` | - |
| `EvalMono.v`, `EvalInv.v`, `ApiProofs.v` | fuel monotonicity, invariants of captures and positions, whole calls | - |
| `CharProofs.v`, `SpecProps.v`, `EvalSem.v`, `EvalRefine.v`, `SpecCut.v`, `EvalTop.v`, `EvalSound.v`, `Checks.v`, `Match.v` | refinement of the specification (C01-C03) | - |
| `OptProofs.v` | the greedy optimisation, with letters under case folding (C30) | - |
| `Term.v`, `Mode.v` | termination (C31), mode switches (C38) | - |
| `ModeSem.v`, `ModeSound.v`, `ModeCalls.v` | switches anywhere: semantics that passes the mode along, soundness of the calls (C38) | - |
| `ModeEnum.v`, `ModeRefine.v`, `ModeCut.v`, `ModeOpt.v`, `ModeTop.v` | switches anywhere: ordered outcomes, completeness, priority and the greedy optimisation (C02, C03, C30, C38) | - |
| `Follow.v` | committing to the first outcome of an iteration is harmless when what follows tells the outcomes apart: a check over the first characters of what may follow, and its proof (C02, C03, C38, C47) | - |
| `Loosen.v` | keeping only the preferred outcome of a possessive repetition or an atomic group is harmless when what it would give back cannot be continued; the groups of a lookahead that are not read outside it do not matter (C02, C38, C47, C52) | - |
| `ModeScope.v` | textual scope of switches and the patterns on which the library respects it (C38) | - |
| `Compiles.v`, `Total.v`, `ModeText.v` | a check of the pattern that follows the instantiated templates and rules `Ill` out; total correctness, also from the text of the pattern (C35, C43, C47) | - |
| `Lang.v`, `Textbook.v` | textbook regular expressions, derivatives, and the expression that a regular pattern denotes (C48) | - |
| `ErrorPos.v` | the parser with `results::position`; texts of the grammar; completions (C49) | `ctll/parser.hpp` 42-68, 104-181, `wrapper.hpp` 279-305 |
| `GramFile.v` (generated by `tools/gen_gram.py`) | the grammar: sets of characters, productions with semantic actions | `ctre/pcre.gram` 1-187 |
| `Gram.v` | the sentences of the grammar (`sentence`), the table of `Grammar.v` against it, the sentence of a text (C53) | `ctre/pcre.gram`, `ctre/pcre.hpp` |
| `Cost.v`, `CostRun.v`, `CostRank.v` | the number of steps of an evaluation, its bound and the degree of the bound (C54) | `ctre/evaluation.hpp` 46-562, `ctre/wrapper.hpp` 68-117 |
| `CostRange.v` | the number of elements of a range and of steps of a whole loop over it (C54) | `ctre/iterators.hpp` 18-192, `ctre/wrapper.hpp` 120-157 |
| `MsvcEval.v` | the evaluator with CTRE_MSVC_GREEDY_WORKAROUND (C56) | `ctre/evaluation.hpp` 16-21, 344-379, 410-416 |
| `PointSet.v` | the point set as an array of fixed capacity; sortedness; exactness of collisions (C55) | `ctre/first.hpp` 301-322, 391-549 |
| `RangeSim.v` | the ranges on NUL-terminated and UTF-8 subjects, and that they never leave the subject (C08-C10, C12, C19, C27) | `wrapper.hpp` 120-145, 178-203 |
| `Blind.v`, `Combine.v` | the evaluator reads the table of captures only at the numbers of the pattern; `a \| b` and `a >> b` of patterns (C50) | `operators.hpp` |
| `IterSplit.v` | comparison of split iterators, and of iterators with the sentinel (C41) | `iterators.hpp` 64-93, 162-191 |
| `Number.v` | `to_number`, `to_optional_number`, integer `from_chars` (C51) | `return_type.hpp` 126-140, 434-443 |
| `Sim.v`, `Utf8Proofs.v`, `Views.v` | simulation between views, UTF-8, letter case (C09-C12, C19) | - |
| `Anchor.v`, `Tail.v`, `Constructs.v`, `Repeat.v`, `Behind.v`, `Classes.v` | one construct at a time: anchored search (C29), lookahead (C22), assertions, boundaries and backreferences (C24, C25, C36), repetitions of a class and possessive/atomic commitment (C20, C21), lookbehind (C23), extension of the classes (C18) | - |
| `IterProofs.v` | ranges and iterators (C26-C28, C34, C41); `Results.v` also proves C33, C42 | - |
| `RangeSpec.v` | lists of matches, tokens and pieces defined from the ordered outcomes alone; the ranges produce them (C57) | - |
| `Utf8Iter.v` | utf8_iterator: `+`, `-`, postfix forms, the comparisons before and since C++20; loops over utf8_range (C58) | utf8.hpp 18-247 |
| `RangeEnd.v` | exactly when the loops over the three ranges end, decided from the ordered outcomes (C59) | - |
| `SameType.v` | the comparison used by `make_sequence` is equality; which repetitions are merged (C35) | - |
| `Equiv.v` | comparison of two regular patterns: the same, within, never both; representatives of characters, derivatives (C60) | - |
| `AnySearch.v`, `Context.v` | search of anchored patterns is right too; patterns without references as regular expressions whose words stand in a context (C47, C61) | - |
| `Trampoline.v` | the parser as the fold of the source, for any semantic actions; the literals (C62) | `ctll/parser.hpp` 15-188, `ctll/grammars.hpp` 91-117, `ctll/actions.hpp`, `ctre/literals.hpp` |
| `Nfa.v` | the complete comparison of two calls: positions of an expression as an automaton, sets of positions, breadth first (C63) | none (spec side, on top of `Equiv.v`) |
| `Possess.v` | the greedy optimisation as a rewriting of the pattern (C64) | proof side, about `becomes_possessive` of `Eval.v` |
| `Committed.v` | outcomes of a pattern in order, one iteration keeping its first outcome that made progress (C64) | none (spec side) |
| `CommittedRefine.v`, `CommittedTop.v` | the evaluator without the optimisation returns the first of them; the calls (C64) | proof side |
| `RepoTests.v`, `RepoData.v` | what an assertion of /repo/tests means in the model; the 1123 assertions of 17 of its files as rows, printed by `tools/repo_tests.py` (C65) | `tests/*.cpp` |
| `Primes.v` | which texts the pattern of `tests/is_prime.cpp` matches (C65) | proof side |
| `Lexical.v` | a scanner of fourteen kinds of states that every pattern passes, and what follows about escapes, groups, parentheses and braces (C66) | spec and proof side, against `pcre.hpp` |
| `Fields.v`, `ReadMe.v` | rows of fields: what a sequence of (repetitions of) characters of classes derives, as a splitting into words; the programs of the README (C66) | proof side; `README.md` 164-241 |
| `Words.v` | `words`, `parts`, `squeeze`: cutting a text at characters; the preferred outcome of a class and of a run of a class, and the lists of C57 for them (C67) | spec and proof side |
| `Tokens.v` | `lexes`: what a lexer does with a list of rules; the preferred outcome of a choice of rules, and the tokens of C57 for it (C68) | spec and proof side |
| `RangeExact.v` | the lists of the ranges, and when their loops end, from any account of the attempts; with the account of C64 (C69) | spec and proof side |
| `Utf8Subject.v` | a `ctre::utf8_range` as the subject; `size`, `unit_size`, `to_string` of captures holding `utf8_iterator`s (C70) | utf8.hpp 233-245, wrapper.hpp 175-177, 201-203, return_type.hpp 80-124, 163-168 |
| `Refactor.v` | patterns with the same outcomes in the same order, replacement inside any surroundings, laws (C71) | none (spec and proof side, on top of `Committed.v`) |
| `Blank.v` | captures that took no part hold no position (C42, C72) | - |
| `Pipe.v` | a part of an array, a capture or a result as the subject; ranges on it; `range \| re1 \| re2 ...` (C72) | wrapper.hpp 169-177, 201-203, 261-277, range.hpp 9-132, return_type.hpp 71-76, 499-504 |
| `Ctll.v` | the LL(1) machine of ctll for every grammar and all semantic actions, context-free grammars as its specification (C73) | `ctll/grammars.hpp` 6-112, `ctll/parser.hpp` 15-186, `ctll/actions.hpp` 21-26, `ctll/list.hpp` 26-48 |
| `CtllCheck.v` | deciding that such a grammar is LL(1); tables computed, then only checked (C73) | - |
| `CtllPcre.v` | the parser of patterns as an instance (C73) | `ctre/pcre.hpp` 13-461 |
| `Frame.v` | captures a pattern does not mention; alternatives that fail (C40) | proofs about `Eval.v` |
| `HardError.v` | a type system for the LL(1) table and the stack of the actions: texts that cannot be hard errors (C74) | proofs about `Grammar.v` and `Actions.v` |
| `Full.v` | no list of a compiled tree is empty; the conditions of C64 from those on the characters (C78) | proofs about `Actions.v` and `Parser.v` |
| `Neat.v` | the characters and ranges of a compiled tree from those of the text (C79) | proofs about `Actions.v`, `Grammar.v` and `Parser.v` |
| `TypeList.v` | the lists of types of ctll and the set operations on them, for every relation of implicit conversion (C80) | `ctll/list.hpp` 8-89 |
| `Programs.v` | regexes all of whose calls are programs, from the text (C75) | proofs about `Eval.v`, `First.v` |
| `ParserProofs.v` | LL(1) table, termination of the parser (C15) | - |
| `Literals.v` | runs of the parser on spelled texts and numbers (C16, C17, C37) | - |
| `Numbering.v` | a scan of the pattern text; the parser numbers the groups in its order (C32) | - |
| `Fusion.v` | the parser without rewriting (`plain_compile`); simulation of the two parsers; equal languages (C35) | - |
| `FusionRuns.v` | merging two repetitions of one class keeps the order of preference; consequences for match and search (C35) | - |
| `PlainNumbers.v` | the groups of the unrewritten tree are numbered like those of the compiled one (C35) | proofs about `Fusion.v` |
| `Pattern.v` | specification of the pattern syntax for C43: texts and the AST each denotes, no table, no stack | - |
| `PatternRead.v`, `PatternParse.v` | every such text is read to that AST; nothing else is read (C43) | - |
| `PatternLink.v` | the same for the library's actions and for the actions without rewriting; consequences for match and search (C43) | - |
| `Switches.v` | a leading mode switch of several letters means its last letter (C38) | - |
| `UnicodeData.v`, `Unicode.v` | tables, lookups, names of the Unicode data base, the choice of the predicate for `\p` | unicode-db.hpp, atoms_unicode.hpp, properties.inc.hpp |
| `UnicodeSearch.v` | what the searches find (C44) | - |
| `UnicodeRef.v` | reference data of Unicode 14.0.0, printed from CPython 3.11 `unicodedata` and `str`, not from /repo; part of the specification of C45 | - |
| `UnicodeTables.v`, `UnicodeProps.v` | every lookup is constant between 7319 break points; totality; property as union of ranges | - |
| `UnicodeFacts.v`, `UnicodeNames.v` | agreement with the reference (C45), names and `\p` end to end (C46) | - |
| `Properties1.v` .. | property theorems, each `exact lemma`, with `Print Assumptions` and examples | - |

`tools/gen_grammar.py` extracts the table of `Grammar.v` from the text of pcre.hpp, `tools/gen_unicode_data.py` the tables of `UnicodeData.v`; `tools/gen_unicode_ref.py` prints `UnicodeRef.v`.

### Conventions

* Subject: `list Z` of code unit values as read by `*it` (plain `char` may be negative).
  Positions: `nat` offsets from `begin`. Iterators: a `view`, a table of operations each returning
  `option`; `None` is undefined behaviour (read outside the buffer, step outside `[begin,end]`).
* `evaluate`: one Gallina function on explicit fuel. Outcomes are distinct: `Ok caps`, `No`,
  `Fuel`, `UB`, `Ill` (the C++ program does not compile: an overload is missing or a
  reverse iterator would have to convert to the result iterator). Fuel exhaustion never looks like a
  normal result; theorems quantify over the fuel.
* The C++ parameter pack stack `ctll::list<...>` is a Gallina list of atoms. Overload resolution is
  a `match` on its head.
* Counts in repetitions are `N` (size_t); loop counters are `N` as well (a size_t counter cannot reach
  2^64 iterations on a finite subject because each iteration consumes input).
* Template-level failure ("does not compile") is found when evaluation reaches the construct, i.e.
  `Ill` under-approximates the set of patterns a compiler rejects. `compiles` (C47) is a static check for its absence.

### Simplifications (all deliberate)

* The parser and the matcher know a Unicode property as a finite union of code point ranges; the data base is the
  parameter `props` of the actions, arbitrary in C01-C43. C44-C46 model the data base itself (`Unicode.v`); the ranges
  handed to the matcher are `unicode_props`, the lookups restricted to 0..U+10FFFF (`unicode_props_spec`). The library
  itself also looks up larger values (`C44_beyond_refuted`), so `\p` on subject values above U+10FFFF and on negative
  `char`s is outside of the model; the theorems of C46 assume code points.
* `UnicodeData.v` holds the tables of unicode-db.hpp as printed from its text by a script; the tries as the arrays in
  the source, trailing zeros left to `rd`. Reading outside of an array is `UB`.
* `noexcept`, inlining attributes, constexpr evaluation limits, stack depth: not modelled.
  The branch CTRE_MSVC_GREEDY_WORKAROUND of the evaluator is modelled in `MsvcEval.v` and proved to give the same results (C56).
* The literal type rule is modelled as "values below 128 are `char`, others `char32_t`", which is what
  the parser actions produce.
* Streams, `std::string` conversion: only the span they read is modelled. `std::from_chars` for integers is modelled
  after [charconv.from.chars] (`Number.v`); floating point targets and character types other than `char` are not.

## 2. Trusted base

* Coq kernel 8.16.1 (and `vm_compute`).
* `Print Assumptions` is printed under every property theorem; target: "Closed under the global context".
* Fidelity of the transcription: each definition cites the lines it models.

## 3. Plan per property

See the table below; status is kept current in MANIFEST.json.

* C01 soundness, C02 completeness, C03 priority: declarative relation `sem` and ordered enumeration
  `enum` (spec); evaluator without optimisation = first element of the enumeration; optimisation by C30.
  General completeness is refuted by a computed witness (repeat iterations are atomic).
  `Follow.v`: the committed iterations give the same first outcome as full backtracking when the first characters of
  what may follow an iteration (its own next round or the rest of the pattern) exclude all but its first outcome, so
  `(?:[a-z]+\.)+com` and `-?[0-9]+(?:\.[0-9]+)?` are covered (`acheck`, part of `mpriority_check`).
* C04, C06, C07, C08, C40: invariants by induction on fuel, for all patterns.
* C40, the alternatives: the five functions of the evaluator commute with adding captures that the stack does not mention; so an
  alternation is its first alternative alone, or if that fails the others alone, with empty captures for the rest. Backreferences across
  alternatives are excluded: alone such an alternative does not compile.
* C05, C29: search loop against "least position"; anchor analysis sound for patterns without zero-time
  repetition of an anchor; refuted otherwise.
* C09, C10, C11, C12: simulation between views; UTF-8 codec by arithmetic and finite sweep.
  Lazy repetition on UTF-8 refuted; truncated sequences refuted.
* C13, C14, C39: pattern decoding round trips; refutations for malformed input.
* C15: parser step bound by a ranking function on grammar symbols.
* C16, C17, C37: runs of the LL(1) machine on all literal/escaped texts and digit strings.
* C18, C19: class extension theorems over all values; case flip invariance.
* C20, C21, C22, C24, C25, C36: unfolding theorems against small specs. C20 for any body in the exact fragment: `Properties25.v`, from the textbook meaning of C48.
* C23: `rotate` against language reversal.
* C26, C27, C28, C34: list-valued iterator models with fuel; history theorems by induction.
* C30: first-set soundness + possessive/greedy equivalence.
* C31: termination measure; refutation by a diverging run (for every fuel).
* C32: parser action invariants, `find_captures`.
* C33: boolean algebra of the operators; refutation for unmatched captures.
* C35: a reference parser `plain_compile` with the same grammar and actions that never rewrite. For every accepted text both ASTs have the same groups and derive the same texts with the same captures when `fusible` (decidable: bounds in order, no possessive repetition directly followed by a possessive one, sums of bounds below 2^64); each of the three conditions is shown necessary by a refutation. For class bodies the order of preference is kept, for all three kinds; for other bodies it is not (refutation).
* C38: `msem` passes the mode along as the library does, `menum` enumerates its outcomes in order; soundness, completeness,
  priority and the greedy optimisation for switches anywhere (decidable: `msound_check`, `mcomplete_check`,
  `mpriority_check`, `mopt_check`); `tsem` is the textual scope, the same on `scope_check`. Refutations: leak, later
  alternatives, several letters.
* C41, C42 (added): iterator comparison; conversions of captures.
* C43 (added): `pattern_text props B u r` is an inductive specification of the pattern language (concatenative: texts of parts are concatenated, groups are numbered left to right), parametric in the way ASTs are built (`B`). `C43_syntax`: without a mode switch of several letters `compile u = CRegex r` iff `pattern_text library_builders u r`; `C43_unambiguous`; `C43_language`, `C43_match`, `C43_search`: from the text to the answer, in terms of the AST without rewriting. Character classes named in the specification are the constants of `Chars.v`; their meaning is C18. Two oddities of the library are part of the specification: `\g{name}` is not available at the very beginning of a named group, and an alternative may be empty only at the beginning and at the end. Refutations: `x(?im)a` compiles although it is not in the syntax (and loses `x`); `(?<b>\g{a})` is ill-formed.
* C44-C46 (added): statements over all code points are reduced to the break points of all tables (`B`, proved to be break points of every lookup) and computed there. C45 depends on `UnicodeRef.v` being Unicode 14.0.0. Defects shown: four unsorted lists searched by halving, so the hyphen is neither Dash_Punctuation nor Dash and its category is Unassigned; `\p{Assigned}`, `\p{C}`, `\p{Case_Ignorable}`, `\p{age=..}` on unassigned code points, `script_extensions=`.
* C47 (added): `compiles opt same r tl` walks over the stacks that the templates are instantiated for; induction on the fuel shows that no evaluation is `Ill` and that the list of captures keeps its shape. With C08 (no `UB`), C31 (no `Fuel`) every call has a result; with C01-C03, C38 it is the right one (`C47_match`, `C47_starts_with`, `C47_search`; `C47_text_*` from the text of the pattern, in terms of the AST without rewriting). Without the greedy optimisation the check is the short structural `structure`. Refutations list patterns that the parser accepts and that are no programs.
* C48 (added): independent specification without positions, captures and preference: `regexp`, `word`, derivatives (`accepts`). `denote` is compositional; a pattern's derivations on a subject are the words of its expression (`C48_language`, by induction on the AST). With C47 the answers of the calls are those of the decision procedure. Refuted without the check on loops.
* C49 (added): `run_at` is the parser with positions (`run_at_run`: erasing them gives `run`). `well_shaped` is reading by the LL(1) table without the actions. A finite table of endings for each nonterminal and next character, checked by computation, shows that every stack met while parsing can be completed (`position_viable`); determinism gives stability and `C49_longest`. Refuted for rejections by actions.
* C52 (added): `loosen` replaces possessive repetitions by greedy ones and atomic groups by single repetitions. Derivations do not see the difference (`C52_derivations`); the results of the calls are the same under `tight_check` (decidable, over the first characters of what may follow). `commit_check` in `mcomplete_check` is this check together with one for lookaheads with groups, so completeness (C02, C38, C47) covers `([0-9]++),([a-z]++)`, `(?>a+b)` and `(?!.*(.)\g{1})[a-z]+`. Refuted without the checks: `a++ab`, `(?=(a|ab))\1c`.
* C53 (added): `pcre.gram` is read by a second generator, apart from the one that reads `pcre.hpp`. `gen` is leftmost derivation in the grammar, with the actions as events between the characters. Each nonterminal of the table is given a set of sentential forms (`denotes`; those that the generator made by factoring stand for the rests of productions). By computation, for each nonterminal and each of the characters the grammar tells apart: the right-hand side in the table and the productions begin and end alike (`table_ok`), and what may follow a nonterminal is in the FOLLOW table (`follow_ok`). From these, by induction, the table reads exactly the sentences and performs their actions in order (`traced_sentence`), the grammar is unambiguous, and `compile` is the outcome of the actions of the sentence. "other" in the grammar is read as: no character mentioned anywhere in the file, as the generator does; that this is the negative set in the table is checked.
* C54 (added): `cost` follows the recursion of `eval` and counts calls, turns of loops and compared characters; it asks `eval` which branch is taken. Two theorems tie it to `eval`: an evaluation out of fuel has counted more than its fuel, and the count of an evaluation that ends does not depend on the fuel. A third one compares it with a run that counts: `CostRun.v` is the evaluator with a counter carried along, its outcomes are those of `eval` and its counter never exceeds `cost` (it is smaller where a string is given up early). The bound (`weigh`) is by induction on the fuel, with the progress of loop bodies from `Term.v`; a loop without an upper limit turns at most once per remaining unit. `rank` reads the two exponents of the bound off the pattern: what an expression spends on its own, and how often it starts what follows it. The bound is about steps of the library's functions, not about time: what the compiler makes of them, and the conversion of case or the search in a Unicode table inside one character test, are one step. The factor depends on the pattern and can be exponential in its length. Ranges (arrays only): the loop has no other state than the position (and the flag of `split`), so a loop that comes back to where it was never ends, and one that ends makes at most one round per character; the steps are those of the calls plus the rounds.
* C55 (added): `First.v` keeps the points in a list; `PointSet.v` has the array with `Capacity + 1` places and `used`, the swap loop of `insert_point`, and `lower_bound` returning `it`. Reads and writes outside are `UB`. `collides_array_list`: no `UB`, and the answer of the list model. Enumerations reach `populate(set)` by derived-to-base deduction.
* C56 (added): `MsvcEval.v` has the evaluator with `CTRE_MSVC_GREEDY_WORKAROUND`; a simulation shows the results equal, whatever the initial value of the result reference.
* C57 (added): what search_all, tokenize and split list is a function of the ordered outcomes of the pattern (`RangeSpec.v`), apart from the iterators.
* C58 (added): the rest of `utf8_iterator` and `utf8_range`; comparisons before and after C++20.
* C59 (added): for each range the loop either ends within a number of steps read off the subject, or returns to the same place; which one is decided by the outcomes.
* C60 (added): `Equiv.v` compares the textbook expressions of C48. The tests on characters of a pattern change their answers only at finitely many places (`steady`, `re_breaks`), so one character for each row of answers represents all (`reps`). The walk visits pairs of derivatives, kept small by laws of alternatives and sequences; a walk that ends without a pair that breaks the relation is a bisimulation. A subject that tells the patterns apart is tried with the expressions themselves. `Unknown`: the fuel ran out, or a pattern is outside of the checks of C47 and C48. No theorem says that enough fuel always exists.
* C61 (added): `cexp`, `cword x b w a` extend the expressions of C48 by tests of the context; a lookahead is the test that some prefix of what is to the right is a word, a lookbehind that some suffix of what is to the left is one. Derivatives carry the context (`cderiv b v a`) and decide words. By induction on the AST the derivations of a pattern are the words of its expression where they stand (`C61_language`); with C47 the answers of the calls follow. Search of an anchored pattern makes one attempt: no other attempt can succeed (C29), attempts settle (C31) and are complete (C47), so no other position has a derivation (`C47_search_any`).
* C62 (added): `decide` follows parser.hpp function by function (positions, `results`, the moves that pop a terminal together with its rule, the fold with one placeholder per character); the bound of the model counts the symbols popped by one call. A loop that does not stop at characters (`loop`) links it to `run_at` (C49) and, without actions, to the sentence of a text (C53). A step that is undecided has read one character, hence the exact number of placeholders. The overload `move(push<anything, ...>)` can never be chosen (its parameter `auto V` is not deducible) and is left out. The C++ types `term<char>` and `term<char32_t>` are one type of terminals in the model.
* C63 (added): partial derivatives over stacks of expressions; their set is finite (`parts_closed`), so the search over pairs of sets ends after at most `rounds` rounds (`sets_end`), which C60's derivatives modulo similarity did not show. The characters are cut into classes by `breaks` as in C60, restricted to the values a character type can hold (`val_ok`). The breadth first order gives a shortest subject. Nothing is claimed for patterns outside the checks of C48 (`explained`).
* C64 (added): C47 says when a call is right by the usual meaning of a pattern; C64 says what a call does in any case. `xenum` differs from `menum` in two points taken from evaluation.hpp. First, the body of a repetition (or of an atomic group) is run by itself up to `end_cycle_mark`, so only its first outcome counts. Second, the flag `not_empty_match` is a part of the state: whatever consumes something lifts it, a greedy or lazy repetition lifts it for what is tried after its loop, and an outcome of a body counts only when it is lifted. The optimisation of greedy repetitions is separate: `possessify_all` shows that running a stack with it is running the rewritten stack without it, for every pattern and view (when the run ends and is well formed). Checks left: `xwf` (an unlimited repetition has a body that consumes; no reference to a group inside itself; lookbehinds as in C24) and `terminating`, `compiles` as in C47. A pattern such as `(a*)*` is outside because the library does not end on it.
* C65 (added): evidence that the model is a model of this library. The assertions of /repo/tests (17 files; the others only print or only have to compile) are turned into rows by `tools/repo_tests.py`, which reads the C++ text and stops when it meets an assertion that it does not understand; what a row means is in `RepoTests.v`. The translation of the C++ text to rows is trusted, like every citation. All 1123 rows hold with the default configuration; without the optimisation six do not end in the model (matching.cpp 128, 133, 141, 145, 153 and z_matching.cpp 26), which C65_unoptimised_refuted proves for line 133. The statements about the pattern of is_prime.cpp go through C64, because C47 does not cover its repeated reference.
* C66 (added): what /repo/README.md promises. The scanner of `Lexical.v` is written from the syntax that the README describes, not from the table of the parser; `shaped_lexical` compares it with the table: for every nonterminal and scanner state a finite list of outcomes is checked by computation, and an induction over derivations does the rest. Consequences hold for patterns of any length: an unknown escape, a comment, a condition, a callout or a call of a group makes a text no pattern, wherever it stands (for the groups: outside brackets and without backslashes before it, since the scanner state at that place has to be known from the text alone). The converse is false and not claimed. The programs (`extract_number`, `extract_date` with numbers and with names, `lexer`) are proved for every subject, with the spans of their groups; the program over `search_all` and the Unicode one are in C67. Refuted: options/modes and octal numbers are listed as unsupported, but `(?i)a` works and `\012` is accepted (as NUL, 1, 2).
* C67 (added): the most common uses of the ranges, as texts. For a pattern that compiles to a class or to one or more characters of a class, the texts that search_all and split show are `words` and `parts` of the subject, two recursions over the text that know nothing of patterns; the hypothesis `range_check` of C57 is computed. The two programs of the README over `search_all` follow, the Unicode one over UTF-8 with the reference categories of C45 (the eight code points for which the data of the library is wrong, C45, are excluded by hypothesis).
* C68 (added): tokenize as a lexer. The rules are one character, a run, a name (a character and any number of others) or a text, each in a group or not; `lexes` is a relation over texts: the first rule that applies is taken and takes as much as it can. The hypothesis `range_check` of C57 is computed (C68_language, C68_check_example). Rules of other shapes are left to C57.
* C69 (added): C57 and C59 with the exact account of C64 in place of the usual meaning, so for patterns such as `(?:a|ab)*c` too, where the two differ. The lists are those of C57 with the best outcome of C64 at a position; the loop ends or never ends by the same conditions as in C59. C69_agrees shows that both say the same where both apply. Checks: those of C64 and `zero_safe`.
* C70 (added): with `CTRE_ENABLE_UTF8_RANGE` a `ctre::utf8_range` can be the subject. Unlike a `u8string_view` it keeps its own iterator in the result, so lazy repetitions and back references go on by code points and the restriction `u8_ok` of C10/C12 falls away on well-formed text (on any bytes only stepping back is excluded). Captures: `size` by `std::distance`, `unit_size` by pointers, `to_string`. Not modelled: `to_view`, `data`, comparison and printing of such captures do not compile (static assertions, return_type.hpp 101-107). `C70_overread_refuted`: a sequence cut short at the end gives a capture whose end lies beyond the bytes, and `to_string` reads there.
* C71 (added): two patterns are `alike` when in the exact account of C64, from every state, whatever is asked for, the first outcome that fits is the same. This is kept by every construct except lookbehinds (`C71_replace`), so a part can be replaced by one that is alike; with the optimisation the statement is about the rewritten pattern (`possessify`), because the rewriting looks at the surroundings. Laws of alternatives, sequences, repetitions of one letter, possessive repetitions, lookaheads, strings and classes. `C71_once_refuted`, `C71_unroll_refuted`, `C71_factor_refuted`, `C71_atomic_refuted`, `C71_possessive_refuted`: laws of regular expressions that do not hold in the library, each with a pattern and a subject.
* C72 (added): a capture holds two iterators into the subject of the call it came from, and the next call gets these as begin and end. `part_view` counts any read or step outside of the part as undefined although the array goes on; the call still is the one on the text of the part, moved. `source`: what `multi_subject_range` uses of the range below it (begin, `!=`, `*`, `++`), so pipes of any length are sources again, and the elements are produced on demand as in the code; `C72_pipeline` states what comes out by the meaning of the patterns alone. Unlike C34 (a container of separate subjects) all positions are positions of the one array. A capture that took no part has both iterators value-initialised (`C42_missing`, the invariant `i_blank` of `EvalInv.v`) and is an empty subject of its own (`C72_missing`). Not claimed: pipes behind a range whose loop does not end. Structured bindings: `tuple_size`, `tuple_element` and `get` by number. `C72_bindings_refuted`: a pattern accepted and matched for which they do not compile.
* C73 (added): ctll is a library of its own, a grammar being a struct with overloads of `rule`. Nonterminals are numbers, actions any type, matchers `term`, `range`, `set`, `neg_set`, `anything`. `resolve`: an exact `term` beats the matchers that need a user-defined conversion, two of these are ambiguous (hard error), none is `rule(...)`. The specification `gen` is the derivation relation of the context-free grammar with actions; an overload `rule(X, m) -> push<acts..., anything, p...>` is the production `X -> acts, m, p`. Soundness needs nothing of the grammar. Completeness, uniqueness and termination need `ll1 g = true`: nullable/first/follow tables closed under the productions, every overload chosen wherever its production may start or vanish, no left recursion (a rank), no ambiguous overloads; characters are represented by the corners of the matchers. `pcre_ll1` checks the table of pcre.hpp; `pcre_parser` is equality with `Trampoline.v` step for step. `C73_left_recursion`, `C73_overlap` and the examples show what fails without the check. Not modelled: characters as values of several types (`term<'a'>` and `term<U'a'>`; `get_current_term` turns the small ones into `char`), the compiler's depth limits.
* C74 (added): a hard error (`CIll`) is a call of `apply` with no viable overload, or one whose result cannot be formed; unlike `reject` it does not give `RE::is_correct = false`. Every nonterminal gets types (characters just read, shapes on top of the subject stack before, and pairs of both after); `all_typed` checks each overload of the table against them, for each ASCII character that does not complete a hazard word; characters outside of ASCII are all treated alike by the table (`other_rule`). `typed` is the same on whole stacks of the parser; `run_fine` is subject reduction. Lookbehinds are allowed in texts without switches: there everything on the stack can be turned round (`turns`); so the types come in two versions (`free`). The conditions are sufficient, not exact: `C74_needed` shows that none can be dropped, `C74_ex_harmless` that each is also broken by texts that are regexes. Not covered: errors after parsing (a back reference to a group that does not exist: `Ill` of `Eval.v`), compiler limits.
* C75 (added): C74 and C47 together, from the text to the answer. The types of `HardError.v` have a second switch (`basic`): without the words for atomic groups and backreferences the actions for them are never reached, so the regex is `plain` (invariant of the stack). `plain_structure`: then the check of C47 without the optimisation holds, since every group is in the result. With the optimisation the analysis of first.hpp must have overloads: `analysable` is a check of the nodes one by one (no tails), `first_goes`/`collides_total` show that it suffices. `C75_needed`: each of the three further words has a text that is a regex and no program; `\g{-0}` refers to a group behind the last one and is not rejected by the parser (backreference.inc.hpp compares with the number of groups only).
* C76 (added): C75 with the check of the analysis replaced by words of the text. The types of `HardError.v` have a third switch (`tame`): the shapes of classes and sets then say that no complement is below (`under`), `set_make_negative` leaves a class that no set takes up again, and the actions for switches, possessive repetitions, named and escaped complements are never reached. Invariant of the stack: `simple`, which implies `analysable`. Over-approximation: the words count wherever they stand (`[*+]` contains one). That the repetitions end stays a check of the regex there; see C77.
* C77 (added): C76 with the check of termination replaced by a word of the text. Fourth switch (`quick`) of the types in `HardError.v`: the shape of an atom says that it is the body of a repetition that ends (`body_eats`), and the actions for `*`, `+`, `{` take atoms only, so that they are typed behind a group only if the word stands there. Options of groups remain; their fusion adds the limits modulo 2^64, and a sum of 2^64 would be `no limit`. Invariant: the limits of the bodies that may not consume, summed over the stack, grow by at most one with every action (`good_act`), so they stay below 2^64 for texts of less than 2^58 characters (32 steps for every character). Over-approximation: repetitions of groups that do consume are excluded as well.
* C78 (added): an invariant of all runs (no types needed): every tree on the stack of the actions is `full`, that is, none of its lists is empty; `rotate` keeps it. With the numbering of the groups (`compiled_well_numbered`) and `plain` of C75 the check `meant_check` of C64 follows from termination and `chars_ok`, a check of the characters and ranges in the modes that the call can reach.
* C79 (added): `chars_ok` of C78 from the text. `Neat.v`: a condition on every class of a tree (`every`) is kept by all actions except for those that bring in characters (`side`). Literals: the stack of the parser is read by a small automaton (`phase`) that says where in an escape by number it stands, with the bound 16^k for the number read so far, k the digits just read; the text has no eight in a row. Ranges: the nonterminal and the action for ranges never get on the stack without the character `-`. Not done: ranges of the text (which characters of the text are the ends of a range); for them `every (range_cls ci)` stays a check of the regex.
* C80 (added): `ctll/list.hpp` as a whole. The types are the elements of any type with an equality test and a relation of implicit conversion. `check` (line 68) is an ordinary overload and takes conversions, `select` (line 71) competes with a template and does not; this is the only place where the two differ (`C80_sets_refuted`). Values are not modelled, all the types are empty structures; `pop_front` of the empty list has no body and only its type is used.
