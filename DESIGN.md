# DESIGN — a Rocq (Coq 8.16.1) model of Zilliqa/rs-scilla-parser

`Contract::from_str(text)` is: a hand written lexer (characters + nine regexes)
→ an LALR(1) parser generated by lalrpop from `parser.lalrpop` → an AST → a
visitor that drives a stack machine (`SrEmitter`) → a `Contract`.  The model
follows the same pipeline, one Coq file per stage, function by function; every
definition cites the lines of /repo it models.  Proofs are in other files than
the model, specifications in files that do not mention the model's functions.

The first version of this file (the plan) is in the git history; this is the
design as built.

## Files (`rocq/theories`, logical root `Verif`)

### Model of the code

| file | models | how |
|------|--------|-----|
| `Chars.v` | the parts of Rust's `char`/`str` the lexer uses | code points as `N`, strings as lists of code points, `len_utf8`, `is_whitespace` exactly, `is_alphanumeric`/`is_numeric` exact on ASCII and an arbitrary oracle `unicode` above |
| `Lexer.v` | `src/parser/lexer.rs` | tokens, positions, the state of `Lexer`, one iteration of the loop (`step`), `next`, the nine regexes, `lex` |
| `Ast.v` | `src/ast/nodes.rs` | every node type; `Box` dropped, `Vec` = `list`; the `Display`s |
| `Grammar.v` | `src/parser/parser.lalrpop` | every production, written as data in lalrpop's notation, with its action; `derives A toks v` is the relation the file defines |
| `Cfg.v`, `Tables.v`, `Parser.v` | the parser lalrpop generates | macro expansion of `? * +`; LALR(1) tables (generated by `tools/lalr.py`, *not trusted*: checked in `LrCheck.v`); the automaton, reading the lexer lazily with one token of look-ahead; one entry point per non terminal |
| `Types.v` | `src/type.rs`, `field.rs`, `transition.rs`, data of `contract.rs`, `primitives.rs` | `Type`, `SrType`, the conversion, `Display` |
| `Visitor.v` | `src/ast/visitor.rs`, `converting.rs`, `ast/mod.rs` | the traversal, generic in the emitter (any state, any callbacks) |
| `Emitter.v` | `src/simplified_representation/emitter.rs` | the callbacks of `SrEmitter`, its stack, `emit` |
| `Contract.v` | `src/contract.rs`, `error.rs`, `parser/mod.rs` | `from_str`, `Contract::parse` over a file system of byte strings, UTF-8 decoding |
| `DebugText.v`, `ErrorText.v` | `{:?}` of what gets into messages, `Display` of `Error`, lalrpop-util's `ParseError` and `expected` lists | |
| `Budget.v` | the emitter with a budget of visits | instrumentation for C57/C58, proved equal to `Emitter.v` |
| `TestsParser.v`, `TestsContracts.v` | `tests/*.rs` | the repository's own tests, generated by `tools/`, run on the model by `vm_compute`.  Tests of the model's fidelity, not proofs |

### Specifications (do not mention the model's functions)

| file | contents |
|------|----------|
| `LexSpec.v` | layout, well-formed tokens, what may follow a token, `token_at`, `segmented` (the lexer as one relation), `visited` |
| `Grammar.v: derives` | specification of the automaton (and itself checked against the independent `Print.v` in C41/C42 and `Marks.v` in C14) |
| `Print.v` | how each AST is written as tokens, which ASTs have a written form |
| `Erase.v` | equality of ASTs up to positions |
| `Marks.v`, `Spans.v` | the positions of all nodes; "is the extent of its tokens" |
| `EmitSpec.v` | type expressions, what an annotation says, which `Type` it denotes, declarations of a contract, `described` |
| `Spell.v`, `Spaced.v` | a description of a contract written as tokens; tokens separated by spaces |
| `Reads.v`, `AddressKeys.v`, `EventFacts.v` (heads) | annotations with namespaces / address keys / `Event` |
| `Trace.v`, `Abort.v` (heads) | the depth-first sequence of callbacks; which failures abort |
| `Utf8.v` (head) | UTF-8 as in RFC 3629 |
| `Range.v` | which contracts and types a parse can produce |
| `Local.v` (first part) | when no quote is open in a text (`quotes_closed`) |
| `Brackets.v` (first part) | properly nested brackets |
| `Takes.v` | address types with fields that are not plain identifiers: which contract parameters they take up |
| `Origin.v` | the words a result is spelled with; size of a result |
| `Derive.v` | what `derive(Debug)` prints |
| `Tour.v` | the traversal as a table |

### Proofs

`LexerProofs LexStep LexSegment LexFacts LexWritten` (lexer = segmentation),
`LrCheck LrFacts LrProofs GrammarLink` (automaton = grammar), `DerInv
EraseFacts PrintFacts PrintRead` (facts about derivations), `TypeFacts EmitTypes
EmitProgram EmitInv EmitErase EmitSig EmitOk EmitSteps EmitFail EmitErrs
ReadsFacts QuirkFacts` (emitter), `TraceFacts` (visitor), `DebugFacts
ErrorFacts` (messages), `SpellFacts`.

### Property theorems

`PropLexer` (C01–C10), `PropParser` (C11 C12 C13 C16), `PropParse2` (C15 C37),
`PropPrint` (C41 C42), `PropSpans` (C14), `PropEmit` (C17–C25 C36),
`PropQuirks` (C26–C28), `PropVisitor` (C29–C32), `PropTypes` (C33–C35),
`PropApi` (C38–C40), `PropErrors` (C43–C46),
`PropTour` (C47, against the specification in `Tour.v`), `PropSr` (C48), `PropOracle` (C43 character classes, C49 via
`EmitOracle`), `PropRange` (C50, against the specification in `Range.v`, via the
stack invariant in `EmitRange`),
`PropDebug` (C51, against `Derive.v`, via `DeriveFacts`), `PropDisplay` (C35 for every
producible type, C52, via `Forbidden`: token sequences that occur in no phrase), `PropLocal` (C53, C54, via `Local`), `Brackets` and `Nesting` (C55),
`PropTakes` (C56, via `TakesFacts`), `PropCost` (C57, C58, via `BudgetFacts`),
`PropOrigin` (C59, via `OriginFacts`), `PropLexCost` (C60, via `LexCost`),
`PropRename` (C61, against `RenameSpec`, via `Rename RenameDer RenameEmit`), `PropCompose` (C62, against `ComposeSpec`, via `ComposeDer ComposeEmit`),
`PropPosition` (C63, over `Position`), `PropRegex` (C64, over `Regex`, `RegexFacts`), `PropMachine` (C65, against `Machine`, via `MachineFacts`),
`PropCompare` (C66, C67, over `Declared View AstView ResultView`, via `CompareFacts AstViewFacts AstViewGood`), `PropReadErrors` (C68), `PropPretty` (C69, over `Pretty`), `PropBuilder` (C70, over `Builder`), `PropPanics` (C71), `PropReplace` (C72), `PropChars` (C73), `PropSpacing` (C74), `PropMoves` (C75), `PropTrees` (C76, over `Remap`, via `RemapFacts`), `PropBetween` (C75 and C76 right before a token), `PropLiterals` (C77, via `RenameFix`), `PropSize` (C78), `PropBlame` (C79), `PropCut` (C80).  Each property theorem stands next to witnesses (`*_witness`, `*_ex`)
that run a concrete case through its hypotheses, and next to `_refuted`
theorems where the naive claim is false of the code.

## How each property is proved

**Lexer.**  `step` consumes at least one character; fuel `|s|+1` is proved
sufficient (C01), so the fuel is not visible in any theorem.
`LexSegment.lex_iff_segmented`: the run of the lexer on `s` *is* the unique
segmentation of `s` in the sense of LexSpec (C43).  C02–C10 are consequences by
induction on segmentations: C02/C03 spans and slices, C04 (with the refutation
for multi-byte string literals and the exact description of what is lost),
C05 (panic iff a word that ends inside a multi-byte character; ASCII never),
C06 keywords iff whole words, C07 for every sequence of well-formed tokens and
every admissible layout, C08 comments, C09/C10 lines and columns (true
statements + refutations of the naive ones).

**Parser.**  `LrCheck` runs a checker over the tables (kernel `vm_compute`);
`LrProofs` proves, by invariants and measure, that any tables that pass are
safe, sound, complete, terminating on every input, and have the correct-prefix
property.  `GrammarLink` moves this to `derives`.  C11 soundness, C12
completeness, C13 unambiguity, C16 error position, C15 irrelevance of positions
(through erasure), C37 the three outcomes of `from_str`.  C41: the AST, written
by `Print.v`, is the token list that was read (up to the three places where the
grammar drops a token); C42: every writable AST is read back in every layout;
C14: positions.

**Emitter.**  Induction on AST size with "the stack below is untouched"
statements gives C22/C23; composition over the declarations C17–C20, C24, C36.
`emit_steps` is an equation for *every* program (first failing declaration
decides), from which C25–C28 (panics and quirks) and C29's consequences
follow.  C21: `EmitSig`.  C36 composes writer, lexer, parser, emitter: from a
description and an arbitrary layout to `Ok(contract)`.

**Visitor.**  For every emitter state type and callbacks: C30 against the
event sequence of `Trace.v`, C31 push/pop counting, C32 library lets, C29
which errors abort.  C47: a table of the traversal (`Tour.plan`) proved to
describe every run for every answer of the emitter; C48: the emitter as a
visitor of any node.

**Types.**  C33 decimal arithmetic on sizes, C34 panics iff arguments are
missing, C35 `Display` round trip through the whole pipeline.

**API.**  C38 names, C39 files (`utf8_decode` proved equal to RFC 3629),
C40, C44 expected tokens (sound, and complete at unknown characters), C45
messages (and injective: the message determines the error), C46 `Display` of
names.  C49: a simulation between two runs of the lexer with tables that agree
on the text, and between two runs of the emitter with different renderings.
C50: an invariant of the emitter's stack (every identifier, declaration and type
on it is one that could have been written) in one direction; in the other, a
text is constructed for every producible value and C36 applied to it.
C51: a generic theorem that texts of derived `Debug` are prefix codes, instantiated
for each type.  C52: by induction over producible types, each text followed by
something that cannot continue it determines the type; C35 for types whose text
is not Scilla: a checker over the automaton's tables shows that the tokens `Map
T ,` and `with contractfield x` get stuck in every state.  C53: the tokens of
`p ++ [c]` (`c` whitespace, no open quote) are a prefix of those of every
continuation, by induction over the segmentation of the text; then the viable
prefix property of the parser.  C54: the completing text is written from a
derivation with a sample token of each kind; derivability depends on kinds only.
C55: a checker over all productions (brackets match within each right hand side;
weight of `end`/`with`/`transition` per non terminal) and induction over derivations; `Nesting.v`
does the same with a stack of closing tokens that also holds `end`.
C56: mutual induction over the relations of `Takes.v` (which read an annotation
left to right, passing on the parameters not yet taken), composed with `emit_steps`.
C57: `Budget.v` is the emitter over a larger state (proved to be the emitter when
the state is not larger) that counts visits; every visitor combinator is shown to
do, within a cost, what the emitter does; costs are bounded by the tokens an AST
is written with (C41).  The parser's steps are bounded by the measure that proves
its termination.  C58: the AST of a type in `d` pairs of parentheses.

**C59.** `Origin.v` defines `spelt`: the words a value of the result is spelled with.
`keeps e m` (OriginFacts): running `m` on a stack spelled with `ws` leaves a stack and a
result spelled with no more words (as multisets) than `e ++ ws`; proved for every node by
induction on the fuel, with `e` the tokens the node is written with (`Print.v`).  The
declarations are then added up along `steps`; the name and the parameters are charged
twice because the emitter visits them twice.

**C60.** `LexCost.v` is the lexer with a counter (proved to give the same items).  One
iteration on `n` remaining characters that consumes `d` costs at most `n + 3 + 2 d`, and
at most `4 d` if the word it scans for a keyword lies within what it consumes; sums are
by induction on the length.  The lower bound is the text `.. List ByStrByStr..ByStr)`:
the rest of the run is scanned anew at each of its tokens.

**C61.** Every action of the grammar commutes with renaming the texts of tokens
(`act_rename`, by cases over all productions), so derivations do; the emitter, run
on renamed nodes in the renamed state, does what it did, renamed (`req`, by cases
over all callbacks and all `children`); `Type::from` compares names only with the
reserved ones (`type_from_rename`).

**C62.** A checker over the grammar shows that the keywords `transition` and
`procedure` occur only as the first token of a component, so cutting a program
before one cuts its list of components, and lists of components can be appended.
For the emitter, every monadic step on a type works on the top of the stack
(`local`): it either leaves what is below untouched, and then does the same above
any other stack, or consumes the component's name, and then the assertion on the
popped identifier fails; there is no other component name on the stack.

**C64.** `Regex.v` gives a syntax and a leftmost-first semantics of regular
expressions: `ways` lists the ends of all matches from a place in the order a
backtracking matcher tries them, `finds` is `Regex::find`.  `regex_new` parses
the pattern texts of lexer.rs.  The functions by which `Lexer.v` models the
patterns are proved to agree with `finds`, so those functions are no longer
trusted; what is trusted is that the crate implements `finds`.  `ways` is itself
checked against the preference-free `matches`.

**C65.** `Machine.v` translates a program into a list of commands for a machine
with one stack (`code_program`) and executes them (`execs`); neither refers to
the visitor or the emitter.  `MachineFacts.codes_all` proves by induction on the
fuel that visiting each kind of type node does to the emitter's state what its
code does to the machine's; `emit_machine` lifts this to programs through the
equation `emit_steps`.  That errors inside an address type are forgotten without
restoring the stack is the command `Attempt`.

**C68.** On the machine of C65: every piece of code takes stacks whose declarations are
all named like parameters to such stacks, and fails with one of the six
complaints (`good`, by induction on the depth of types).  Declarations are only
missed inside `Attempt`.

**C69.** `Pretty.v` is `core::fmt`'s builders with the alternate flag: parts are written
through `PadAdapter`, which inserts four spaces at the start of every line.  `spread` says
the same line by line; padding a spread text spreads it one level deeper (induction over
values, quoted texts contain no newline).  `one_line` undoes the layout; by induction over
values it gives the `{:?}` text, whose injectivity is C51/C67.

**C70.** Pushing is appending at the end; `==` is equality (C66); names have the shape of
identifiers (C38), so they are not empty.

**C71.** Invariant of the machine of C65: every type on the stack can be converted and every
name on it needs no arguments.  Every command of a whole type keeps it, whether it succeeds
or fails (a failing take has removed its object); this is shown by induction on the type
nodes.  Parameters of transitions are handled by C23/C24: they add one declaration and take
it off again, whatever is below.  Texts dropping one condition each are computed.

**C72.** Frame lemma for the machine of C65: related contracts (any relation kept by the
commands that add to the contract) give related runs, by induction on commands.  A run of
supported declarations changes nothing but the contract (C23); how many fields come before
it is counted.  Signatures carry no positions (C21).

**C73.** By induction on the segmentation of C43: every token of an accepted text occurs in a
derivation (C11), so its kind occurs in a production; the texts of such tokens are listed by
the token rules.

**C74.** `respaced` and `reformatted` relate texts that differ in runs of white space only.
By induction on the segmentation of C43 the other text has the same tokens, except that
string literals may differ inside; C77 does the rest.

**C75.** `settled` describes a text that ends outside of comments and string literals, `moved` and `moved_from` two
items before and after an insertion. `C75_tokens` and `C75_front`: the lexer's items before an insertion of layout
stay, the others move; `C75_answers` and `C75_answers_front`: `from_str` answers the same, the error token moves. By
strong induction over the settled prefix (`seg_prefix`) and over the segmentation after it (`segmented_move`).
Right before a token (`PropBetween`, also where no white space stood): what is `visited` (LexSpec.v) before the
insertion is visited in the new text, since white space and an opening parenthesis are in no token's look-ahead.
Three refutations show that its conditions are needed.

**C76.** `remap fs fe` (Remap.v) replaces the start and end positions of all nodes of a tree. The actions of the grammar
commute with it (`act_remap`, by cases over all productions), so derivations do (`derives_move`), and the parser is
complete for derivations. As starts and ends of tokens increase, what C75 says of the tokens defines functions `fs`, `fe`.

**C77.** A renaming (C61) that forgets literals makes the two token streams equal, and the parser commutes with it. The
commands of C65 that a program is read by contain no literals (`program_emit_fix`, by induction over types, from what
C41 and the lexer say of the names in the tree), so they are the same for both texts, and so are contract and message.

**C78.** A result is spelled with words of the text, each used at most twice (C59); Display and Debug add a constant
number of characters to each word, because names of a result need no escapes (C50). The pretty text of `n` nested
options is quadratic in `n` (by C69, it is indented by depth).

**C79.** The invariant of C59 (`OriginFacts.keeps`: a run needs no other words than those of the nodes it visits and
those on the stack) also says of an error that what it shows is spelled with these words (`told`). Sizes follow as in
C78, except that words of an error can need escapes: at most ten characters for each (`hex_len`), because a scalar
value has at most six hexadecimal digits. Numbers in positions are bounded by C63.

**C80.** The scan of the text up to a token start does not look past a following white space (`PropBetween.visited_ins`, for
any text in place of the rest), so the cut text has just the tokens before it; no error was reported in them, so they
are the beginning of a phrase (C16). It is completed as in C54, but without quotes (which could change how an earlier
literal is read): wherever the grammar has a string literal it also has a hexadecimal one (`der_like_swaps`).

**C66, C67.** `view` (View.v) is what a derive macro sees of a value: the index and
name of its variant, the names of its fields, its fields.  `AstView.v` gives the
view of each of the 46 node types, `ResultView.v` those of tokens, types and contracts.
`teq` and `tcmp` are the derived comparisons of views without names; that they
decide equality and a total order is proved on trees (`CompareFacts`).  That
views lose nothing is proved by induction on the size of the view
(`AstViewFacts.node_inj`), once for the comparisons (names dropped) and once for
`Debug` (indices dropped); `AstViewGood` proves that all names printed are words, which
C51's injectivity of the texts needs.

**C63.** The derived comparison is lexicographic; everything follows from the byte
offsets, for which C02 and C14 give strict inequalities.  `C63_fits` also
justifies modelling `usize` without bound: no coordinate exceeds the size of the
text.

Claims that turned out false of the code are kept as theorems with the suffix
`_refuted` (the negation is proved from a concrete text run by `vm_compute`)
next to the strongest true statement: C04, C05, C09, C10, C14 (imports), C26, C44,
C27, C28, C29, C31, C35, C40, C52, C53, C59, C60, C61, C62, C63, C66, C72, C74, C75, C77, C78, C80.

## Trusted base

- Coq 8.16.1's kernel, including its `vm_compute` machine.
- `Print Assumptions` prints "Closed under the global context" for every
  theorem named in MANIFEST.json: no axioms, of our own or of the standard
  library, are used.  (vcheck also lists seven constants
  `Coq.ssr.ssrunder.Under_rel.*` of the standard library: they are loaded with
  a library file, no theorem depends on them.)
- The reading of the Rust source.  Every definition cites its lines; the
  repository's own tests (acceptance tests and complete contracts with expected
  results) are replayed on the model, and `tools/check_grammar.py` compares the
  productions of `Grammar.v` with those of `parser.lalrpop`.
- What is assumed about code outside /repo and stated in comments: leftmost
  first semantics of `regex`, `Peekable<CharIndices>`, panics of `str` slicing
  and `unimplemented!`/`assert!`, `Vec::pop`, `str::parse::<usize>` (64 bit),
  `std::fs::read_to_string`; and that lalrpop generates a parser for the
  grammar as written: LR with one token of look-ahead, reporting an error at
  the first token with no action.  lalrpop builds its tables by the lane-table
  algorithm; the model uses LALR(1) tables for the same grammar.  Both accept
  the same language with the same derivations and both detect an error before
  shifting the offending token, so C11–C13, C15, C16, C37 do not depend on the
  difference.  Only the *expected* list of an error may: C44/C45 are proved for
  the LALR tables (see the note in MANIFEST.json).
- Oracles the theorems quantify over: `unicode` (alphanumeric/numeric
  characters above ASCII), `debug` (the `{:?}` text of a stack object in an
  emitter error), `printable` and `show_expected` in error texts.

## Not modelled

- Overflow of `usize` positions (by C63 no coordinate exceeds the size of the
  text, and a Rust string is shorter than 2^63 bytes),
  stack overflow itself (C58 shows what can cause it), memory, run time other than the
  counts of C57, logging.
- The implementation of the `regex` crate (automata); its documented meaning is
  `Regex.v`.
- The operating system's text of an `IoError`.
- `ParserError` (src/parser/mod.rs) is never constructed by the crate; only its
  `Display` is modelled.
- The derived `Clone` of syntax tree nodes (never used by the crate's API), and the
  comparisons of `Identifier`, `ParserState` and the like that no caller can reach.

## Testing the theorems

`seeded/LOG.jsonl` records wrong programs: each line is one edit of a model
definition made in a scratch copy, with the lemmas and property theorems that
no longer hold and what was tightened as a consequence.
