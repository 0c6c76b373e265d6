{"id": "C01", "title": "Lexer always terminates and makes progress", "statement": "For every input string, repeatedly calling `Lexer::next` reaches the end (or a panic) after at most as many items as the input has characters; every returned item consumes at least one character, the lexer is fused (once it returned None it keeps returning None), and it never yields an `Err` item.", "quantifier": "every Unicode string, every number of calls to next", "why_tests_cant": "Non-termination would only show on the inputs a test happens to try; the claim is about all strings including unterminated comments and strings.", "anchors": ["src/parser/lexer.rs: Lexer::new, Iterator for Lexer::next"]}
{"id": "C02", "title": "Token spans are in bounds, ordered and disjoint", "statement": "For every input, the items (start, token, end) yielded by the lexer have start.position <= end.position <= input.len(); start.position strictly increases from item to item; each item starts at or after the end of the previous one; start and end are character boundaries of the input and start.line == end.line.", "quantifier": "every Unicode string, every pair of consecutive tokens", "why_tests_cant": "Span arithmetic mixes byte and character counts; only a proof covers all mixtures of multi-byte characters.", "anchors": ["src/parser/lexer.rs: Iterator::next, SourcePosition::with_end"]}
{"id": "C03", "title": "Token text is exactly the source slice of its span", "statement": "For every input and every token except Unknown, `String::from(token)` equals `input[start.position..end.position]`; an Unknown token has an empty span (start == end).", "quantifier": "every Unicode string, every token produced", "why_tests_cant": "One mis-spelled table row or off-by-one length breaks it for one token kind only.", "anchors": ["src/parser/lexer.rs: Iterator::next, From<Token<S>> for String"]}
{"id": "C04", "title": "Nothing but layout is dropped between tokens", "statement": "For every input, the text skipped before the first token, between two tokens and after the last one consists only of whitespace and `(* *)` comments, provided every string literal in the input is ASCII. After a string literal containing multi-byte characters the lexer additionally swallows exactly (bytes - characters) further characters of the input (so the unconditional claim is refuted).", "quantifier": "every Unicode string, every gap between tokens", "why_tests_cant": "Silent loss of source text needs a particular mix of multi-byte text and following characters; tests only use ASCII contracts.", "anchors": ["src/parser/lexer.rs: Iterator::next (self.chars.nth(end - start - 2))"]}
{"id": "C05", "title": "Lexing never panics on ASCII input; panics characterised otherwise", "statement": "Lexing any ASCII string never panics (no slice out of a char boundary, no subtraction underflow in the column bookkeeping). For an arbitrary string a lexer panic happens only at a word (maximal alphanumeric/underscore run) that starts at a token start and contains a multi-byte character, and such a panic does occur (`aé `), so panic-freedom on all strings is refuted.", "quantifier": "every string (ASCII for the positive claim, Unicode for the characterisation)", "why_tests_cant": "A panic is an absence claim over all inputs.", "anchors": ["src/parser/lexer.rs: Iterator::next (token_str[..index], start - self.last_position)"]}
{"id": "C06", "title": "Keywords are recognised exactly as whole words", "statement": "When a token starts at an ASCII word of the input (a maximal run of alphanumerics/underscore starting with a letter, underscore or digit), the token is a keyword token if and only if the whole word is that keyword's spelling; a longer word having a keyword as a prefix (`fields`, `in_x`, `Maps`) is never split into keyword plus rest. The one exception is `ByStr`: any word starting with ByStr and not ByStr+digits yields the ByStr token and the remainder is lexed separately.", "quantifier": "every word, every keyword, every continuation of the input", "why_tests_cant": "Infinitely many words; tests sample a handful.", "anchors": ["src/parser/lexer.rs: KEYWORD_*, Iterator::next"]}
{"id": "C07", "title": "Lexing inverts printing for every layout", "statement": "For every sequence of well-formed tokens, writing each token's text separated by arbitrary whitespace and well-formed comments (separators may be empty where the two neighbouring texts cannot merge) and lexing the result yields exactly that sequence of tokens and then the end of input.", "quantifier": "every token sequence, every choice of separators, every comment text", "why_tests_cant": "Layout independence is a universally quantified law over unbounded inputs.", "anchors": ["src/parser/lexer.rs: Iterator::next, From<Token<S>> for String"]}
{"id": "C08", "title": "Comments are invisible, end at the first `*)`, and may be unterminated", "statement": "For every text c without `*)`, the comment `(*` c `*)` standing where a token could start contributes no token and lexing continues right after the first `*)`; comments therefore do not nest; and an unterminated `(*` silently swallows the rest of the input instead of producing an error.", "quantifier": "every comment body, every input before and after it", "why_tests_cant": "Body and context are unbounded.", "anchors": ["src/parser/lexer.rs: Iterator::next (comment branch)"]}
{"id": "C09", "title": "Line numbers count the newlines outside comments and strings", "statement": "For every input, the line reported for a token is the number of newline characters that the lexer skipped as whitespace before it; hence it never exceeds the true (0-based) line, equals it whenever no comment or string literal (or text swallowed after one) before the token contains a newline, and the unrestricted claim 'line = number of newlines before the token' is refuted by a multi-line comment.", "quantifier": "every input, every token", "why_tests_cant": "The bookkeeping is a history-dependent counter.", "anchors": ["src/parser/lexer.rs: Lexer.line, Iterator::next"]}
{"id": "C10", "title": "Column numbers: right at line starts, lagging otherwise", "statement": "For every input, a token at the very start of the input or immediately after a newline is reported at column 0 and every token's end column minus start column equals its byte length. For other tokens the claim 'column = byte offset from the start of the line' is refuted: the reported column is that of the previously visited lexer position: exactly, the distance from the last newline passed as white space (or the start of the text) to the start of the piece just before the token.", "quantifier": "every input, every token", "why_tests_cant": "History-dependent counter; no test checks columns at all.", "anchors": ["src/parser/lexer.rs: Lexer.character, Lexer.last_position, SourcePosition::with_end"]}
{"id": "C11", "title": "Acceptance is sound with respect to the grammar", "statement": "If a `*Parser::parse` entry point (Program, ContractDefinition, ScillaType, FullExpression, Statement, ...) returns Ok(ast) on a token stream then that exact token stream derives that exact AST, positions included, by the productions and actions of parser.lalrpop; in particular nothing is left unconsumed.", "quantifier": "every token stream, every public entry point", "why_tests_cant": "Streams are unbounded.", "anchors": ["src/parser/parser.lalrpop: every pub nonterminal"]}
{"id": "C12", "title": "Every grammatical token stream is accepted", "statement": "Whenever a token stream derives an AST by the productions of parser.lalrpop, the corresponding `parse` returns Ok with exactly that AST (so no valid phrase is rejected because of parser look-ahead).", "quantifier": "every token stream and derivation, every public entry point", "why_tests_cant": "Unbounded nesting and lists.", "anchors": ["src/parser/parser.lalrpop"]}
{"id": "C13", "title": "The grammar is unambiguous", "statement": "A token stream derives at most one AST (positions included) from a given start symbol.", "quantifier": "every token stream, every start symbol, every pair of derivations", "why_tests_cant": "Ambiguity is a claim over all pairs of derivations.", "anchors": ["src/parser/parser.lalrpop"]}
{"id": "C14", "title": "AST spans are exactly the source extent of each node", "statement": "In every AST returned by the parser, the start of a node equals the start of its first token and the end equals the end of its last token, so children lie inside their parents and siblings are disjoint and in source order; the exceptions are the import list, whose span covers only the last `import`, and synthetic names of address types.", "quantifier": "every accepted token stream, every node of the result", "why_tests_cant": "All nodes of all trees.", "anchors": ["src/parser/parser.lalrpop: @L/@R in every production", "src/ast/nodes.rs: WithMetaData"]}
{"id": "C15", "title": "Parsing depends on token kinds and texts only, not on positions", "statement": "Two token streams that differ only in positions are both accepted or both rejected, and the accepted ASTs differ only in positions; together with C07, reformatting or re-commenting a contract never changes the parsed Contract.", "quantifier": "every pair of streams equal up to positions", "why_tests_cant": "Pairs of unbounded inputs.", "anchors": ["src/parser/parser.lalrpop", "src/contract.rs: Contract::from_str"]}
{"id": "C16", "title": "Errors are reported at the first offending token", "statement": "If parsing fails with an unrecognised token, the tokens before it are a prefix of some grammatical stream... and no grammatical stream starts with those tokens followed by the reported token; if it fails at end of input, the whole stream is not grammatical.", "quantifier": "every rejected token stream", "why_tests_cant": "Quantifies over all continuations of the input.", "anchors": ["src/parser/parser.lalrpop", "src/error.rs: From<ParseError> for Error"]}
{"id": "C17", "title": "The contract name is the declared name", "statement": "If parsing a program succeeds, `contract.name` is the identifier following the `contract` keyword, verbatim.", "quantifier": "every accepted program", "why_tests_cant": "All programs.", "anchors": ["src/simplified_representation/emitter.rs: emit_contract_definition", "src/contract.rs"]}
{"id": "C18", "title": "init_params list every contract parameter once, in order, with its type", "statement": "If parsing succeeds, `init_params` has exactly one entry per declared contract parameter, in declaration order, with the declared name and the type denoted by its annotation, although the parameter list is traversed twice.", "quantifier": "every accepted program whose types are in the supported fragment", "why_tests_cant": "Lists of any length and types of any depth.", "anchors": ["src/simplified_representation/emitter.rs: emit_component_parameters", "src/ast/visitor.rs: NodeComponentParameters"]}
{"id": "C19", "title": "fields list every declared field once, in order, with its type", "statement": "If parsing succeeds, `fields` has one entry per `field` declaration, in order, with declared name and denoted type; duplicates are preserved; initialisers do not matter.", "quantifier": "every accepted program whose types are in the supported fragment", "why_tests_cant": "Lists of any length, types of any depth.", "anchors": ["src/simplified_representation/emitter.rs: emit_contract_field"]}
{"id": "C20", "title": "transitions list every transition and no procedure", "statement": "If parsing succeeds, `transitions` has one entry per `transition` component, in order, with its name and its parameters in order; `procedure` components contribute nothing.", "quantifier": "every accepted program whose types are in the supported fragment", "why_tests_cant": "Any interleaving of components.", "anchors": ["src/simplified_representation/emitter.rs: emit_transition_definition, emit_procedure_definition"]}
{"id": "C21", "title": "Imports, library, version, constraint, initialisers and bodies do not influence the result", "statement": "Two accepted programs with the same contract name, parameters, field declarations and component signatures give the same result (same Contract, same error or same panic) whatever their scilla_version number, imports, library definitions, contract constraint, field initialisers, procedures and transition bodies are.", "quantifier": "every pair of programs", "why_tests_cant": "Pairs of unbounded inputs.", "anchors": ["src/simplified_representation/emitter.rs: SrEmitter::emit, emit_full_expression, emit_component_body, emit_with_constraint"]}
{"id": "C22", "title": "Type annotations denote the expected Type at every depth", "statement": "For every type annotation built from named types, type applications, Map, parentheses and address types, the resulting `Type` is the structural translation: IntN/UintN/String/BNum/Bool/ByStr/ByStrN to their variants, Option/List/Pair/Map applied to the translations of their arguments in source order (key before value), `ByStr20 with ... end` to ByStr20With with all its fields in order, and any other name to Other(name).", "quantifier": "every type of the supported fragment, any nesting depth", "why_tests_cant": "Unbounded nesting; the implementation is a stack machine.", "anchors": ["src/simplified_representation/emitter.rs: emit_scilla_type, emit_type_argument, emit_type_map_key, emit_type_map_value, emit_address_type", "src/type.rs: From<SrType> for Type"]}
{"id": "C23", "title": "Stack discipline of the emitter", "statement": "Visiting any supported type annotation pushes exactly one type and leaves everything below untouched; visiting a parameter or field declaration pushes exactly one declaration; hence the state of the emitter after a component does not depend on the types seen.", "quantifier": "every type, every prior emitter state", "why_tests_cant": "Invariant over all states.", "anchors": ["src/simplified_representation/emitter.rs: SrEmitter.stack"]}
{"id": "C24", "title": "Emission of supported programs never panics and never errors", "statement": "For every AST whose types are in the supported fragment, `SrEmitter::emit` returns Ok.", "quantifier": "every AST of the supported fragment", "why_tests_cant": "Absence claim.", "anchors": ["src/simplified_representation/emitter.rs: SrEmitter::emit"]}
{"id": "C25", "title": "Unsupported types panic rather than being mis-parsed", "statement": "A program that has a function type, a polymorphic type, or a type variable as the type of a contract parameter, field or transition parameter makes `Contract::from_str` panic (unimplemented!), for every choice of the (supported) declarations preceding it; so panic-freedom of from_str on all strings is refuted.", "quantifier": "every program whose first unsupported annotation is of such a kind", "why_tests_cant": "All programs with such an annotation.", "anchors": ["src/simplified_representation/emitter.rs: emit_scilla_type unimplemented!()"]}
{"id": "C26", "title": "Namespaced types: silently shortened in fields, fatal in transitions", "statement": "In contract parameters and fields a namespaced type name `Ns.T` (outside the value of a map) is read as T, silently dropping the namespace: from_str returns what it would return had `T` been written. A transition one of whose parameters mentions a namespaced name makes from_str panic (assertion on the identifier kind), whatever well-described declarations precede it. A map with a namespaced value type is an error naming the namespace. The stronger claim 'any transition with a namespaced parameter panics' is refuted: an Event parameter can take up the namespace.", "quantifier": "every namespace/name pair and every supported surrounding program", "why_tests_cant": "All names and contexts.", "anchors": ["src/simplified_representation/emitter.rs: emit_transition_definition assert!, emit_meta_identifier", "src/ast/visitor.rs: NodeMetaIdentifier"]}
{"id": "C27", "title": "Address types as map keys are rejected", "statement": "A declaration whose type contains (outside the fields of an address type) a `Map` with an address type as key is never accepted, whatever the rest of the program; when everything before it is well described and the map is the whole annotation, from_str returns the error 'Expected symbol name, but found ..', or panics if a field of the address denotes no type. Refuted without the restriction to address types over ordinary names: `Map (Event with end) Int32` can be accepted with the contract name as key type.", "quantifier": "every address type, every value type", "why_tests_cant": "All nestings.", "anchors": ["src/simplified_representation/emitter.rs: emit_type_map_key"]}
{"id": "C28", "title": "The type `Event` takes its meaning from leftovers on the stack", "statement": "The claim 'a field annotated with Event gets type Other(Event)' is refuted. In a contract without parameters the first such field is reported with the type denoted by the contract's own name, and a further one is an error; in a contract with parameters such a field is an error; a contract parameter of type Event is an error; a transition parameter of type Event is a panic in a contract without parameters and an error in one with parameters.", "quantifier": "every contract name; every program of the given shape", "why_tests_cant": "State-dependent behaviour of a stack machine.", "anchors": ["src/simplified_representation/emitter.rs: emit_type_name_identifier"]}
{"id": "C29", "title": "Which emitter errors end the traversal", "statement": "When an emitter callback fails during a visit, the visit returns that error at once (only popping source positions) with two exceptions: an error (or SkipChildren) on entering an address type is discarded and the visit goes on with Exit; and an error among the arguments of a builtin ends the visit only if its message is exactly \"Failure\". So 'an emitter error aborts the traversal' is refuted. Consequence for from_str: an address type with a special-identifier field can silently receive an unrelated field (a contract parameter) instead.", "quantifier": "every emitter, every node, every emitter state", "why_tests_cant": "Quantifies over all implementations of AstConverting.", "anchors": ["src/ast/visitor.rs: impl AstVisitor for NodeAddressType, NodeBuiltinArguments, all other impls", "src/simplified_representation/emitter.rs: emit_address_type"]}
{"id": "C30", "title": "Traversal discipline of the visitor", "statement": "For every emitter and every node kind (NodeAddressType excepted): Enter is called first; if Enter returns SkipChildren, no child and no Exit is visited and the visit returns Continue; if Enter returns an error, the visit returns that error and nothing else is called. An emitter that always continues receives, for every node without library lets below it, exactly the depth-first sequence of calls (Enter, children in source order between push/pop of their positions, Exit), and the visit returns Continue.", "quantifier": "every implementation of AstConverting, every node", "why_tests_cant": "Quantifies over all emitters.", "anchors": ["src/ast/visitor.rs: every impl AstVisitor", "src/ast/converting.rs: AstConverting"]}
{"id": "C31", "title": "Source-position push/pop balance", "statement": "Visiting a node with an emitter that always continues calls push_source_position exactly as many times as pop_source_position plus the number of message variables, empty-map literals and statement-match clauses visited; so the balance claim holds for all types, parameters and declarations and is refuted for expressions/statements.", "quantifier": "every node, every emitter that always continues", "why_tests_cant": "All trees.", "anchors": ["src/ast/visitor.rs: NodeMessageEntry, NodeValueLiteral, NodePatternMatchClause"]}
{"id": "C32", "title": "Library let-definitions cannot be traversed", "statement": "Visiting a library `let` definition panics for every emitter whose Enter callback continues and whose expression visit succeeds; so no emitter that always continues survives visiting a library or program containing a `let`.", "quantifier": "every emitter of that kind, every definition", "why_tests_cant": "All emitters.", "anchors": ["src/ast/visitor.rs: NodeLibrarySingleDefinition"]}
{"id": "C33", "title": "ByStrX sizes are exact", "statement": "For every n < 2^64 other than 20 written in decimal, `ByStr<n>` becomes ByStrX(n), `ByStr20` becomes ByStr20, leading zeros are accepted (ByStr020 is ByStrX(20)), and a size of 2^64 or more yields Other with the original spelling; never a wrapped number.", "quantifier": "every decimal digit string", "why_tests_cant": "Infinitely many sizes, overflow boundary.", "anchors": ["src/type.rs: From<SrType> for Type (parse::<usize>)"]}
{"id": "C34", "title": "Conversion SrType -> Type panics exactly on missing arguments", "statement": "`Type::from(sr)` panics iff a needed argument is missing: Option/List with no argument, Pair/Map with fewer than two, at the root or in a converted argument; it never panics for any other input; surplus arguments are ignored from the left (the last ones are used).", "quantifier": "every SrType value", "why_tests_cant": "All trees.", "anchors": ["src/type.rs: From<SrType> for Type"]}
{"id": "C35", "title": "Display of a Type is valid Scilla source denoting the same Type", "statement": "For every Type built from the base variants, ByStrX, Option, List, Pair, Other with a plain type name, and address types without fields, writing `field f : <display>` in a contract and parsing it gives back that Type (ByStr20 comes back as such also when written by ByStrX(20)); for every other Type that a parse can produce (a Map, or an address type with fields, anywhere inside) the text is refused with a syntax error. So the unrestricted claim is refuted for Map (printed with a comma) and for ByStr20With having fields (keyword and `field` glued together).", "quantifier": "every Type value, any nesting", "why_tests_cant": "All trees.", "anchors": ["src/type.rs: Display for Type"]}
{"id": "C36", "title": "End-to-end: printing any supported contract in any layout parses back to it", "statement": "For every description of a contract (name, parameters, fields with arbitrary grammatical initialisers, transitions and procedures with arbitrary grammatical bodies, optional library/imports/constraint) and every layout, `text.parse::<Contract>()` returns Ok with exactly the described name, init_params, fields and transitions.", "quantifier": "every contract description, every layout", "why_tests_cant": "Composition of lexer, parser and emitter over unbounded inputs.", "anchors": ["src/contract.rs: Contract::from_str", "src/parser/lexer.rs", "src/parser/parser.lalrpop", "src/simplified_representation/emitter.rs"]}
{"id": "C37", "title": "from_str is exactly lexer + grammar + emitter", "statement": "`Contract::from_str(s)` is Ok(c) iff s lexes without panic to a token stream that derives a program whose emission is c; it is Err iff the stream is ungrammatical (with the first offending token, or the end of input) or emission errors; it panics iff the lexer panics before any syntax error or emission panics. There is no other outcome. In particular an Ok result leaves no token unconsumed, and an Unknown character outside comments and strings makes it fail.", "quantifier": "every string", "why_tests_cant": "All strings.", "anchors": ["src/contract.rs: FromStr for Contract"]}
{"id": "C38", "title": "Every name in the result is text of the input", "statement": "Every contract/parameter/field/transition name in an Ok result is a non-empty identifier (ASCII letters, digits, underscore, not starting with a digit) that occurs verbatim in the input.", "quantifier": "every accepted input", "why_tests_cant": "All inputs.", "anchors": ["src/contract.rs", "src/simplified_representation/emitter.rs", "src/parser/lexer.rs"]}
{"id": "C39", "title": "Contract::parse equals reading the file and from_str", "statement": "For every file system state, `Contract::parse(path)` returns the I/O error if the file cannot be read as UTF-8, and otherwise exactly the result of parsing its content.", "quantifier": "every file system, every path", "why_tests_cant": "Environment is arbitrary.", "anchors": ["src/contract.rs: Contract::parse"]}
{"id": "C40", "title": "Documented minimal example", "statement": "README claims `\"contract HelloWorld\".parse::<Contract>()` succeeds. Refuted: every accepted input starts with `scilla_version`, so this returns an error.", "quantifier": "every accepted input (first token), the README literal", "why_tests_cant": "The general half quantifies over all inputs.", "anchors": ["README.md", "src/parser/parser.lalrpop: Program"]}
{"id": "C41", "title": "The AST is faithful to the token stream", "statement": "If an entry point of the parser accepts a token stream, writing the returned AST down again (every node as its Scilla syntax) gives exactly the tokens that were read, up to the three places where the grammar loses information: a repeated `import` keyword, the `()` before the arguments of a builtin, and a comma before the first parameter; so no name, literal, operator or sub-phrase is dropped, duplicated, reordered or invented.", "quantifier": "every accepted token stream, every public entry point", "why_tests_cant": "ranges over all accepted inputs and all nesting depths", "anchors": ["src/parser/parser.lalrpop", "src/ast/nodes.rs"]}
{"id": "C42", "title": "Print/parse round trip for every AST", "statement": "For every AST that has a written form (lists that cannot be empty in Scilla are not empty, arrows are right-nested, only `with contract` addresses have fields, ...), writing it down in any layout and parsing it gives back that AST up to positions; so the parser's range is exactly the set of writable ASTs.", "quantifier": "every writable AST of every non terminal, every layout", "why_tests_cant": "ranges over all ASTs of any depth and all layouts", "anchors": ["src/parser/parser.lalrpop", "src/ast/nodes.rs", "src/parser/lexer.rs"]}
{"id": "C43", "title": "The lexer is completely specified: one segmentation per text", "statement": "For every text there is exactly one way to cut it, from left to right, into white space, comments and tokens such that each token is the one the Scilla token rules give at its place (longest word, keyword or identifier, number, literal, ...), every other character is an `Unknown` item, lines advance at newlines in white space, and a word that ends inside a multi-byte character is a panic; the items, texts, positions and final outcome of the lexer are exactly those of this segmentation.", "quantifier": "every text (any Unicode), every item of the token stream", "why_tests_cant": "an exact input/output specification over all texts of any length", "anchors": ["src/parser/lexer.rs: Lexer::next, Lexer::new, Token, SourcePosition"]}
{"id": "C44", "title": "Expected tokens listed in a syntax error are right", "statement": "Every terminal listed as `expected` in an UnrecognizedToken error really can stand where the offending token stands (the tokens before it, followed by any token of that kind, can be completed to a phrase); the offending token's own kind is never listed; every terminal listed in an UnrecognizedEof error can follow the whole input; and when the offending item is an unknown character, the list is complete: exactly the terminals that can stand there. Except at a character that is no token the list need not be complete: there are texts, and ends of texts, after which a terminal that is not listed could follow.", "quantifier": "every entry point, every token stream that is rejected, every token of a listed kind", "why_tests_cant": "ranges over all rejected inputs and all completions of their prefixes", "anchors": ["src/parser/parser.lalrpop", "src/error.rs: From<ParseError<L, T, E>> for Error"]}
{"id": "C45", "title": "Error messages identify the error", "statement": "from_str returns an Err exactly when there is a message; the message always starts with `Failed to parse the contract. `; for a syntax error it goes on with the byte position, line and column of the offending token and its (escaped) text, its end position and the list of expected tokens, at end of input with the end of the last token and the expected tokens, and for an emitter failure with `Expected <symbol name|variable declaration|type definition>, but found <stack object|nothing>.`; two texts with the same message have the same error (same token, same text, same place).", "quantifier": "every pair of texts, every set of printable characters, every way of printing the expected list", "why_tests_cant": "injectivity of a rendering over all inputs, including arbitrary escapes", "anchors": ["src/error.rs: Error, From<ParseError<L, T, E>>", "src/contract.rs: Contract::from_str", "src/parser/lexer.rs: derive(Debug) on Token and SourcePosition", "src/simplified_representation/emitter.rs: pop_ir_identifier, pop_variable_declaration, pop_type_definition"]}
{"id": "C46", "title": "Display of names is their source text and is read back", "statement": "The Display of a type name, of a (possibly namespaced or hex-spaced) meta identifier and of a variable identifier is the text of the tokens it was parsed from, without layout; parsing that Display again as the same kind of phrase gives the same node up to positions.", "quantifier": "every phrase of these three kinds, every layout it was written in", "why_tests_cant": "ranges over all names", "anchors": ["src/ast/nodes.rs: Display for NodeTypeNameIdentifier, NodeMetaIdentifier, NodeVariableIdentifier, NodeByteStr, WithMetaData", "src/parser/parser.lalrpop"]}
{"id": "C47", "title": "What the traversal does with every answer of an emitter", "statement": "For every emitter whose callbacks do not themselves start visits (they may answer Continue or SkipChildren on Enter and on Exit, fail or panic, depending on anything), the visit of every node ends exactly as a table says: children in order, what SkipChildren of each child causes (ignored / rest of the children dropped / Exit dropped / SkipChildren handed on), which failures are tolerated, where positions are pushed and popped, where it panics; there is exactly one outcome. An emitter that answers SkipChildren on entering some nodes and otherwise continues sees exactly the depth-first traversal without what is below these nodes.", "quantifier": "every emitter state type, every choice of answers and failures, every AST node, every state", "why_tests_cant": "ranges over all emitters and all trees", "anchors": ["src/ast/visitor.rs: impl AstVisitor for every node", "src/ast/mod.rs: TraversalResult, TreeTraversalMode", "src/ast/converting.rs: AstConverting"]}
{"id": "C48", "title": "What SrEmitter passes over and what it refuses", "statement": "Visiting any expression, statement, statement block, pattern, literal, variable, component body, procedure, contract constraint or type alternative with SrEmitter leaves it unchanged and continues; visiting any import, library, library entry or part of an expression or statement panics; entering a type name pushes exactly its text as an identifier, except Event, which pushes nothing. Consequently visiting a whole program equals SrEmitter::emit when it has neither imports nor a library, and panics otherwise (which is why emit visits only the contract).", "quantifier": "every AST node of these kinds, every emitter state, every program", "why_tests_cant": "ranges over all AST nodes and states", "anchors": ["src/simplified_representation/emitter.rs: impl AstConverting for SrEmitter, SrEmitter::emit", "src/ast/visitor.rs"]}
{"id": "C49", "title": "The answer depends on the text only", "statement": "Two runs of from_str on the same text give the same answer (same contract, same syntax error at the same position, or both panic) whatever version of the Unicode tables they use, as long as the tables agree on the non-ASCII characters of that text; an emitter error may differ in the rendering of the object it mentions, nothing else may. On ASCII text the tables do not matter at all; the same holds for the lexer and for every parser entry point. (They do matter in general: `_é` is lexed differently if é is not a letter.)", "quantifier": "every text, every pair of Unicode tables, every rendering of emitter objects", "why_tests_cant": "ranges over all texts and all versions of the tables", "anchors": ["src/parser/lexer.rs: Lexer::next (is_alphanumeric, is_numeric)", "src/contract.rs: FromStr", "src/simplified_representation/emitter.rs: pop_*"]}
{"id": "C50", "title": "Exactly which contracts from_str can return", "statement": "The set of Contract values that from_str returns for some text is exactly this: the contract name is an upper-case identifier that is no keyword and does not start with ByStr, or ByStr followed by digits, or Event; transition names may also be lower-case identifiers; parameter and field names (also inside address types) are lower-case identifiers that are no keywords; types are built by Option, List, Pair and Map from the base types, ByStr20, ByStrX(n) with n < 2^64, Other(name) with a name without a meaning of its own (or ByStr with a larger size), and address types whose kind is contract, or, without fields, empty, library or a special identifier; the key of a Map is always a plain name. Every such value is the answer for some text.", "quantifier": "every text; every Contract value", "why_tests_cant": "both the absence of other values over all texts and the existence of a text for each of infinitely many values", "anchors": ["src/contract.rs: Contract, FromStr", "src/type.rs: Type", "src/field.rs: Field", "src/transition.rs: Transition", "src/simplified_representation/emitter.rs: SrEmitter"]}
{"id": "C51", "title": "Debug texts", "statement": "`{:?}` of a token, position, Type, Field, Transition, Contract or emitter stack object is the text that derive(Debug) prescribes for its variant and field names; a string in it is shown as a Rust string literal denoting exactly that string; two different Types, Fields, Transitions, Contracts or stack objects never have the same Debug text, so an emitter error message determines what was expected and what was found; ParserError displays as `<message> (line <l>, column <c>)`.", "quantifier": "every value of these types, every string, every set of printable characters", "why_tests_cant": "injectivity over all (nested) values and strings with arbitrary characters", "anchors": ["src/type.rs: derive(Debug) on Type", "src/field.rs: derive(Debug)", "src/transition.rs: derive(Debug)", "src/contract.rs: derive(Debug)", "src/simplified_representation/emitter.rs: StackObject", "src/parser/lexer.rs: Token, SourcePosition, ParserError"]}
{"id": "C52", "title": "Display of a Type determines the Type", "statement": "Display of a Type is the documented text of its variant around the texts of its arguments; two Types that a parse can produce have the same Display text exactly when they are equal up to writing ByStrX(20) for ByStr20. For arbitrary Type values this is refuted (Int32 and Other(\"Int32\")).", "quantifier": "every pair of Types that occur in a parsed contract, any nesting", "why_tests_cant": "injectivity over all nested types", "anchors": ["src/type.rs: Display for Type", "src/field.rs: Display"]}
{"id": "C53", "title": "A syntax error is decided by the text up to it", "statement": "If parsing fails at an unexpected token, the result - same token, same positions - is decided by the text up to the whitespace after that token: whatever follows, the parse returns the same error, and no continuation removes an error already reported for a prefix that ends in whitespace. The condition is that no string quote is open in that prefix; with an open quote the claim is refuted (the lexer reports the lone quote, and a closing quote further on repairs it).", "quantifier": "every text, every continuation, every Unicode table", "why_tests_cant": "quantifies over all continuations of a text", "anchors": ["src/parser/lexer.rs: Lexer::next", "src/contract.rs: Contract::from_str", "src/parser/parser.lalrpop"]}
{"id": "C54", "title": "Unexpected end of input means exactly that the text can be completed", "statement": "If a text (no open quote, ending in whitespace, possibly inside a comment) is rejected with an unexpected end of input, then some continuation of it parses; if it is rejected at a token, none does. Whether a text parses, and the index of the token at which it fails, depends only on the kinds of its tokens.", "quantifier": "every text, every start symbol, every pair of texts with the same kinds of tokens", "why_tests_cant": "viable prefix property over all texts", "anchors": ["src/parser/parser.lalrpop", "src/parser/lexer.rs", "src/error.rs: ParseError"]}
{"id": "C55", "title": "Accepted texts are balanced", "statement": "In every accepted text the round, square and curly bracket tokens are properly nested, and together with the blocks opened by `with`, `transition` or `procedure` and closed by `end`: an `end` closes the last of these still open and no bracket is open across it. Only the `with` of the contract's constraint is closed by nothing; the text before it and the text after it are properly nested. So the number of `with` plus the number of `transition`/`procedure` tokens equals the number of `end` tokens, plus one if the contract has a constraint.", "quantifier": "every accepted text", "why_tests_cant": "every derivation of the grammar, any depth", "anchors": ["src/parser/parser.lalrpop", "src/contract.rs: Contract::from_str"]}
{"id": "C56", "title": "Unnamed address-type fields take up contract parameters", "statement": "In the declaration of a contract field, a field of an address type whose name is not a plain identifier (`_x`, `Ns.x`) does not appear in the result: the last contract parameter not taken up yet appears in its place, with its own name and type. If none is left, parsing fails with \"Expected type definition, but found nothing.\"; so it does when such an address type occurs in a contract parameter. In a transition parameter it is an error too, whose message may name a contract parameter or the contract.", "quantifier": "every accepted program whose annotations are otherwise plain, any number and nesting of address types", "why_tests_cant": "the stack of the emitter is shared by all declarations; all nestings and orders matter", "anchors": ["src/simplified_representation/emitter.rs: emit_address_type, emit_address_type_field, pop_variable_declaration", "src/contract.rs: Contract::from_str"]}
{"id": "C57", "title": "The work of a parse is linear in the number of tokens", "statement": "On n tokens the parser makes at most 42 n + 21 actions, whatever the text, and converting the AST to a Contract visits at most 8 n nodes, whether it succeeds, fails or panics. There is no input on which nested types are visited exponentially often.", "quantifier": "every text, every start symbol of the parser, every accepted program", "why_tests_cant": "a bound over all inputs; the emitter visits contract parameters twice, so that it is not exponential in the nesting needs an argument", "anchors": ["src/simplified_representation/emitter.rs: impl AstConverting for SrEmitter", "src/ast/visitor.rs: AstVisitor::visit", "src/parser/parser.lalrpop"]}
{"id": "C58", "title": "Nesting of calls is at most linear in the number of tokens, and not bounded", "statement": "For a text of n tokens at most 4 n calls of visit are nested. No constant suffices: for every d there is an accepted text of 2 d + 9 tokens for which more than d calls must be nested, so a deep enough type overflows the stack.", "quantifier": "every accepted text; every depth d", "why_tests_cant": "quantifies over all texts and all depths", "anchors": ["src/ast/visitor.rs: AstVisitor::visit", "src/simplified_representation/emitter.rs: emit_scilla_type", "src/contract.rs: Contract::from_str"]}
{"id": "C59", "title": "Everything in the result is spelled with tokens of the text", "statement": "When from_str returns a contract, every name in it (contract, parameter, field, transition, type and user type names, address kinds) is the text of a token of the input: the words the result is spelled with (each type by its name followed by the words of its parts) each occur at most as often as among the tokens, counting the tokens of the contract name and its parameter list twice. Hence the result never has more than 2 n type constructors and names for a text of n tokens. Counting every token only once is wrong: a parameter can appear twice.", "quantifier": "every text from_str accepts, every word", "why_tests_cant": "quantifies over all accepted texts", "anchors": ["src/simplified_representation/emitter.rs: emit_scilla_type, emit_address_type, emit_type_name_identifier", "src/type.rs: From<SrType>", "src/contract.rs: Contract::from_str"]}
{"id": "C60", "title": "Lexing is at most quadratic, and linear when no word is made of several tokens", "statement": "For a text of n characters the lexer reads at most (n^2 + 11 n + 2)/2 characters, counting repeated reads. It reads at most 4 n + 1 if every word it comes to is one token, in particular for tokens separated by layout. It is not linear in general: there are accepted contracts (ByStr glued to ByStr) on which it reads more than any given multiple of n.", "quantifier": "every text; every factor for the negative part", "why_tests_cant": "a bound on the work for all texts, and the absence of a linear one, are statements about unboundedly many texts", "anchors": ["src/parser/lexer.rs: Lexer, Iterator::next (keyword scan, lines 387-399)"]}
{"id": "C61", "title": "Names are opaque", "statement": "Replacing the words of a text by other words of the same class (identifiers by identifiers, type names by type names, ...), consistently, but not necessarily injectively, and without touching or creating the reserved type names (Int32, ..., Option, List, Pair, Map, ByStr<n>), makes from_str return the same result with the names replaced: the same contract up to the names, the error at the same token, or the panic. In particular an accepted text stays accepted when all its lower case names become x and all its user type, contract and transition names become T: no name is looked up and none has to be new. Renaming a user type to a reserved name is different: it can turn an accepted text into a panic.", "quantifier": "every text, every renaming, every layout of the renamed words", "why_tests_cant": "quantifies over all texts and all renamings", "anchors": ["src/contract.rs: Contract::from_str", "src/type.rs: From<SrType>", "src/simplified_representation/emitter.rs", "src/parser/parser.lalrpop"]}
{"id": "C62", "title": "Components compose", "statement": "Cut an accepted program before any transition or procedure. The words before the cut are accepted on their own, and the words after it (a list of components) add the same transitions, in order, to every accepted contract they are written after, whatever its name, parameters, fields, library and components; whether such a list of components is accepted does not depend on the contract. Hence the components of an accepted contract can be reordered, left out and repeated, and each goes on to contribute exactly what it contributed: the transitions whose names follow its `transition` keyword. The analogous claim for fields is refuted: a field of type Event has a type that depends on the contract and may be rejected in another one.", "quantifier": "every accepted text, every cut before a component keyword, every other accepted contract, every selection of components, every layout of the resulting words", "why_tests_cant": "Ranges over all pairs of programs and all selections; the emitter shares one stack among all declarations, so independence is a property of all stacks.", "anchors": ["src/contract.rs: FromStr", "src/simplified_representation/emitter.rs: emit_transition_definition, emit_contract_definition", "src/parser/parser.lalrpop: ContractDefinition, ComponentDefinition"]}
{"id": "C63", "title": "Comparing source positions", "statement": "The comparison of SourcePosition values is a total order that agrees with ==; start_position() is the least and invalid_position() the greatest position, the first is valid, the second is not, and everything not after a valid position is valid. No coordinate of a position the lexer reports exceeds the size of the text (so nothing overflows), and for texts of less than 2^63-1 bytes all are valid. Comparing starts, or comparing ends, puts the tokens in the order of the text; a token starts before it ends. In every AST a node starts before it ends, lies between the start and the end of its parent, and siblings are ordered both by start and by end. That a token ends not after the start of the next one is refuted for tokens with nothing between them.", "quantifier": "every triple of positions; every text; every pair of tokens; every AST of every non terminal", "why_tests_cant": "All texts and all pairs; the columns lag (C10), so the order is not obvious.", "anchors": ["src/parser/lexer.rs: SourcePosition, is_valid, start_position, invalid_position, with_end", "src/ast/nodes.rs: WithMetaData", "src/parser/parser.lalrpop"]}
{"id": "C64", "title": "Words are what the regular expressions match", "statement": "The regular expressions written in the lexer are all valid, so compiling them never panics, and a search with one of them has exactly one answer. For every text, at the start of every token that is neither punctuation nor a keyword, trying the expressions in the written order gives the token: the first expression that is found in the rest of the text, by the leftmost-first rule, starts right there and the token's text is its match; where the lexer reports an unknown token, no expression is found.", "quantifier": "all texts, all tokens of the text, all regular expressions in the supported syntax (for the uniqueness of the answer)", "why_tests_cant": "There are infinitely many texts; greedy and backtracking matches (escapes in string literals, pairs of hex digits) depend on arbitrarily much of what follows.", "anchors": ["src/parser/lexer.rs: Iterator::next (lines 604-709)"]}
{"id": "C65", "title": "Reading a contract is a flat stack program", "statement": "For every text that parses, the result of Contract::from_str is obtained as follows: translate the declarations of the contract from left to right into commands for a machine with one stack (push a name, turn a name into a type, apply a type to arguments, make a map, make a declaration, move a declaration into the contract, forget an error), parameters twice and fields and transitions once, nothing for initialisers, bodies, procedures and the constraint; execute the commands starting with nothing. If all succeed the value is the contract built; if one fails the error is its message; a type that cannot be represented is a panic. An answer other than a contract is due to one command: declarations after it do not matter.", "quantifier": "all texts that parse, including those with types (Event, functions, namespaces, addresses) whose reading goes wrong; all ways Debug may render a value in messages", "why_tests_cant": "Types nest without bound, and what one declaration leaves on the stack changes how arbitrarily distant later declarations are read.", "anchors": ["src/simplified_representation/emitter.rs: SrEmitter", "src/ast/converting.rs: TreeTraversal::visit", "src/contract.rs: from_str"]}
{"id": "C66", "title": "Comparing syntax trees and results", "statement": "== on AST nodes, located nodes (WithMetaData), positions, tokens, types, fields, transitions and contracts is equality of every part, nothing ignored and nothing confused: two nodes of the same type are == exactly when they have the same variant and == parts, source positions included. <, <= and partial_cmp on nodes of one type are a total order whose Equal is ==: the variant declared first is less; within a variant the first part that differs decides, in the order of the declaration; lists and strings are compared as in a dictionary, strings by their characters; a located node is compared by its node, then its start, then its end; an absent optional part is less than a present one. Consequences that are false: programs that differ in layout only are ==; < is the order in the text.", "quantifier": "all nodes of all 46 AST types, all tokens, types, fields, transitions, contracts and positions", "why_tests_cant": "There are 46 recursive types with about 150 variants and trees of any depth; a test compares a few trees.", "anchors": ["src/ast/nodes.rs: derive(PartialEq, PartialOrd, Eq)", "src/parser/lexer.rs: Token, SourcePosition", "src/type.rs: Type", "src/contract.rs: Contract", "src/transition.rs: Transition", "src/field.rs: Field"]}
{"id": "C67", "title": "Debug shows everything in a syntax tree", "statement": "The {:?} text of an AST node determines it: two nodes of the same type with the same text are the same, positions included, whatever strings are in them; so the texts are the same exactly when the nodes are ==. The texts of tokens, positions, types, fields, transitions and contracts are those of the same derivation scheme.", "quantifier": "all nodes of all 46 AST types; all classifications of characters as printable", "why_tests_cant": "Nodes hold arbitrary strings, which could imitate the text of other nodes; trees have any depth.", "anchors": ["src/ast/nodes.rs: derive(Debug)", "src/parser/lexer.rs: derive(Debug)"]}
{"id": "C68", "title": "Which errors reading a contract can report", "statement": "If a text parses and Contract::from_str nevertheless returns an error, the message is one of six: a symbol name was expected but nothing, a type or a declaration was found, or a type definition was expected but nothing, a name or a declaration was found. A declaration that is shown there is always one of the contract's parameters. A missing declaration is never reported. Each of the six is reported for some text.", "quantifier": "all texts that parse, all classifications of characters", "why_tests_cant": "What is found depends on everything that was read before, at any nesting depth.", "anchors": ["src/simplified_representation/emitter.rs: pop_ir_identifier, pop_type_definition, pop_variable_declaration", "src/ast/visitor.rs"]}
{"id": "C69", "title": "Pretty Debug texts", "statement": "The `{:#?}` text of a contract, a token, a position or a syntax tree node puts every part of a value on lines of its own, four spaces further in than the value and followed by a comma; texts never spread over lines. Undoing this layout gives exactly the `{:?}` text, so two contracts (two nodes of the same type) have the same `{:#?}` text only if they are equal.", "quantifier": "every contract, token, position and syntax tree, any depth, any strings", "why_tests_cant": "unbounded nesting and arbitrary texts (quotes, brackets, newlines) inside strings", "anchors": ["src/contract.rs: Contract (derive Debug)", "src/field.rs", "src/transition.rs", "src/type.rs", "src/parser/lexer.rs: Token, SourcePosition", "src/ast/nodes.rs"]}
{"id": "C70", "title": "Building the value to compare with", "statement": "A parsed contract is == to a contract built with Field::new, FieldList::push, Transition::new and Transition::new_without_param exactly if this was built from the same name and from the same names and types in the same order. No parsed contract equals Contract::default(), no parsed field equals Field::default(), no parsed transition has an empty name. Going through a list (Deref) shows exactly the pushed elements in order. A clone of a type, field or field list equals the original.", "quantifier": "every accepted text, every sequence of pushes, every type", "why_tests_cant": "all texts and all lists", "anchors": ["src/field.rs: Field::new, Field::default, FieldList::push, FieldList::deref, Clone", "src/transition.rs: Transition::new, Transition::new_without_param, TransitionList", "src/contract.rs: Contract (derive PartialEq, Default)", "src/type.rs: Type (derive Clone)"]}
{"id": "C71", "title": "Texts that cannot panic", "statement": "If a text parses, its contract is not called Option, List, Pair or Map, the types of its contract parameters and fields contain no function type, polymorphic type, type variable or unparenthesised Map argument inside a map value, give Option and List at least one and Pair at least two arguments everywhere and use none of these four as a namespace, and the parameters of its transitions have supported types, then Contract::from_str returns (a contract or an error) and does not panic - also if types mention Event, namespaces, address types as map keys or address fields whose name is not a plain identifier. Dropping any one of the conditions admits a text on which it panics.", "quantifier": "every text, every nesting of types, any number of declarations", "why_tests_cant": "The stack can be left with objects of earlier declarations, so whether a declaration panics depends on all the declarations before it; only an invariant of the stack covers all of them.", "anchors": ["src/contract.rs: Contract::from_str", "src/type.rs: From<SrType> for Type", "src/simplified_representation/emitter.rs: SrEmitter, unimplemented! in emit_type_argument, emit_scilla_type, emit_type_map_value_arguments"]}
{"id": "C72", "title": "Changing supported fields and transitions has no side effects", "statement": "Take two texts that parse and whose contracts differ only in a run of consecutive fields, all with supported types (some added, removed, reordered or changed): Contract::from_str gives the same answer for both - the same error, or a panic in both cases, or the same contract except that the reported fields at these places are the declared ones - even if other declarations use constructs whose meaning depends on earlier ones (Event, namespaces, unnamed address fields). The same holds for runs of transitions with supported parameters. It does not hold for contract parameters (refuted).", "quantifier": "every pair of texts that parse, every run of declarations, everything around it", "why_tests_cant": "The declarations around the change are arbitrary and share a stack with the changed ones.", "anchors": ["src/contract.rs: Contract::from_str", "src/simplified_representation/emitter.rs: emit_contract_definition, emit_contract_field, emit_transition_definition, pop_*"]}
{"id": "C73", "title": "The characters of accepted texts", "statement": "Outside comments and string literals, a text that any parser entry point accepts consists of white space (Unicode) and of 81 ASCII characters: letters, digits and _ ' ; : . | [ ] ( ) { } , = < > & @ -. So a text in which any other character (a byte order mark, a letter outside ASCII, +, *, #, a control character) stands before the first quote and outside comments is never accepted. Every one of the 81 characters does occur in an accepted text. After a string literal with non-ASCII characters a bounded number of arbitrary characters may follow (see C04).", "quantifier": "every text, every entry point", "why_tests_cant": "all characters at all places of all texts", "anchors": ["src/parser/lexer.rs: Lexer::next", "src/parser/parser.lalrpop: all productions", "src/contract.rs: Contract::from_str"]}
{"id": "C74", "title": "White space can be changed freely", "statement": "Replacing any run of white space of an ASCII text by another non-empty run (a line feed by CR LF, a tab by spaces, several blank lines by one), also inside comments and string literals, and adding or removing white space at both ends of the text, does not change the outcome of Contract::from_str: the same contract, or a syntax error at the corresponding token, or an emitter error with the same message, or a panic. For a text with non-ASCII characters the same holds if it contains no double quote and the white space at its end is neither added nor removed; with string literals holding non-ASCII characters, or at the end of the text, it fails.", "quantifier": "every pair of texts that differ in runs of white space, every character class of non-ASCII characters", "why_tests_cant": "unboundedly many layouts of unboundedly many texts", "anchors": ["src/parser/lexer.rs: Lexer::next", "src/contract.rs: Contract::from_str"]}
{"id": "C75", "title": "Tokens and syntax errors move with the text", "statement": "Inserting white space and comments after a white space character that is outside of comments, of string literals and of the characters that the lexer drops after a non-ASCII string literal, or at the front of the text, or right before a token that only proper tokens precede (also where no white space stood; not inside a word, and the comments without double quotes), leaves every token before the insertion with its positions, moves every token after it by the number of bytes inserted and the number of lines ended in it, keeps the columns of tokens on later lines, and keeps the way the token sequence ends. Contract::from_str answers the same, but for the token of a syntax error, which moves in the same way. Inside a string literal and in the dropped characters this fails, and on the line of the insertion columns do not move by the number of bytes inserted.", "quantifier": "every text, every place in it after white space outside of comments and string literals, every inserted run of white space and comments, every character class of non-ASCII characters", "why_tests_cant": "unboundedly many texts, places and insertions", "anchors": ["src/parser/lexer.rs: Lexer::next", "src/contract.rs: Contract::from_str"]}
{"id": "C76", "title": "Syntax trees move with the text", "statement": "If white space and comments are inserted at a place as in C75 into a text that an entry point of the parser accepts, the entry point accepts the new text with the same syntax tree, in which every start and end position up to the insertion is kept, and every other one has moved by the number of bytes inserted and the number of lines ended in it, with the same column on later lines. If the text is refused, so is the new one, at the token that corresponds. In general: giving the tokens other positions gives the nodes the corresponding positions and changes nothing else.", "quantifier": "every entry point, every text, every place in it as in C75, every inserted run of white space and comments; every token sequence and every replacement of positions", "why_tests_cant": "unboundedly many texts, trees and insertions", "anchors": ["src/parser/parser.lalrpop: all productions", "src/parser/lexer.rs: Lexer::next", "src/ast/nodes.rs: WithMetaData"]}
{"id": "C77", "title": "Literals are opaque", "statement": "Replacing string literals, numbers (the scilla_version number included), hexadecimal numbers and names of type variables in a text by other literals of the same sort never changes what Contract::from_str answers: the same contract, the same message of an emitter error, a syntax error at the token in the same place, an unexpected end, or a panic. The sizes in type names (ByStr20) are not literals in this sense, and a literal cannot be replaced by one of another sort; both are shown to make a difference.", "quantifier": "every pair of texts whose token streams differ in the texts of literals only, including texts that are refused", "why_tests_cant": "unboundedly many texts and literals", "anchors": ["src/parser/parser.lalrpop: StringLiteral, SignedInteger, HexNumber", "src/simplified_representation/emitter.rs: SrEmitter", "src/contract.rs: Contract::from_str"]}
{"id": "C78", "title": "Showing a result takes linear space", "statement": "For every accepted text, the Display texts of all types in the result together, and the {:?} text of the whole contract, are at most as long as the text up to constant factors: with n characters and k tokens, at most 2n + 20k and 2n + 100k + 150 characters. The pretty text {:#?} has no such bound: for every factor there is an accepted text whose pretty-printed contract is longer than that factor times the text.", "quantifier": "every accepted text, every table of printable characters", "why_tests_cant": "a bound over all texts and all nestings", "anchors": ["src/type.rs: impl Display for Type, derive(Debug)", "src/contract.rs: Contract (derive Debug), from_str", "src/field.rs, src/transition.rs: derive(Debug)"]}
{"id": "C79", "title": "Error messages show words of the text and take linear space", "statement": "When reading a parsed contract fails, the message names what was expected (symbol name, variable declaration or type definition) and either 'nothing' or an object that is spelled with tokens of the text, each used at most twice. A syntax error lists every expected terminal at most once. The Display text of any error is at most as long as the text up to a constant factor, not counting the list of at most 59 expected terminals.", "quantifier": "every text of Unicode scalar values, every table of printable characters, every way of printing the list of expected terminals", "why_tests_cant": "a bound over all texts, over all errors and all depths of types shown in a message", "anchors": ["src/error.rs: Error, ParseError Display", "src/parser/emitter.rs: pop_ir_identifier, pop_variable_declaration, pop_type_definition", "src/parser/lexer.rs: derive(Debug)", "src/contract.rs: from_str"]}
{"id": "C80", "title": "A text with a syntax error is right up to the offending token", "statement": "Let a token start right after the prefix p of a text (not in the middle of a word), and let no syntax error be reported before it. Then p followed by one white space character is accepted by the parser or answered by the unexpected end error, never by a token error; and it can always be continued, after that white space, to a text the parser accepts. In particular this holds for the token a syntax error names: the text before that token is not to blame.", "quantifier": "every text, every token of it not preceded by a reported error, every start symbol (for continuing: but that of a string literal), every white space character, every Unicode table", "why_tests_cant": "all prefixes of all texts, and the existence of a continuation", "anchors": ["src/parser/parser.lalrpop: all productions", "src/parser/lexer.rs: Lexer::next", "src/contract.rs: from_str"]}
