(** GENERATED by tools/gen_tests.py from /repo/tests/parser_tests.rs: the
    project's own acceptance tests, run on the model.  These are tests of the
    model's fidelity, not proofs of properties. *)
From Verif Require Import Chars Lexer Ast Grammar Cfg Tables Parser.

Definition accepts (A : nt) (s : string) : bool :=
  match parse_str U_none A (lit s) with POk _ => true | _ => false end.
Definition rejects (A : nt) (s : string) : bool :=
  match parse_str U_none A (lit s) with PErrToken _ | PErrEof => true | _ => false end.

Example parser_tests_ok : forallb (fun b => b) [
  (* 32 *) accepts ByteString "ByStr1234";
  (* 33 *) accepts ByteString "ByStr11";
  (* 34 *) accepts ByteString "ByStr0";
  (* 44 *) accepts TypeNameIdentifier "Event";
  (* 45 *) accepts TypeNameIdentifier "Foo";
  (* 46 *) accepts TypeNameIdentifier "ByStr42";
  (* 56 *) accepts ImportedName "Event";
  (* 57 *) accepts ImportedName "Foo";
  (* 58 *) accepts ImportedName "ByStr42";
  (* 59 *) accepts ImportedName "Event as Alias";
  (* 60 *) accepts ImportedName "Foo as Alias";
  (* 61 *) accepts ImportedName "ByStr42 as Alias";
  (* 71 *) accepts ImportDeclarations "import Foo";
  (* 72 *) accepts ImportDeclarations "import Event import ByStr42";
  (* 76 *) accepts ImportDeclarations "import Foo as Bar";
  (* 85 *) accepts MetaIdentifier "Event";
  (* 86 *) accepts MetaIdentifier "Foo.Bar";
  (* 87 *) accepts MetaIdentifier "ABCD.Event";
  (* 88 *) accepts MetaIdentifier "0x1234.Event";
  (* 89 *) accepts MetaIdentifier "ByStr";
  (* 101 *) accepts VariableIdentifier "foo";
  (* 102 *) accepts VariableIdentifier "_bar";
  (* 103 *) accepts VariableIdentifier "Foo.bar";
  (* 104 *) accepts VariableIdentifier "ByStr42.baz";
  (* 105 *) accepts VariableIdentifier "Event.qux";
  (* 117 *) accepts BuiltinArguments "( )";
  (* 118 *) accepts BuiltinArguments "foo";
  (* 119 *) accepts BuiltinArguments "foo bar baz";
  (* 120 *) accepts BuiltinArguments "Event.qux";
  (* 131 *) accepts ScillaType "Uint32";
  (* 132 *) accepts ScillaType "Foo(Bar)";
  (* 133 *) accepts ScillaType "Map Uint32 String";
  (* 134 *) accepts ScillaType "Uint32 -> Bool";
  (* 135 *) accepts ScillaType "(Uint32)";
  (* 136 *) accepts ScillaType "Address with end";
  (* 137 *) accepts ScillaType "forall 'A. forall 'B. ( 'B -> 'A -> 'B) -> 'B -> List 'A -> 'B";
  (* 141 *) accepts ScillaType "T";
  (* 154 *) accepts AddressType "Foo with end";
  (* 155 *) accepts AddressType "ByStr42 with end";
  (* 156 *) accepts AddressType "Event with end";
  (* 157 *) accepts AddressType "Foo with contract field field1: Uint32, field field2: Uint32 end";
  (* 161 *) accepts AddressType "ByStr42 with contract field field1: Uint32 end";
  (* 165 *) accepts AddressType "Event with contract end";
  (* 166 *) accepts AddressType "Foo with library end";
  (* 167 *) accepts AddressType "ByStr42 with library end";
  (* 168 *) accepts AddressType "Event with library end";
  (* 169 *) accepts AddressType "Foo with _foo end";
  (* 170 *) accepts AddressType "ByStr42 with _foo end";
  (* 171 *) accepts AddressType "Event with _foo end";
  (* 172 *) accepts AddressType "Foo with contract field field1: Uint32 end";
  (* 176 *) accepts AddressType "ByStr42 with contract field field1: Uint32, field field2: Uint32, field field3: Uint32 end";
  (* 177 *) accepts AddressType "Event with contract field field1: Uint32 end";
  (* 194 *) accepts TypeMapKey "Foo";
  (* 195 *) accepts TypeMapKey "(Foo)";
  (* 196 *) accepts TypeMapKey "Foo with end";
  (* 197 *) accepts TypeMapKey "(Foo with end)";
  (* 198 *) accepts TypeMapKey "(ByStr42 with contract end)";
  (* 199 *) accepts TypeMapKey "Foo with library end";
  (* 209 *) accepts TypeMapValue "Uint32";
  (* 210 *) accepts TypeMapValue "Map Foo Bar";
  (* 211 *) accepts TypeMapValue "(Uint32)";
  (* 212 *) accepts TypeMapValue "Address with end";
  (* 213 *) accepts TypeMapValue "Foo with contract field field1: Uint32 end";
  (* 229 *) accepts TypeMapValueArguments "(Uint32)";
  (* 230 *) accepts TypeMapValueArguments "Foo";
  (* 231 *) accepts TypeMapValueArguments "Map Foo Bar";
  (* 243 *) accepts TypeArgument "Foo";
  (* 244 *) accepts TypeArgument "(Bar)";
  (* 245 *) accepts TypeArgument "Uint32";
  (* 246 *) accepts TypeArgument "'A";
  (* 247 *) accepts TypeArgument "(Uint32)";
  (* 248 *) accepts TypeArgument "Address with contract field field1: Uint32, field field2: Uint32 end";
  (* 252 *) accepts TypeArgument "Map Uint32 Bool";
  (* 266 *) accepts FullExpression "let x = Int32 42 in X";
  (* 267 *) accepts FullExpression "let x: Int32 = Int32 42 in X";
  (* 268 *) accepts FullExpression "let x = Uint128 42 in builtin lt x x";
  (* 272 *) accepts FullExpression "fun (x: Int32) => builtin lt x x";
  (* 276 *) accepts FullExpression "fun (x: Int32) => foo";
  (* 277 *) accepts FullExpression "foo";
  (* 278 *) accepts FullExpression "foo bar baz";
  (* 279 *) accepts FullExpression "UInt32 42";
  (* 280 *) accepts FullExpression "true";
  (* 281 *) accepts FullExpression "builtin blabla a b";
  (* 282 *) accepts FullExpression "{ foo: UInt32 42; bar: Int64 23 }";
  (* 286 *) accepts FullExpression "match foo with 
| False => True 
| _ => False 
end";
  (* 290 *) accepts FullExpression "Foo";
  (* 291 *) accepts FullExpression "Foo  m  n";
  (* 292 *) accepts FullExpression "tfun 'T => fun (x: 'T) => x";
  (* 293 *) accepts FullExpression "@foo Type";
  (* 316 *) accepts AtomicExpression "foo";
  (* 317 *) accepts AtomicExpression "Uint32 42";
  (* 318 *) accepts AtomicExpression "0x123abc";
  (* 319 *) accepts AtomicExpression """string""";
  (* 328 *) accepts AtomicExpression "foo";
  (* 329 *) accepts AtomicExpression "Uint32 42";
  (* 330 *) accepts AtomicExpression "0x123abc";
  (* 331 *) accepts AtomicExpression """string""";
  (* 340 *) accepts MapAccess "[foo]";
  (* 341 *) accepts MapAccess "[bar123]";
  (* 342 *) accepts MapAccess "[_result]";
  (* 353 *) accepts Pattern "_";
  (* 354 *) accepts Pattern "foo";
  (* 355 *) accepts Pattern "Bar42";
  (* 356 *) accepts Pattern "Bar42 _";
  (* 357 *) accepts Pattern "Bar42 hello";
  (* 358 *) accepts Pattern "Bar42(_)";
  (* 359 *) accepts Pattern "Bar42(Foo)";
  (* 360 *) accepts Pattern "Bar42(Foo Bar)";
  (* 361 *) accepts Pattern "Bar42(ByStr42 Int32)";
  (* 362 *) accepts Pattern "Bar42(Foo.Bar Bar.Baz)";
  (* 374 *) accepts ArgumentPattern "_";
  (* 375 *) accepts ArgumentPattern "foo";
  (* 376 *) accepts ArgumentPattern "MyType";
  (* 377 *) accepts ArgumentPattern "(baz)";
  (* 378 *) accepts ArgumentPattern "(Bar42 _)";
  (* 379 *) accepts ArgumentPattern "my_type";
  (* 388 *) accepts PatternMatchExpressionClause "| _ => Uint32 42";
  (* 392 *) accepts PatternMatchExpressionClause "| Foo => Uint32 42";
  (* 396 *) accepts PatternMatchExpressionClause "| Foo _ Bar => Uint32 42";
  (* 400 *) accepts PatternMatchExpressionClause "| Bar _ => Uint32 42";
  (* 404 *) accepts PatternMatchExpressionClause "| Bar _ => Int32 -1";
  (* 408 *) accepts PatternMatchExpressionClause "| Foo _ => let x = Uint32 1 in x";
  (* 425 *) accepts MessageEntry "foo: Uint32 42";
  (* 426 *) accepts MessageEntry "foo: bar";
  (* 427 *) accepts MessageEntry "foo: 0x1337";
  (* 436 *) accepts TypeAnnotation ": Int";
  (* 437 *) accepts TypeAnnotation ": MyTypeOrEnumLikeIdentifier";
  (* 438 *) accepts TypeAnnotation ": ByStr32";
  (* 439 *) accepts TypeAnnotation ": (Map ByStr32 Uint32)";
  (* 440 *) accepts TypeAnnotation ": (Map ByStr32 (Map ByStr32 Uint32))";
  (* 444 *) accepts TypeAnnotation ": (List MyTypeOrEnumLikeIdentifier)";
  (* 448 *) accepts TypeAnnotation ": (Pair MyTypeOrEnumLikeIdentifier1 MyTypeOrEnumLikeIdentifier2)";
  (* 452 *) accepts TypeAnnotation ": (Pair (Pair Int Bool) (List MyTypeOrEnumLikeIdentifier))";
  (* 475 *) accepts TypedIdentifier "foo: Int";
  (* 476 *) accepts TypedIdentifier "bar: ByStr20";
  (* 477 *) accepts TypedIdentifier "baz: (Int Bool)";
  (* 486 *) accepts Statement "foo <- bar";
  (* 487 *) accepts Statement "remoteFetchStatement";
  (* 488 *) accepts Statement "foo := bar";
  (* 489 *) accepts Statement "foo = Uint32 42";
  (* 490 *) accepts Statement "foo <- &Event";
  (* 491 *) accepts Statement "foo <- qux[baz]";
  (* 492 *) accepts Statement "foo <- exists baz[bar]";
  (* 493 *) accepts Statement "foo[bar] := qux";
  (* 494 *) accepts Statement "delete foo[bar]";
  (* 495 *) accepts Statement "accept";
  (* 496 *) accepts Statement "send foo";
  (* 497 *) accepts Statement "event foo";
  (* 498 *) accepts Statement "throw";
  (* 499 *) accepts Statement "match foo with | False => True | _ => False end";
  (* 503 *) accepts Statement "match foo with | _ => value end";
  (* 504 *) accepts Statement "Foo bar baz";
  (* 505 *) accepts Statement "forall foo Event";
  (* 523 *) accepts BlockchainFetchArguments "(foo bar)";
  (* 524 *) accepts BlockchainFetchArguments "(x)";
  (* 525 *) accepts BlockchainFetchArguments "(y z a)";
  (* 537 *) accepts StatementBlock "x <- y; z := a";
  (* 538 *) accepts StatementBlock "accept";
  (* 539 *) accepts StatementBlock "send x";
  (* 540 *) accepts StatementBlock "event myEvent";
  (* 541 *) accepts StatementBlock "match x with | _ => accept end";
  (* 545 *) accepts StatementBlock "match x with | _ => y <- z end";
  (* 549 *) accepts StatementBlock "MyComponent y";
  (* 550 *) accepts StatementBlock "MyComponent y; forall foo Event ; match x with | _ => y <- z end";
  (* 566 *) accepts ParameterPair "foo: Uint32";
  (* 567 *) accepts ParameterPair "bar: Bool";
  (* 568 *) accepts ParameterPair "baz: Address";
  (* 569 *) accepts ParameterPair "qux: Map Uint32 Bool";
  (* 581 *) accepts ComponentDefinition "transition myTransition(param1: Uint32, param2: Uint32) end";
  (* 585 *) accepts ComponentDefinition "procedure myProcedure(param: Uint32) end";
  (* 589 *) accepts ComponentDefinition "procedure myProcedure(param: Map ByStr32 ByStr32) param end";
  (* 593 *) accepts ComponentDefinition "transition myTransition(param: Bool) match param with | False => True | _ => False end end";
  (* 619 *) accepts ProcedureDefinition "procedure foo() end";
  (* 620 *) accepts ProcedureDefinition "procedure bar(x: Int32, y: Uint32) baz x y end";
  (* 640 *) accepts TransitionDefinition "transition foo()  bar end";
  (* 644 *) accepts TransitionDefinition "transition bar(x: Int32, y: Uint32) foo end";
  (* 648 *) accepts TransitionDefinition "transition qux(bar: Bool) bar end";
  (* 652 *) accepts TransitionDefinition "transition empty() end";
  (* 687 *) accepts ComponentId "MyType";
  (* 688 *) accepts ComponentId "Event42";
  (* 689 *) accepts ComponentId "Foo_Bar";
  (* 690 *) accepts ComponentId "ByStr42";
  (* 691 *) accepts ComponentId "regular_id";
  (* 701 *) accepts ComponentParameters "()";
  (* 702 *) accepts ComponentParameters "(a: Int32)";
  (* 703 *) accepts ComponentParameters "(a: Int32, b: Bool)";
  (* 704 *) accepts ComponentParameters "(a: Int32, b: Bool, c: String)";
  (* 708 *) accepts ComponentParameters "(a: ByStr20, b: Map ByStr20 (Uint256))";
  (* 722 *) accepts ComponentBody "
        RequireNotPaused;
        RequireContractOwner;
  
        is_paused := true;
        e = {
          _eventname: ""Pause"";
          is_paused: true
        };
        event e
      end
      ";
  (* 738 *) accepts ComponentBody "
        RequirePaused;
        RequireContractOwner;
  
        is_paused := false;
        e = {
          _eventname: ""Unpause"";
          is_paused: false
        };
        event e
      end
      ";
  (* 754 *) accepts ComponentBody "
          current_init <-& init.dApp;
          xPointsDApp = ""xpoints""; get_addr <-& current_init.dns[xPointsDApp]; addr = option_bystr20_value get_addr;
          is_xPoints = builtin eq _sender addr; match is_xPoints with
          | True => | False => e = { _exception : ""donate.tyron-WrongCaller"" }; throw e end;
          get_xPoints <- xpoints[_origin]; x_points = option_uint128_value get_xPoints; IsSufficient x_points amount;
          new_bal = builtin sub x_points amount; xpoints[_origin] := new_bal end
      ";
  (* 766 *) accepts ContractField "field foo: Int32 = Int32 42";
  (* 767 *) accepts ContractField "field bar: Map ByStr32 (List Uint32) = Emp ByStr32 (List Uint32)";
  (* 771 *) accepts ContractField "field baz: Event = Event";
  (* 781 *) accepts WithConstraint "with builtin blt end_of_life =>";
  (* 785 *) accepts WithConstraint "with builtin add {UInt32} one  =>";
  (* 789 *) accepts WithConstraint "with true =>";
  (* 790 *) accepts WithConstraint "with variableIdentifier =>";
  (* 803 *) accepts ContractDefinition "contract MyContract()";
  (* 804 *) accepts ContractDefinition "contract MyContract(address: ByStr20)";
  (* 808 *) accepts ContractDefinition "contract MyContract(address: ByStr20) with true =>";
  (* 812 *) accepts ContractDefinition "contract MyContract(address: ByStr20) with true => field field1: Uint32 = Uint32 1";
  (* 816 *) accepts ContractDefinition "contract MyContract(address: ByStr20) with true => field field1: Uint32 = Uint32 1 transition a() end";
  (* 817 *) accepts ContractDefinition "contract MyContract(address: ByStr20) with true => field field1: Uint32 = Uint32 1 procedure a() end";
  (* 818 *) accepts ContractDefinition "contract MyContract(address: ByStr20) with true => field field1: Uint32 = Uint32 1 procedure RequireNotSelf(address: ByStr20)
      is_self = builtin eq address _sender;
      match is_self with
      | False =>
      | True =>
          error = SelfError;
          Throw error
      end
      end";
  (* 857 *) accepts TypeAlternativeClause "| MyType";
  (* 858 *) accepts TypeAlternativeClause "| MyType of Int";
  (* 859 *) accepts TypeAlternativeClause "| ByStr123 of Map MyType Int";
  (* 871 *) accepts LibrarySingleDefinition "let foo = Int32 42";
  (* 872 *) accepts LibrarySingleDefinition "let foo: Int32 = Int32 42";
  (* 876 *) accepts LibrarySingleDefinition "type Foo";
  (* 877 *) accepts LibrarySingleDefinition "type Foo = | Bar | Baz";
  (* 893 *) accepts LibraryDefinition "library Foo";
  (* 894 *) accepts LibraryDefinition "library Bar let x = Int32 10";
  (* 898 *) accepts LibraryDefinition "library Baz type Quux";
  (* 899 *) accepts LibraryDefinition "library Qux type Quux = | Event";
  (* 903 *) accepts LibraryDefinition "library Quux type Quux = | Event of Uint256";
  (* 907 *) accepts LibraryDefinition "library Quuz type Quux = | Event of Uint256 | AnotherEvent of ByStr20";
  (* 911 *) accepts LibraryDefinition "library Qoorx let x: Int32 = Int32 42"
] = true.
Proof. vm_compute. reflexivity. Qed.

Example parser_tests_err : forallb (fun b => b) [
  (* 36 *) rejects ByteString "ByStr 3";
  (* 37 *) rejects ByteString "ByStr 11";
  (* 38 *) rejects ByteString "ByStr 0";
  (* 39 *) rejects ByteString "ByStr";
  (* 48 *) rejects TypeNameIdentifier "bystr";
  (* 49 *) rejects TypeNameIdentifier "_foo";
  (* 50 *) rejects TypeNameIdentifier "ByStr 0";
  (* 51 *) rejects TypeNameIdentifier "Type With Spaces";
  (* 63 *) rejects ImportedName "foo";
  (* 64 *) rejects ImportedName "Type With Spaces";
  (* 65 *) rejects ImportedName "Foo As Alias";
  (* 66 *) rejects ImportedName "Event as";
  (* 78 *) rejects ImportDeclarations "foo";
  (* 79 *) rejects ImportDeclarations "import";
  (* 80 *) rejects ImportDeclarations "import Foo import";
  (* 91 *) rejects MetaIdentifier "_foo";
  (* 92 *) rejects MetaIdentifier "Type With Spaces";
  (* 93 *) rejects MetaIdentifier "Foo .. Bar";
  (* 94 *) rejects MetaIdentifier "0x1234 - Bar";
  (* 95 *) rejects MetaIdentifier "Foo.";
  (* 96 *) rejects MetaIdentifier "0x1234.42";
  (* 107 *) rejects VariableIdentifier "42";
  (* 108 *) rejects VariableIdentifier "_";
  (* 109 *) rejects VariableIdentifier "Type With Spaces.baz";
  (* 111 *) rejects VariableIdentifier "Event42.Bar";
  (* 112 *) rejects VariableIdentifier "Foo.";
  (* 122 *) rejects BuiltinArguments "42";
  (* 123 *) rejects BuiltinArguments "_";
  (* 124 *) rejects BuiltinArguments "Type With Spaces.baz";
  (* 125 *) rejects BuiltinArguments "Event42.Bar";
  (* 126 *) rejects BuiltinArguments "Foo.";
  (* 143 *) rejects ScillaType "Map";
  (* 144 *) rejects ScillaType "Uint32 ->";
  (* 145 *) rejects ScillaType "-> Bool";
  (* 146 *) rejects ScillaType "address with";
  (* 147 *) rejects ScillaType "address with Foo end";
  (* 148 *) rejects ScillaType "forall T. Map(T, Uint32)";
  (* 149 *) rejects ScillaType "Foo(Bar";
  (* 182 *) rejects AddressType "foo with end";
  (* 183 *) rejects AddressType "Foo with ";
  (* 184 *) rejects AddressType "Foo with foo bar: Uint32 end";
  (* 185 *) rejects AddressType "Foo with contract field1: Uint32, field2: Uint32";
  (* 189 *) rejects AddressType "Foo with contract, end";
  (* 201 *) rejects TypeMapKey "foo";
  (* 202 *) rejects TypeMapKey "Foo()";
  (* 203 *) rejects TypeMapKey "(Foo with bar end)";
  (* 204 *) rejects TypeMapKey "(42)";
  (* 218 *) rejects TypeMapValue "foo";
  (* 219 *) rejects TypeMapValue "bystr1";
  (* 220 *) rejects TypeMapValue "event";
  (* 221 *) rejects TypeMapValue "map(foo, bar)";
  (* 222 *) rejects TypeMapValue "(42)";
  (* 223 *) rejects TypeMapValue "address with";
  (* 224 *) rejects TypeMapValue "foo with foo bar";
  (* 233 *) rejects TypeMapValueArguments "Foo Bar";
  (* 234 *) rejects TypeMapValueArguments "map(foo, bar)";
  (* 235 *) rejects TypeMapValueArguments "(42)()";
  (* 236 *) rejects TypeMapValueArguments "(Uint32";
  (* 237 *) rejects TypeMapValueArguments "Map(Foo)";
  (* 238 *) rejects TypeMapValueArguments "Map(Foo, Bar)";
  (* 254 *) rejects TypeArgument "foo bar";
  (* 255 *) rejects TypeArgument "123";
  (* 256 *) rejects TypeArgument "foo.bar";
  (* 257 *) rejects TypeArgument "mapUint32Uint32";
  (* 258 *) rejects TypeArgument "'_A";
  (* 259 *) rejects TypeArgument "(map(Int32, String))";
  (* 260 *) rejects TypeArgument "Foo.bar";
  (* 261 *) rejects TypeArgument "Map(Int32, String, Bool)";
  (* 295 *) rejects FullExpression "let 42 = x in x";
  (* 296 *) rejects FullExpression "let x: = 42 in x";
  (* 297 *) rejects FullExpression "fun x => x + 1";
  (* 298 *) rejects FullExpression "42foo";
  (* 299 *) rejects FullExpression "42.foo";
  (* 300 *) rejects FullExpression "42.23";
  (* 301 *) rejects FullExpression "builtin noop";
  (* 302 *) rejects FullExpression "{ foo = 42; bar: 23 }";
  (* 303 *) rejects FullExpression "{ foo: 42, bar = 23 }";
  (* 304 *) rejects FullExpression "{ foo = 42, }";
  (* 305 *) rejects FullExpression "match foo with | 42 => true end";
  (* 309 *) rejects FullExpression "Foo()";
  (* 310 *) rejects FullExpression "tfun T => Foo";
  (* 311 *) rejects FullExpression "@foo()";
  (* 321 *) rejects AtomicExpression "(foo)";
  (* 322 *) rejects AtomicExpression "42.0";
  (* 323 *) rejects AtomicExpression "True";
  (* 333 *) rejects AtomicExpression "(foo)";
  (* 334 *) rejects AtomicExpression "42.0";
  (* 335 *) rejects AtomicExpression "True";
  (* 344 *) rejects MapAccess "[0x0232]";
  (* 345 *) rejects MapAccess "[""xx""]";
  (* 346 *) rejects MapAccess "[Foo]";
  (* 347 *) rejects MapAccess "[]";
  (* 348 *) rejects MapAccess "[foo.bar]";
  (* 364 *) rejects Pattern "_ _";
  (* 365 *) rejects Pattern "42Bar";
  (* 366 *) rejects Pattern "foo bar";
  (* 367 *) rejects Pattern "Foo42(, Bar)";
  (* 368 *) rejects Pattern "Foo42(Map, Bar)";
  (* 369 *) rejects Pattern "Bar42(Map ByStr42 Int32)";
  (* 381 *) rejects ArgumentPattern "2bar";
  (* 382 *) rejects ArgumentPattern "MyType()";
  (* 383 *) rejects ArgumentPattern "(2bar)";
  (* 413 *) rejects PatternMatchExpressionClause "| Foo =>";
  (* 414 *) rejects PatternMatchExpressionClause "| => 42";
  (* 415 *) rejects PatternMatchExpressionClause "| _ => ";
  (* 416 *) rejects PatternMatchExpressionClause "| () => 42";
  (* 417 *) rejects PatternMatchExpressionClause "| Foo + Bar => 42";
  (* 429 *) rejects MessageEntry "foo";
  (* 430 *) rejects MessageEntry "foo: bar: baz";
  (* 431 *) rejects MessageEntry ": 42";
  (* 457 *) rejects TypeAnnotation ": MyTypeOrEnumLikeIdentifier (";
  (* 461 *) rejects TypeAnnotation ": (Map MyTypeOrEnumLikeIdentifier)";
  (* 465 *) rejects TypeAnnotation ": (Pair MyTypeOrEnumLikeIdentifier1 MyTypeOrEnumLikeIdentifier2";
  (* 469 *) rejects TypeAnnotation "Int";
  (* 470 *) rejects TypeAnnotation ": 42";
  (* 479 *) rejects TypedIdentifier "1foo: Int";
  (* 480 *) rejects TypedIdentifier "foo: int";
  (* 481 *) rejects TypedIdentifier "foo: (,)";
  (* 507 *) rejects Statement "foo < bar";
  (* 508 *) rejects Statement "42 = foo";
  (* 509 *) rejects Statement "&Event";
  (* 510 *) rejects Statement "foo[] <- bar";
  (* 511 *) rejects Statement "foo <- exists";
  (* 512 *) rejects Statement "foo[] := bar";
  (* 513 *) rejects Statement "foo := qux[bar][baz]";
  (* 514 *) rejects Statement "foo.delete[bar]";
  (* 515 *) rejects Statement "send";
  (* 516 *) rejects Statement "event";
  (* 517 *) rejects Statement "match with _ => 42 end";
  (* 518 *) rejects Statement "forall";
  (* 527 *) rejects BlockchainFetchArguments "()";
  (* 528 *) rejects BlockchainFetchArguments "(123)";
  (* 529 *) rejects BlockchainFetchArguments "(foo, 123)";
  (* 530 *) rejects BlockchainFetchArguments "foo, bar";
  (* 531 *) rejects BlockchainFetchArguments "(foo; bar)";
  (* 532 *) rejects BlockchainFetchArguments "foo";
  (* 555 *) rejects StatementBlock "x < y";
  (* 556 *) rejects StatementBlock "x <-";
  (* 557 *) rejects StatementBlock "accept event";
  (* 558 *) rejects StatementBlock "send";
  (* 559 *) rejects StatementBlock "match x with _ => accept end";
  (* 560 *) rejects StatementBlock "MyComponent X";
  (* 561 *) rejects StatementBlock "MyComponent y forall x";
  (* 571 *) rejects ParameterPair "foo Uint32";
  (* 572 *) rejects ParameterPair "foo";
  (* 573 *) rejects ParameterPair "123: Uint32";
  (* 574 *) rejects ParameterPair "foo: bar: Uint32";
  (* 575 *) rejects ParameterPair "foo: uint32";
  (* 576 *) rejects ParameterPair "foo: mapUint32, Bool";
  (* 598 *) rejects ComponentDefinition "transition myTransition";
  (* 599 *) rejects ComponentDefinition "procedure myProcedure() returns Uint32";
  (* 603 *) rejects ComponentDefinition "procedure myProcedure(param: Uint32) returns Uint32 {";
  (* 607 *) rejects ComponentDefinition "transition myTransition() { state_1 -> state_2 }";
  (* 611 *) rejects ComponentDefinition "transition myTransition(param1: Uint32 param2: Uint32)";
  (* 625 *) rejects ProcedureDefinition "procedure 42() { }";
  (* 626 *) rejects ProcedureDefinition "procedure foo(x, y) { }";
  (* 627 *) rejects ProcedureDefinition "procedure foo(x: Int32, y: Uint32)";
  (* 631 *) rejects ProcedureDefinition "procedure foo(x: Int32, y: Uint32) foo x y";
  (* 635 *) rejects ProcedureDefinition "procedure foo() {}";
  (* 654 *) rejects TransitionDefinition "transition 123() { foo() }";
  (* 658 *) rejects TransitionDefinition "transition foo(bar) { foo() }";
  (* 662 *) rejects TransitionDefinition "transition foo() { foo(); bar() }";
  (* 666 *) rejects TransitionDefinition "transaction foo() { bar() }";
  (* 670 *) rejects TransitionDefinition "transition foo() { bar }";
  (* 674 *) rejects TransitionDefinition "transition foo() { bar( }";
  (* 678 *) rejects TransitionDefinition "transition foo() { bar() };";
  (* 682 *) rejects TransitionDefinition "transition foo() { ; }";
  (* 693 *) rejects ComponentId "42Event";
  (* 694 *) rejects ComponentId "my type";
  (* 695 *) rejects ComponentId "event+";
  (* 696 *) rejects ComponentId "ByStr";
  (* 713 *) rejects ComponentParameters "a: Int32, b: Bool";
  (* 714 *) rejects ComponentParameters "(a: Int32";
  (* 715 *) rejects ComponentParameters "(a: Int32,, b: Bool)";
  (* 716 *) rejects ComponentParameters "(())";
  (* 717 *) rejects ComponentParameters "(a: )";
  (* 773 *) rejects ContractField "field: Foo = Bar";
  (* 774 *) rejects ContractField "field bar = 42";
  (* 775 *) rejects ContractField "field baz: Event = 42";
  (* 776 *) rejects ContractField "field qux = 'hello world'";
  (* 792 *) rejects WithConstraint "foo";
  (* 793 *) rejects WithConstraint "with variableIdentifier => foo";
  (* 797 *) rejects WithConstraint "with =>";
  (* 798 *) rejects WithConstraint "with";
  (* 831 *) rejects ContractDefinition "contract MyContract";
  (* 832 *) rejects ContractDefinition "contract MyContract end";
  (* 833 *) rejects ContractDefinition "Contract MyContract";
  (* 834 *) rejects ContractDefinition "contract";
  (* 835 *) rejects ContractDefinition "contract MyContract(address: ByStr20,) with (true =>)";
  (* 839 *) rejects ContractDefinition "contract MyContract(address: ByStr20) with true => field field1 = 1";
  (* 843 *) rejects ContractDefinition "contract MyContract(address: ByStr20) with true => field field1: = 1";
  (* 847 *) rejects ContractDefinition "contract MyContract(address: ByStr20) with true => field field1: Uint32 = 1 field2: 10";
  (* 851 *) rejects ContractDefinition "contract MyContract(address: ByStr20) with true => field field1: Uint32 = 1 transition a(Void) {}";
  (* 852 *) rejects ContractDefinition "contract MyContract(address: ByStr20) with true => field field1: Uint32 = 1 procedure a(Void) {";
  (* 864 *) rejects TypeAlternativeClause "| MyType of";
  (* 865 *) rejects TypeAlternativeClause "| 123MyType";
  (* 866 *) rejects TypeAlternativeClause "| ByStr";
  (* 882 *) rejects LibrarySingleDefinition "let = Int32 42";
  (* 883 *) rejects LibrarySingleDefinition "let foo: = 42";
  (* 884 *) rejects LibrarySingleDefinition "type Int32 42";
  (* 885 *) rejects LibrarySingleDefinition "type Foo = | Bar Baz";
  (* 916 *) rejects LibraryDefinition "library Foo Bar";
  (* 917 *) rejects LibraryDefinition "library";
  (* 918 *) rejects LibraryDefinition "library Foo bar";
  (* 919 *) rejects LibraryDefinition "library Foo type";
  (* 920 *) rejects LibraryDefinition "library Foo type = | Event";
  (* 924 *) rejects LibraryDefinition "library Foo type Quux =";
  (* 925 *) rejects LibraryDefinition "library Foo type Quux = |";
  (* 926 *) rejects LibraryDefinition "library Foo type Quux = | Event of";
  (* 930 *) rejects LibraryDefinition "library Foo let";
  (* 931 *) rejects LibraryDefinition "library Foo let x";
  (* 932 *) rejects LibraryDefinition "library Foo let = 42"
] = true.
Proof. vm_compute. reflexivity. Qed.

