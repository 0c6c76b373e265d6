(** Model of the [{:?}] texts that end up in error messages: the derived
    [Debug] of [Token] (src/parser/lexer.rs:37), [SourcePosition] (212),
    [Type]/[Field]/[FieldList] (src/type.rs:6, src/field.rs:3, 33),
    [SrIdentifier]/[AddressType]/[SrType] (primitives.rs), [StackObject]
    (emitter.rs:10) and of lalrpop's [ParseError]; and the [Display] of
    [Error] (src/error.rs:7-20) and [ParserError] (src/parser/mod.rs:6-27). *)
From Coq Require Import Decimal DecimalN Hexadecimal HexadecimalN.
From Verif Require Import Chars Lexer Types Emitter.

(** Lower case hexadecimal, as in [\u{..}] escapes. *)
Fixpoint hex_chars (u : Hexadecimal.uint) : str :=
  match u with
  | Hexadecimal.Nil => []
  | Hexadecimal.D0 r => 48 :: hex_chars r | Hexadecimal.D1 r => 49 :: hex_chars r
  | Hexadecimal.D2 r => 50 :: hex_chars r | Hexadecimal.D3 r => 51 :: hex_chars r
  | Hexadecimal.D4 r => 52 :: hex_chars r | Hexadecimal.D5 r => 53 :: hex_chars r
  | Hexadecimal.D6 r => 54 :: hex_chars r | Hexadecimal.D7 r => 55 :: hex_chars r
  | Hexadecimal.D8 r => 56 :: hex_chars r | Hexadecimal.D9 r => 57 :: hex_chars r
  | Hexadecimal.Da r => 97 :: hex_chars r | Hexadecimal.Db r => 98 :: hex_chars r
  | Hexadecimal.Dc r => 99 :: hex_chars r | Hexadecimal.Dd r => 100 :: hex_chars r
  | Hexadecimal.De r => 101 :: hex_chars r | Hexadecimal.Df r => 102 :: hex_chars r
  end.
Definition hex (n : N) : str := hex_chars (N.to_hex_uint n).

Section Debug.
  (** [core::unicode]: which characters above ASCII [{:?}] prints as they are
      (printable and not grapheme extending); an oracle, as in [unicode]. *)
  Context (printable : char -> bool).

  (** [char::escape_debug_ext] with double quotes escaped and single quotes not
      (core::fmt, [impl Debug for str]). *)
  Definition escape_char (c : char) : str :=
    if c =? 0 then [92; 48]
    else if c =? 9 then [92; 116]
    else if c =? 13 then [92; 114]
    else if c =? 10 then [92; 110]
    else if c =? 34 then [92; 34]
    else if c =? 92 then [92; 92]
    else if (if c <? 128 then in_range 32 126 c else printable c) then [c]
    else [92; 117; 123] ++ hex c ++ [125].

  (** [impl Debug for str] *)
  Definition debug_str (s : str) : str := [34] ++ flat_map escape_char s ++ [34].

  (** [impl Debug for [T]] (also [Vec<T>]) *)
  Definition debug_list {A} (f : A -> str) (l : list A) : str :=
    lit "[" ++ join (lit ", ") (map f l) ++ lit "]".

  (** src/parser/lexer.rs:212-217 *)
  Definition debug_position (p : source_position) : str :=
    lit "SourcePosition { position: " ++ dec (position p) ++ lit ", line: " ++ dec (line p)
    ++ lit ", column: " ++ dec (column p) ++ lit " }".

  (** src/parser/lexer.rs:37-104: the name of the variant ... *)
  Definition token_name (t : token) : str :=
    match t with
    | TPlus => lit "Plus" | TAsterisk => lit "Asterisk" | TSemicolon => lit "Semicolon"
    | TColon => lit "Colon" | TDot => lit "Dot" | TPipe => lit "Pipe"
    | TOpenBracket => lit "OpenBracket" | TCloseBracket => lit "CloseBracket"
    | TOpenParen => lit "OpenParen" | TCloseParen => lit "CloseParen"
    | TOpenBrace => lit "OpenBrace" | TCloseBrace => lit "CloseBrace"
    | TComma => lit "Comma" | TDoubleArrow => lit "DoubleArrow" | TArrow => lit "Arrow"
    | TEquals => lit "Equals" | TAmpersand => lit "Ampersand" | TLeftArrow => lit "LeftArrow"
    | TColonEquals => lit "ColonEquals" | TAt => lit "At" | TMinus => lit "Minus"
    | TUnderscore => lit "Underscore" | TForall => lit "Forall" | TBuiltin => lit "Builtin"
    | TLibrary => lit "Library" | TImport => lit "Import" | TLet => lit "Let" | TIn => lit "In"
    | TMatch => lit "Match" | TWith => lit "With" | TEnd => lit "End" | TFun => lit "Fun"
    | TTfun => lit "Tfun" | TContract => lit "Contract" | TTransition => lit "Transition"
    | TSend => lit "Send" | TField => lit "Field" | TAccept => lit "Accept"
    | TExists => lit "Exists" | TDelete => lit "Delete" | TThrow => lit "Throw"
    | TMap => lit "Map" | TScillaVersion => lit "ScillaVersion" | TType => lit "Type"
    | TOf => lit "Of" | TAs => lit "As" | TProcedure => lit "Procedure" | TEmp => lit "Emp"
    | TEvent => lit "Event" | TEventType => lit "EventType" | TByStr => lit "ByStr"
    | TByStrWithSize _ => lit "ByStrWithSize" | TComment _ => lit "Comment"
    | TNumber _ => lit "Number" | THexNumber _ => lit "HexNumber"
    | TIdentifier _ => lit "Identifier" | TTemplateIdentifier _ => lit "TemplateIdentifier"
    | TCustomIdentifier _ => lit "CustomIdentifier"
    | TSpecialIdentifier _ => lit "SpecialIdentifier" | TTypeName _ => lit "TypeName"
    | TStringLiteral _ => lit "StringLiteral"
    | TWhitespace => lit "Whitespace" | TUnknown => lit "Unknown"
    end.
  (** ... and its text, if it carries one. *)
  Definition token_payload (t : token) : option str :=
    match t with
    | TByStrWithSize s | TComment s | TNumber s | THexNumber s | TIdentifier s
    | TTemplateIdentifier s | TCustomIdentifier s | TSpecialIdentifier s
    | TTypeName s | TStringLiteral s => Some s
    | _ => None
    end.
  Definition debug_token (t : token) : str :=
    token_name t ++ match token_payload t with
                    | Some s => lit "(" ++ debug_str s ++ lit ")"
                    | None => []
                    end.

  (** The item [(L, T, L)] of an error (a tuple). *)
  Definition debug_item (i : item) : str :=
    lit "(" ++ debug_position (item_start i) ++ lit ", " ++ debug_token (item_token i)
    ++ lit ", " ++ debug_position (item_end i) ++ lit ")".

  (** src/type.rs:6-39, src/field.rs:3-7, 33-34 ([r#type] prints as [type]) *)
  Fixpoint debug_ty (t : ty) : str :=
    match t with
    | Int32 => lit "Int32" | Int64 => lit "Int64" | Int128 => lit "Int128"
    | Int256 => lit "Int256" | Uint32 => lit "Uint32" | Uint64 => lit "Uint64"
    | Uint128 => lit "Uint128" | Uint256 => lit "Uint256" | TyString => lit "String"
    | BNum => lit "BNum" | ByStr => lit "ByStr" | ByStr20 => lit "ByStr20" | TyBool => lit "Bool"
    | TyMap k v => lit "Map(" ++ debug_ty k ++ lit ", " ++ debug_ty v ++ lit ")"
    | ByStrX n => lit "ByStrX(" ++ dec n ++ lit ")"
    | ByStr20With tn fs =>
        lit "ByStr20With { type_name: " ++ debug_str tn ++ lit ", fields: FieldList("
        ++ debug_list (fun f => let '(mkField n ft) := f in
                         lit "Field { name: " ++ debug_str n ++ lit ", type: " ++ debug_ty ft ++ lit " }") fs
        ++ lit ") }"
    | TyOption a => lit "Option(" ++ debug_ty a ++ lit ")"
    | TyPair a b => lit "Pair(" ++ debug_ty a ++ lit ", " ++ debug_ty b ++ lit ")"
    | TyList a => lit "List(" ++ debug_ty a ++ lit ")"
    | Other s => lit "Other(" ++ debug_str s ++ lit ")"
    end.
  Definition debug_field (f : field) : str :=
    let '(mkField n ft) := f in
    lit "Field { name: " ++ debug_str n ++ lit ", type: " ++ debug_ty ft ++ lit " }".
  Definition debug_field_list (fs : list field) : str :=
    lit "FieldList(" ++ debug_list debug_field fs ++ lit ")".

  (** src/transition.rs:3-7, 26-27; src/contract.rs:9-21: what a user sees when
      printing the result of a parse with [{:?}]. *)
  Definition debug_transition (t : transition) : str :=
    lit "Transition { name: " ++ debug_str (t_name t) ++ lit ", params: "
    ++ debug_field_list (t_params t) ++ lit " }".
  Definition debug_contract (c : contract) : str :=
    lit "Contract { name: " ++ debug_str (c_name c)
    ++ lit ", init_params: " ++ debug_field_list (c_init_params c)
    ++ lit ", fields: " ++ debug_field_list (c_fields c)
    ++ lit ", transitions: TransitionList(" ++ debug_list debug_transition (c_transitions c)
    ++ lit ") }".

  (** primitives.rs:4-30 *)
  Definition debug_kind (k : id_kind) : str :=
    match k with
    | KUnknown => lit "Unknown"
    | KComponentName => lit "ComponentName"
    | KTransitionName => lit "TransitionName"
    end.
  (** primitives.rs:32-40; [resolved], [type_reference] and [is_definition]
      have these values in every identifier on the emitter's stack
      (primitives.rs:71-80, emitter.rs:449-476). *)
  Definition debug_identifier (i : sr_identifier) : str :=
    lit "SrIdentifier { unresolved: " ++ debug_str (unresolved i)
    ++ lit ", resolved: None, type_reference: None, kind: " ++ debug_kind (kind i)
    ++ lit ", is_definition: false }".
  (** primitives.rs:42-53 *)
  Fixpoint debug_sr_type (t : sr_type) : str :=
    let '(mkSr m subs a) := t in
    lit "SrType { main_type: " ++ debug_str m ++ lit ", sub_types: " ++ debug_list debug_sr_type subs
    ++ lit ", address_type: "
    ++ match a with
       | None => lit "None"
       | Some ad => lit "Some(AddressType { type_name: " ++ debug_str (a_type_name ad)
                    ++ lit ", fields: " ++ debug_field_list (a_fields ad) ++ lit " })"
       end ++ lit " }".
  (** emitter.rs:10-15 *)
  Definition debug_object (o : stack_object) : str :=
    match o with
    | IrIdentifier i => lit "IrIdentifier(" ++ debug_identifier i ++ lit ")"
    | VariableDeclaration f => lit "VariableDeclaration(" ++ debug_field f ++ lit ")"
    | SoTypeDefinition t => lit "TypeDefinition(" ++ debug_sr_type t ++ lit ")"
    end.
End Debug.

Definition all_printable : char -> bool := fun _ => true.
Example debug_example :
  debug_item all_printable (mkpos 3 0 2, TStringLiteral (lit """a\"""), mkpos 7 0 6)
  = lit "(SourcePosition { position: 3, line: 0, column: 2 }, StringLiteral(""\""a\\\""""), SourcePosition { position: 7, line: 0, column: 6 })".
Proof. vm_compute. reflexivity. Qed.
Example debug_control : debug_str all_printable [0; 1; 31; 127] = lit """\0\u{1}\u{1f}\u{7f}""".
Proof. vm_compute. reflexivity. Qed.
