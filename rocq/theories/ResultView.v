(** How the derived implementations see tokens, types and contracts.  Generated
    from /repo/src/parser/lexer.rs as far as tokens are concerned. *)
From Verif Require Import Chars Lexer Types Derive View.

(** src/parser/lexer.rs:36-104 *)
Definition view_token (t : token) : view :=
  match t with
  | TPlus => VCon 0 (lit "Plus") [] []
  | TAsterisk => VCon 1 (lit "Asterisk") [] []
  | TSemicolon => VCon 2 (lit "Semicolon") [] []
  | TColon => VCon 3 (lit "Colon") [] []
  | TDot => VCon 4 (lit "Dot") [] []
  | TPipe => VCon 5 (lit "Pipe") [] []
  | TOpenBracket => VCon 6 (lit "OpenBracket") [] []
  | TCloseBracket => VCon 7 (lit "CloseBracket") [] []
  | TOpenParen => VCon 8 (lit "OpenParen") [] []
  | TCloseParen => VCon 9 (lit "CloseParen") [] []
  | TOpenBrace => VCon 10 (lit "OpenBrace") [] []
  | TCloseBrace => VCon 11 (lit "CloseBrace") [] []
  | TComma => VCon 12 (lit "Comma") [] []
  | TDoubleArrow => VCon 13 (lit "DoubleArrow") [] []
  | TArrow => VCon 14 (lit "Arrow") [] []
  | TEquals => VCon 15 (lit "Equals") [] []
  | TAmpersand => VCon 16 (lit "Ampersand") [] []
  | TLeftArrow => VCon 17 (lit "LeftArrow") [] []
  | TColonEquals => VCon 18 (lit "ColonEquals") [] []
  | TAt => VCon 19 (lit "At") [] []
  | TMinus => VCon 20 (lit "Minus") [] []
  | TUnderscore => VCon 21 (lit "Underscore") [] []
  | TForall => VCon 22 (lit "Forall") [] []
  | TBuiltin => VCon 23 (lit "Builtin") [] []
  | TLibrary => VCon 24 (lit "Library") [] []
  | TImport => VCon 25 (lit "Import") [] []
  | TLet => VCon 26 (lit "Let") [] []
  | TIn => VCon 27 (lit "In") [] []
  | TMatch => VCon 28 (lit "Match") [] []
  | TWith => VCon 29 (lit "With") [] []
  | TEnd => VCon 30 (lit "End") [] []
  | TFun => VCon 31 (lit "Fun") [] []
  | TTfun => VCon 32 (lit "Tfun") [] []
  | TContract => VCon 33 (lit "Contract") [] []
  | TTransition => VCon 34 (lit "Transition") [] []
  | TSend => VCon 35 (lit "Send") [] []
  | TField => VCon 36 (lit "Field") [] []
  | TAccept => VCon 37 (lit "Accept") [] []
  | TExists => VCon 38 (lit "Exists") [] []
  | TDelete => VCon 39 (lit "Delete") [] []
  | TThrow => VCon 40 (lit "Throw") [] []
  | TMap => VCon 41 (lit "Map") [] []
  | TScillaVersion => VCon 42 (lit "ScillaVersion") [] []
  | TType => VCon 43 (lit "Type") [] []
  | TOf => VCon 44 (lit "Of") [] []
  | TAs => VCon 45 (lit "As") [] []
  | TProcedure => VCon 46 (lit "Procedure") [] []
  | TEmp => VCon 47 (lit "Emp") [] []
  | TEvent => VCon 48 (lit "Event") [] []
  | TEventType => VCon 49 (lit "EventType") [] []
  | TByStr => VCon 50 (lit "ByStr") [] []
  | TByStrWithSize s => VCon 51 (lit "ByStrWithSize") [] [VText s]
  | TComment s => VCon 52 (lit "Comment") [] [VText s]
  | TNumber s => VCon 53 (lit "Number") [] [VText s]
  | THexNumber s => VCon 54 (lit "HexNumber") [] [VText s]
  | TIdentifier s => VCon 55 (lit "Identifier") [] [VText s]
  | TTemplateIdentifier s => VCon 56 (lit "TemplateIdentifier") [] [VText s]
  | TCustomIdentifier s => VCon 57 (lit "CustomIdentifier") [] [VText s]
  | TSpecialIdentifier s => VCon 58 (lit "SpecialIdentifier") [] [VText s]
  | TTypeName s => VCon 59 (lit "TypeName") [] [VText s]
  | TStringLiteral s => VCon 60 (lit "StringLiteral") [] [VText s]
  | TWhitespace => VCon 61 (lit "Whitespace") [] []
  | TUnknown => VCon 62 (lit "Unknown") [] []
  end.

(** src/type.rs:6-39, src/field.rs:3-7, 33-34 *)
Fixpoint view_ty (t : ty) : view :=
  match t with
  | Int32 => VCon 0 (lit "Int32") [] []
  | Int64 => VCon 1 (lit "Int64") [] []
  | Int128 => VCon 2 (lit "Int128") [] []
  | Int256 => VCon 3 (lit "Int256") [] []
  | Uint32 => VCon 4 (lit "Uint32") [] []
  | Uint64 => VCon 5 (lit "Uint64") [] []
  | Uint128 => VCon 6 (lit "Uint128") [] []
  | Uint256 => VCon 7 (lit "Uint256") [] []
  | TyString => VCon 8 (lit "String") [] []
  | BNum => VCon 9 (lit "BNum") [] []
  | TyMap k v => VCon 10 (lit "Map") [] [view_ty k; view_ty v]
  | ByStr => VCon 11 (lit "ByStr") [] []
  | ByStrX n => VCon 12 (lit "ByStrX") [] [VNum n]
  | ByStr20 => VCon 13 (lit "ByStr20") [] []
  | ByStr20With n fs => VCon 14 (lit "ByStr20With") [lit "type_name"; lit "fields"] [VText n; VCon 0 (lit "FieldList") [] [view_list view_field fs]]
  | TyBool => VCon 15 (lit "Bool") [] []
  | TyOption a => VCon 16 (lit "Option") [] [view_ty a]
  | TyPair a b => VCon 17 (lit "Pair") [] [view_ty a; view_ty b]
  | TyList a => VCon 18 (lit "List") [] [view_ty a]
  | Other s => VCon 19 (lit "Other") [] [VText s]
  end
with view_field (f : field) : view :=
  match f with
  | mkField n t => VCon 0 (lit "Field") [lit "name"; lit "type"] [VText n; view_ty t]
  end.
Definition view_fields (fs : list field) : view := VCon 0 (lit "FieldList") [] [view_list view_field fs].
(** src/transition.rs:3-7, 25-26 *)
Definition view_transition (t : transition) : view :=
  VCon 0 (lit "Transition") [lit "name"; lit "params"] [VText (t_name t); view_fields (t_params t)].
(** src/contract.rs:9-21 *)
Definition view_contract (c : contract) : view :=
  VCon 0 (lit "Contract") [lit "name"; lit "init_params"; lit "fields"; lit "transitions"]
    [VText (c_name c); view_fields (c_init_params c); view_fields (c_fields c);
     VCon 0 (lit "TransitionList") [] [view_list view_transition (c_transitions c)]].
