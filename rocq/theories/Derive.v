(** Specification for C51: what [#[derive(Debug)]] prints, once for all types,
    and how the values of this crate are seen by it (variant and field names). *)
From Verif Require Import Chars Lexer Types Emitter.

(** A value as [derive(Debug)] sees it. *)
Inductive dval :=
| DUnit (name : str)                          (* a variant or struct without fields; also [None], [false] *)
| DTuple (name : str) (args : list dval)      (* [Name(a, b)] *)
| DStruct (name : str) (fields : list (str * dval)) (* [Name { f: a, g: b }] *)
| DStr (s : str)
| DNum (n : N)
| DList (l : list dval)                       (* [[a, b]] *)
| DTup (l : list dval).                       (* [(a, b)], at least two elements *)

Fixpoint commas (l : list str) : str :=
  match l with
  | [] => []
  | x :: r => x ++ match r with [] => [] | _ => lit ", " ++ commas r end
  end.

Section Render.
  (** How a text is quoted. *)
  Context (quote : str -> str).
  Fixpoint render (v : dval) : str :=
    match v with
    | DUnit n => n
    | DTuple n l => n ++ lit "(" ++ commas (map render l) ++ lit ")"
    | DStruct n l => n ++ lit " { " ++ commas (map (fun f => fst f ++ lit ": " ++ render (snd f)) l) ++ lit " }"
    | DStr s => quote s
    | DNum n => dec n
    | DList l => lit "[" ++ commas (map render l) ++ lit "]"
    | DTup l => lit "(" ++ commas (map render l) ++ lit ")"
    end.
End Render.

(** The values. *)
Definition see_position (p : source_position) : dval :=
  DStruct (lit "SourcePosition") [(lit "position", DNum (position p)); (lit "line", DNum (line p)); (lit "column", DNum (column p))].

Definition see_token (t : token) : dval :=
  match t with
  | TPlus => DUnit (lit "Plus") | TAsterisk => DUnit (lit "Asterisk")
  | TSemicolon => DUnit (lit "Semicolon") | TColon => DUnit (lit "Colon")
  | TDot => DUnit (lit "Dot") | TPipe => DUnit (lit "Pipe")
  | TOpenBracket => DUnit (lit "OpenBracket") | TCloseBracket => DUnit (lit "CloseBracket")
  | TOpenParen => DUnit (lit "OpenParen") | TCloseParen => DUnit (lit "CloseParen")
  | TOpenBrace => DUnit (lit "OpenBrace") | TCloseBrace => DUnit (lit "CloseBrace")
  | TComma => DUnit (lit "Comma") | TDoubleArrow => DUnit (lit "DoubleArrow")
  | TArrow => DUnit (lit "Arrow") | TEquals => DUnit (lit "Equals")
  | TAmpersand => DUnit (lit "Ampersand") | TLeftArrow => DUnit (lit "LeftArrow")
  | TColonEquals => DUnit (lit "ColonEquals") | TAt => DUnit (lit "At")
  | TMinus => DUnit (lit "Minus") | TUnderscore => DUnit (lit "Underscore")
  | TForall => DUnit (lit "Forall") | TBuiltin => DUnit (lit "Builtin")
  | TLibrary => DUnit (lit "Library") | TImport => DUnit (lit "Import")
  | TLet => DUnit (lit "Let") | TIn => DUnit (lit "In")
  | TMatch => DUnit (lit "Match") | TWith => DUnit (lit "With")
  | TEnd => DUnit (lit "End") | TFun => DUnit (lit "Fun")
  | TTfun => DUnit (lit "Tfun") | TContract => DUnit (lit "Contract")
  | TTransition => DUnit (lit "Transition") | TSend => DUnit (lit "Send")
  | TField => DUnit (lit "Field") | TAccept => DUnit (lit "Accept")
  | TExists => DUnit (lit "Exists") | TDelete => DUnit (lit "Delete")
  | TThrow => DUnit (lit "Throw") | TMap => DUnit (lit "Map")
  | TScillaVersion => DUnit (lit "ScillaVersion") | TType => DUnit (lit "Type")
  | TOf => DUnit (lit "Of") | TAs => DUnit (lit "As")
  | TProcedure => DUnit (lit "Procedure") | TEmp => DUnit (lit "Emp")
  | TEvent => DUnit (lit "Event") | TEventType => DUnit (lit "EventType")
  | TByStr => DUnit (lit "ByStr")
  | TByStrWithSize s => DTuple (lit "ByStrWithSize") [DStr s]
  | TComment s => DTuple (lit "Comment") [DStr s]
  | TNumber s => DTuple (lit "Number") [DStr s]
  | THexNumber s => DTuple (lit "HexNumber") [DStr s]
  | TIdentifier s => DTuple (lit "Identifier") [DStr s]
  | TTemplateIdentifier s => DTuple (lit "TemplateIdentifier") [DStr s]
  | TCustomIdentifier s => DTuple (lit "CustomIdentifier") [DStr s]
  | TSpecialIdentifier s => DTuple (lit "SpecialIdentifier") [DStr s]
  | TTypeName s => DTuple (lit "TypeName") [DStr s]
  | TStringLiteral s => DTuple (lit "StringLiteral") [DStr s]
  | TWhitespace => DUnit (lit "Whitespace") | TUnknown => DUnit (lit "Unknown")
  end.

Definition see_item (i : item) : dval :=
  DTup [see_position (item_start i); see_token (item_token i); see_position (item_end i)].

Fixpoint see_type (t : ty) : dval :=
  match t with
  | Int32 => DUnit (lit "Int32") | Int64 => DUnit (lit "Int64")
  | Int128 => DUnit (lit "Int128") | Int256 => DUnit (lit "Int256")
  | Uint32 => DUnit (lit "Uint32") | Uint64 => DUnit (lit "Uint64")
  | Uint128 => DUnit (lit "Uint128") | Uint256 => DUnit (lit "Uint256")
  | TyString => DUnit (lit "String") | BNum => DUnit (lit "BNum")
  | TyMap k v => DTuple (lit "Map") [see_type k; see_type v]
  | ByStr => DUnit (lit "ByStr")
  | ByStrX n => DTuple (lit "ByStrX") [DNum n]
  | ByStr20 => DUnit (lit "ByStr20")
  | ByStr20With n fs =>
      DStruct (lit "ByStr20With")
        [(lit "type_name", DStr n); (lit "fields", DTuple (lit "FieldList") [DList (map see_field fs)])]
  | TyBool => DUnit (lit "Bool")
  | TyOption a => DTuple (lit "Option") [see_type a]
  | TyPair a b => DTuple (lit "Pair") [see_type a; see_type b]
  | TyList a => DTuple (lit "List") [see_type a]
  | Other s => DTuple (lit "Other") [DStr s]
  end
with see_field (f : field) : dval :=
  match f with
  | mkField n t => DStruct (lit "Field") [(lit "name", DStr n); (lit "type", see_type t)]
  end.
Definition see_fields (fs : list field) : dval := DTuple (lit "FieldList") [DList (map see_field fs)].
Definition see_transition (t : transition) : dval :=
  DStruct (lit "Transition") [(lit "name", DStr (t_name t)); (lit "params", see_fields (t_params t))].
Definition see_contract (c : contract) : dval :=
  DStruct (lit "Contract")
    [(lit "name", DStr (c_name c)); (lit "init_params", see_fields (c_init_params c));
     (lit "fields", see_fields (c_fields c));
     (lit "transitions", DTuple (lit "TransitionList") [DList (map see_transition (c_transitions c))])].

Definition see_kind (k : id_kind) : dval :=
  DUnit match k with
        | KUnknown => lit "Unknown"
        | KComponentName => lit "ComponentName"
        | KTransitionName => lit "TransitionName"
        end.
Definition see_identifier (i : sr_identifier) : dval :=
  DStruct (lit "SrIdentifier")
    [(lit "unresolved", DStr (unresolved i)); (lit "resolved", DUnit (lit "None"));
     (lit "type_reference", DUnit (lit "None")); (lit "kind", see_kind (kind i));
     (lit "is_definition", DUnit (lit "false"))].
Definition see_address (a : address_type) : dval :=
  DStruct (lit "AddressType") [(lit "type_name", DStr (a_type_name a)); (lit "fields", see_fields (a_fields a))].
Fixpoint see_sr_type (t : sr_type) : dval :=
  match t with
  | mkSr m subs a =>
      DStruct (lit "SrType")
        [(lit "main_type", DStr m); (lit "sub_types", DList (map see_sr_type subs));
         (lit "address_type", match a with
                              | None => DUnit (lit "None")
                              | Some ad => DTuple (lit "Some") [see_address ad]
                              end)]
  end.
Definition see_object (o : stack_object) : dval :=
  match o with
  | IrIdentifier i => DTuple (lit "IrIdentifier") [see_identifier i]
  | VariableDeclaration f => DTuple (lit "VariableDeclaration") [see_field f]
  | SoTypeDefinition t => DTuple (lit "TypeDefinition") [see_sr_type t]
  end.

(** Reading a quoted text: the inside of a Rust string literal, up to the
    closing quote; what is left over is the second component. *)
Definition hex_digit (c : char) : option N :=
  if in_range 48 57 c then Some (c - 48) else if in_range 97 102 c then Some (c - 87) else None.
(** the digits of [\u{..}] *)
Fixpoint read_hex (acc : N) (s : str) : option (N * str) :=
  match s with
  | [] => None
  | 125 :: r => Some (acc, r)
  | c :: r => match hex_digit c with Some d => read_hex (acc * 16 + d) r | None => None end
  end.
Definition plain_escapes : list (char * char) := [(48, 0); (116, 9); (114, 13); (110, 10); (34, 34); (92, 92)].
Inductive quoted : str -> str -> Prop :=  (* the text between the quotes, the text denoted *)
| q_end : quoted [] []
| q_char c r t : c <> 34 -> c <> 92 -> 32 <= c -> c <> 127 -> quoted r t -> quoted (c :: r) (c :: t)
| q_escape e c r t : In (e, c) plain_escapes -> quoted r t -> quoted (92 :: e :: r) (c :: t)
| q_unicode ds n r t : read_hex 0 (ds ++ [125]) = Some (n, []) -> quoted r t ->
    quoted ([92; 117; 123] ++ ds ++ [125] ++ r) (n :: t).
