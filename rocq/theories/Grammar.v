(** Model of src/parser/parser.lalrpop: the terminals, the non terminals, every
    production with its action, and the derivation relation they define.

    The productions are data, written in the notation of the .lalrpop file
    ([One x] is [x], [Opt x] is [x?], [Star x] is [x*], [Plus x] is [x+]); an
    action receives the start of the production's first token ([@L] at the
    beginning), the end of its last token ([@R] at the end), and the values of
    its symbols. *)
From Verif Require Import Chars Lexer Ast.

(** parser.lalrpop:12-75, the terminals of [enum lexer::Token]. *)
Inductive tk :=
| KPlus | KAsterisk | KSemicolon | KColon | KDot | KPipe | KOpenBracket | KCloseBracket
| KOpenParen | KCloseParen | KOpenBrace | KCloseBrace | KComma | KDoubleArrow | KArrow
| KEquals | KAmpersand | KLeftArrow | KColonEquals | KAt | KMinus | KUnderscore | KForall
| KBuiltin | KLibrary | KImport | KLet | KIn | KMatch | KWith | KEnd | KFun | KTfun
| KContract | KTransition | KSend | KEvent | KEventType | KField | KAccept | KExists
| KDelete | KThrow | KMap | KScillaVersion | KType | KOf | KAs | KProcedure | KEmp | KByStr
| KByStrWithSize | KNumber | KHexNumber | KStringLiteral | KIdentifier | KSpecialIdentifier
| KCustomIdentifier | KTemplateIdentifier.

(** The terminal a token belongs to; [None] for the token variants that are not
    in the [extern] block (Comment, TypeName, Whitespace, Unknown): the
    generated parser rejects those wherever they occur. *)
Definition kind_of (t : token) : option tk :=
  match t with
  | TPlus => Some KPlus | TAsterisk => Some KAsterisk | TSemicolon => Some KSemicolon
  | TColon => Some KColon | TDot => Some KDot | TPipe => Some KPipe
  | TOpenBracket => Some KOpenBracket | TCloseBracket => Some KCloseBracket
  | TOpenParen => Some KOpenParen | TCloseParen => Some KCloseParen
  | TOpenBrace => Some KOpenBrace | TCloseBrace => Some KCloseBrace
  | TComma => Some KComma | TDoubleArrow => Some KDoubleArrow | TArrow => Some KArrow
  | TEquals => Some KEquals | TAmpersand => Some KAmpersand | TLeftArrow => Some KLeftArrow
  | TColonEquals => Some KColonEquals | TAt => Some KAt | TMinus => Some KMinus
  | TUnderscore => Some KUnderscore | TForall => Some KForall | TBuiltin => Some KBuiltin
  | TLibrary => Some KLibrary | TImport => Some KImport | TLet => Some KLet | TIn => Some KIn
  | TMatch => Some KMatch | TWith => Some KWith | TEnd => Some KEnd | TFun => Some KFun
  | TTfun => Some KTfun | TContract => Some KContract | TTransition => Some KTransition
  | TSend => Some KSend | TField => Some KField | TAccept => Some KAccept
  | TExists => Some KExists | TDelete => Some KDelete | TThrow => Some KThrow
  | TMap => Some KMap | TScillaVersion => Some KScillaVersion | TType => Some KType
  | TOf => Some KOf | TAs => Some KAs | TProcedure => Some KProcedure | TEmp => Some KEmp
  | TEvent => Some KEvent | TEventType => Some KEventType | TByStr => Some KByStr
  | TByStrWithSize _ => Some KByStrWithSize | TNumber _ => Some KNumber
  | THexNumber _ => Some KHexNumber | TIdentifier _ => Some KIdentifier
  | TTemplateIdentifier _ => Some KTemplateIdentifier
  | TCustomIdentifier _ => Some KCustomIdentifier
  | TSpecialIdentifier _ => Some KSpecialIdentifier
  | TStringLiteral _ => Some KStringLiteral
  | TComment _ | TTypeName _ | TWhitespace | TUnknown => None
  end.

(** The non terminals, in the order of the file. *)
Inductive nt :=
| ByteString | TypeNameIdentifier | ImportedName | ImportDeclarations | MetaIdentifier
| VariableIdentifier | BuiltinArguments | RemainingTypes | FunctionSignature | ScillaType
| TypeArgument | AddressType | AddressTypeFieldList | NextAddressTypeField | AddressTypeField
| TypeMapKey | TypeMapValue | TypeMapValueArguments | Program | LibraryDefinition
| LibrarySingleDefinition | TypedIdentifier | TypeAnnotation | TypeAlternativeClause
| TypeMapValueAllowingTypeArguments | ContractTypeArguments | FullExpression
| PatternMatchExpressionClause | Pattern | ArgumentPattern | NextMessageEntry | MessageEntry
| AtomicExpression | ValueLiteral | Statement | NextStatement | StatementBlock
| BlockchainFetchArguments | ComponentId | PatternMatchClause | RemoteFetchStatement
| MapAccess | ParameterPair | NextParameterPair | ComponentParameters | ComponentDefinition
| TransitionDefinition | ProcedureDefinition | ComponentBody | ContractDefinition
| ContractField | WithConstraint | HexNumber | SignedInteger | RegularId | SpecialId
| TypeOrEnumLikeIdentifierId | TemplateTypeId | StringLiteral.

(** The declared type of each non terminal. *)
Definition nt_type (A : nt) : Type :=
  match A with
  | ByteString => NodeByteStr
  | TypeNameIdentifier => wm NodeTypeNameIdentifier
  | ImportedName => wm NodeImportedName
  | ImportDeclarations => wm NodeImportDeclarations
  | MetaIdentifier => wm NodeMetaIdentifier
  | VariableIdentifier => wm NodeVariableIdentifier
  | BuiltinArguments => wm NodeBuiltinArguments
  | RemainingTypes => wm NodeScillaType
  | FunctionSignature => wm NodeScillaType
  | ScillaType => wm NodeScillaType
  | TypeArgument => wm NodeTypeArgument
  | AddressType => wm NodeAddressType
  | AddressTypeFieldList => list (wm NodeAddressTypeField)
  | NextAddressTypeField => wm NodeAddressTypeField
  | AddressTypeField => wm NodeAddressTypeField
  | TypeMapKey => wm NodeTypeMapKey
  | TypeMapValue => wm NodeTypeMapValue
  | TypeMapValueArguments => wm NodeTypeMapValueArguments
  | Program => NodeProgram
  | LibraryDefinition => wm NodeLibraryDefinition
  | LibrarySingleDefinition => wm NodeLibrarySingleDefinition
  | TypedIdentifier => wm NodeTypedIdentifier
  | TypeAnnotation => wm NodeTypeAnnotation
  | TypeAlternativeClause => wm NodeTypeAlternativeClause
  | TypeMapValueAllowingTypeArguments => wm NodeTypeMapValueAllowingTypeArguments
  | ContractTypeArguments => wm NodeContractTypeArguments
  | FullExpression => wm NodeFullExpression
  | PatternMatchExpressionClause => wm NodePatternMatchExpressionClause
  | Pattern => wm NodePattern
  | ArgumentPattern => wm NodeArgumentPattern
  | NextMessageEntry => wm NodeMessageEntry
  | MessageEntry => wm NodeMessageEntry
  | AtomicExpression => wm NodeAtomicExpression
  | ValueLiteral => wm NodeValueLiteral
  | Statement => NodeStatement
  | NextStatement => NodeStatement
  | StatementBlock => wm NodeStatementBlock
  | BlockchainFetchArguments => NodeBlockchainFetchArguments
  | ComponentId => wm NodeComponentId
  | PatternMatchClause => wm NodePatternMatchClause
  | RemoteFetchStatement => NodeRemoteFetchStatement
  | MapAccess => wm NodeMapAccess
  | ParameterPair => wm NodeParameterPair
  | NextParameterPair => wm NodeParameterPair
  | ComponentParameters => wm NodeComponentParameters
  | ComponentDefinition => wm NodeComponentDefinition
  | TransitionDefinition => wm NodeTransitionDefinition
  | ProcedureDefinition => wm NodeProcedureDefinition
  | ComponentBody => wm NodeComponentBody
  | ContractDefinition => wm NodeContractDefinition
  | ContractField => wm NodeContractField
  | WithConstraint => wm NodeWithConstraint
  | HexNumber | SignedInteger | RegularId | SpecialId | TypeOrEnumLikeIdentifierId
  | TemplateTypeId | StringLiteral => wm str
  end.

(** Symbols of a production. *)
Inductive atom := Tm (k : tk) | Nt (A : nt).
Inductive sym := One (a : atom) | Opt (a : atom) | Star (a : atom) | Plus (a : atom).

(** The value of a terminal is the token with its span. *)
Definition atom_type (a : atom) : Type :=
  match a with Tm _ => item | Nt A => nt_type A end.
Definition sym_type (s : sym) : Type :=
  match s with
  | One a => atom_type a
  | Opt a => option (atom_type a)
  | Star a | Plus a => list (atom_type a)
  end.
Fixpoint tuple (l : list sym) : Type :=
  match l with
  | [] => unit
  | s :: r => (sym_type s * tuple r)%type
  end.

Record production (A : nt) := mkprod {
  p_rhs : list sym;
  p_act : source_position -> source_position -> tuple p_rhs -> nt_type A }.
Arguments mkprod A p_rhs p_act : clear implicits.
Arguments p_rhs {A} _.
Arguments p_act {A} _ _ _ _.

(** [String::from(node)] / [node.to_string()] of a terminal with a payload. *)
Definition tok_str (i : item) : str := token_text (item_token i).

Local Notation t k := (One (Tm k)) (only parsing).
Local Notation n A := (One (Nt A)) (only parsing).

(** parser.lalrpop:91-98 *)
Definition prods_ByteString : list (production ByteString) :=
  [ mkprod ByteString [t KByStrWithSize]
      (fun s e '(x, _) => BSType (mkwm (tok_str x) s e)) ].

(** parser.lalrpop:112-128 *)
Definition prods_TypeNameIdentifier : list (production TypeNameIdentifier) :=
  [ mkprod TypeNameIdentifier [n ByteString]
      (fun s e '(x, _) => mkwm (ByteStringType x) s e);
    mkprod TypeNameIdentifier [t KEventType]
      (fun s e '(_, _) => mkwm (EventType) s e);
    mkprod TypeNameIdentifier [n TypeOrEnumLikeIdentifierId]
      (fun s e '(x, _) => mkwm (TypeOrEnumLikeIdentifier x) s e) ].

(** parser.lalrpop:142-154 *)
Definition prods_ImportedName : list (production ImportedName) :=
  [ mkprod ImportedName [n TypeNameIdentifier]
      (fun s e '(x, _) => mkwm (RegularImport x) s e);
    mkprod ImportedName [n TypeNameIdentifier; t KAs; n TypeNameIdentifier]
      (fun s e '(x, (_, (v, _))) => mkwm (AliasedImport x v) s e) ].

(** parser.lalrpop:169-190 *)
Definition prods_ImportDeclarations : list (production ImportDeclarations) :=
  [ mkprod ImportDeclarations [n ImportDeclarations; t KImport; n ImportedName]
      (fun s e '(prev, (i, (x, _))) => (* [start] is taken after [prev]: it is the start of the "import" token *)
          mkwm (match node prev with mkImportDeclarations l => mkImportDeclarations (l ++ [x]) end)
               (item_start i) e);
    mkprod ImportDeclarations [t KImport; Plus (Nt ImportedName)]
      (fun s e '(_, (x, _)) => mkwm (mkImportDeclarations x) s e) ].

(** parser.lalrpop:209-230 *)
Definition prods_MetaIdentifier : list (production MetaIdentifier) :=
  [ mkprod MetaIdentifier [n TypeNameIdentifier]
      (fun s e '(x, _) => mkwm (MetaName x) s e);
    mkprod MetaIdentifier [n TypeNameIdentifier; t KDot; n TypeNameIdentifier]
      (fun s e '(l, (_, (r, _))) => mkwm (MetaNameInNamespace l r) s e);
    mkprod MetaIdentifier [n HexNumber; t KDot; n TypeNameIdentifier]
      (fun s e '(l, (_, (r, _))) => mkwm (MetaNameInHexspace l r) s e);
    mkprod MetaIdentifier [t KByStr]
      (fun s e '(_, _) => mkwm (MetaByteString) s e) ].

(** parser.lalrpop:249-266 *)
Definition prods_VariableIdentifier : list (production VariableIdentifier) :=
  [ mkprod VariableIdentifier [n RegularId]
      (fun s e '(x, _) => mkwm (VariableName x) s e);
    mkprod VariableIdentifier [n SpecialId]
      (fun s e '(x, _) => mkwm (VISpecialIdentifier x) s e);
    mkprod VariableIdentifier [n TypeNameIdentifier; t KDot; n RegularId]
      (fun s e '(x, (_, (r, _))) => mkwm (VariableInNamespace x r) s e) ].

(** parser.lalrpop:280-309 *)
Definition prods_BuiltinArguments : list (production BuiltinArguments) :=
  [ mkprod BuiltinArguments [n BuiltinArguments; n VariableIdentifier]
      (fun s e '(prev, (x, _)) => mkwm (match node prev with mkBuiltinArguments l => mkBuiltinArguments (l ++ [x]) end) s e);
    mkprod BuiltinArguments [n VariableIdentifier]
      (fun s e '(x, _) => mkwm (mkBuiltinArguments [x]) s e);
    mkprod BuiltinArguments [t KOpenParen; t KCloseParen]
      (fun s e '(_, (_, _)) => mkwm (mkBuiltinArguments []) s e) ].

(** parser.lalrpop:311-342 *)
Definition prods_RemainingTypes : list (production RemainingTypes) :=
  [ mkprod RemainingTypes [n MetaIdentifier; Star (Nt TypeArgument)]
      (fun s e '(m, (args, _)) => mkwm (GenericTypeWithArgs m args) s e);
    mkprod RemainingTypes [t KMap; n TypeMapKey; n TypeMapValue]
      (fun s e '(_, (k, (v, _))) => mkwm (MapType k v) s e);
    mkprod RemainingTypes [t KOpenParen; n ScillaType; t KCloseParen]
      (fun s e '(_, (x, (_, _))) => mkwm (EnclosedType x) s e);
    mkprod RemainingTypes [n AddressType]
      (fun s e '(a, _) => mkwm (ScillaAddresseType a) s e);
    mkprod RemainingTypes [t KForall; n TemplateTypeId; t KDot; n RemainingTypes]
      (fun s e '(_, (v, (_, (x, _)))) => mkwm (PolyFunctionType v x) s e);
    mkprod RemainingTypes [n TemplateTypeId]
      (fun s e '(v, _) => mkwm (TypeVarType v) s e) ].

(** parser.lalrpop:344-355 *)
Definition prods_FunctionSignature : list (production FunctionSignature) :=
  [ mkprod FunctionSignature [n RemainingTypes; t KArrow; n FunctionSignature]
      (fun s e '(a, (_, (b, _))) => mkwm (FunctionType a b) s e);
    mkprod FunctionSignature [n RemainingTypes; t KArrow; n RemainingTypes]
      (fun s e '(a, (_, (b, _))) => mkwm (FunctionType a b) s e) ].

(** parser.lalrpop:375-378 *)
Definition prods_ScillaType : list (production ScillaType) :=
  [ mkprod ScillaType [n FunctionSignature]
      (fun s e '(f, _) => f);
    mkprod ScillaType [n RemainingTypes]
      (fun s e '(x, _) => x) ].

(** parser.lalrpop:397-428 *)
Definition prods_TypeArgument : list (production TypeArgument) :=
  [ mkprod TypeArgument [t KOpenParen; n ScillaType; t KCloseParen]
      (fun s e '(_, (x, (_, _))) => mkwm (EnclosedTypeArgument x) s e);
    mkprod TypeArgument [n MetaIdentifier]
      (fun s e '(i, _) => mkwm (GenericTypeArgument i) s e);
    mkprod TypeArgument [n TemplateTypeId]
      (fun s e '(x, _) => mkwm (TemplateTypeArgument x) s e);
    mkprod TypeArgument [n AddressType]
      (fun s e '(a, _) => mkwm (AddressTypeArgument a) s e);
    mkprod TypeArgument [t KMap; n TypeMapKey; n TypeMapValue]
      (fun s e '(_, (k, (v, _))) => mkwm (MapTypeArgument k v) s e) ].

(** parser.lalrpop:446-498 *)
Definition prods_AddressType : list (production AddressType) :=
  [ mkprod AddressType [n TypeNameIdentifier; t KWith; t KEnd]
      (fun s e '(i, (_, (_, _))) => mkwm (mkAddressType i (mkwm (lit "") s e) []) s e);
    mkprod AddressType [n TypeNameIdentifier; t KWith; t KContract; Opt (Nt AddressTypeFieldList); t KEnd]
      (fun s e '(i, (_, (_, (fs, (_, _))))) => mkwm (mkAddressType i (mkwm (lit "contract") s e) (match fs with Some l => l | None => [] end)) s e);
    mkprod AddressType [n TypeNameIdentifier; t KWith; t KLibrary; t KEnd]
      (fun s e '(i, (_, (_, (_, _)))) => mkwm (mkAddressType i (mkwm (lit "library") s e) []) s e);
    mkprod AddressType [n TypeNameIdentifier; t KWith; n SpecialId; t KEnd]
      (fun s e '(i, (_, (x, (_, _)))) => mkwm (mkAddressType i x []) s e) ].

(** parser.lalrpop:512-521 *)
Definition prods_AddressTypeFieldList : list (production AddressTypeFieldList) :=
  [ mkprod AddressTypeFieldList [n AddressTypeField; Star (Nt NextAddressTypeField)]
      (fun s e '(f, (r, _)) => f :: r) ].

(** parser.lalrpop:523-525 *)
Definition prods_NextAddressTypeField : list (production NextAddressTypeField) :=
  [ mkprod NextAddressTypeField [t KComma; n AddressTypeField]
      (fun s e '(_, (a, _)) => a) ].

(** parser.lalrpop:527-538 *)
Definition prods_AddressTypeField : list (production AddressTypeField) :=
  [ mkprod AddressTypeField [t KField; n VariableIdentifier; t KColon; n ScillaType]
      (fun s e '(_, (i, (_, (x, _)))) => mkwm (mkAddressTypeField i x) s e) ].

(** parser.lalrpop:556-581 *)
Definition prods_TypeMapKey : list (production TypeMapKey) :=
  [ mkprod TypeMapKey [n MetaIdentifier]
      (fun s e '(m, _) => mkwm (GenericMapKey m) s e);
    mkprod TypeMapKey [t KOpenParen; n MetaIdentifier; t KCloseParen]
      (fun s e '(_, (m, (_, _))) => mkwm (EnclosedGenericId m) s e);
    mkprod TypeMapKey [t KOpenParen; n AddressType; t KCloseParen]
      (fun s e '(_, (a, (_, _))) => mkwm (EnclosedAddressMapKeyType a) s e);
    mkprod TypeMapKey [n AddressType]
      (fun s e '(a, _) => mkwm (AddressMapKeyType a) s e) ].

(** parser.lalrpop:600-627 *)
Definition prods_TypeMapValue : list (production TypeMapValue) :=
  [ mkprod TypeMapValue [n MetaIdentifier]
      (fun s e '(m, _) => mkwm (MapValueTypeOrEnumLikeIdentifier m) s e);
    mkprod TypeMapValue [t KMap; n TypeMapKey; n TypeMapValue]
      (fun s e '(_, (k, (v, _))) => mkwm (MapKeyValue (mkwm (mkTypeMapEntry k v) s e)) s e);
    mkprod TypeMapValue [t KOpenParen; n TypeMapValueAllowingTypeArguments; t KCloseParen]
      (fun s e '(_, (x, (_, _))) => mkwm (MapValueParenthesizedType x) s e);
    mkprod TypeMapValue [n AddressType]
      (fun s e '(a, _) => mkwm (MapValueAddressType a) s e) ].

(** parser.lalrpop:645-662 *)
Definition prods_TypeMapValueArguments : list (production TypeMapValueArguments) :=
  [ mkprod TypeMapValueArguments [t KOpenParen; n TypeMapValueAllowingTypeArguments; t KCloseParen]
      (fun s e '(_, (x, (_, _))) => mkwm (EnclosedTypeMapValue x) s e);
    mkprod TypeMapValueArguments [n MetaIdentifier]
      (fun s e '(m, _) => mkwm (GenericMapValueArgument m) s e);
    mkprod TypeMapValueArguments [t KMap; n TypeMapKey; n TypeMapValue]
      (fun s e '(_, (k, (v, _))) => mkwm (MapKeyValueType k v) s e) ].

(** parser.lalrpop:680-687 *)
Definition prods_Program : list (production Program) :=
  [ mkprod Program [t KScillaVersion; n SignedInteger; Opt (Nt ImportDeclarations); Opt (Nt LibraryDefinition); n ContractDefinition]
      (fun s e '(_, (v, (i, (l, (c, _))))) => mkProgram v i l c) ].

(** parser.lalrpop:703-714 *)
Definition prods_LibraryDefinition : list (production LibraryDefinition) :=
  [ mkprod LibraryDefinition [t KLibrary; n TypeNameIdentifier; Star (Nt LibrarySingleDefinition)]
      (fun s e '(_, (l, (d, _))) => mkwm (mkLibraryDefinition l d) s e) ].

(** parser.lalrpop:735-779 *)
Definition prods_LibrarySingleDefinition : list (production LibrarySingleDefinition) :=
  [ mkprod LibrarySingleDefinition [t KLet; n RegularId; Opt (Nt TypeAnnotation); t KEquals; n FullExpression]
      (fun s e '(_, (v, (a, (_, (x, _))))) => mkwm (LetDefinition v a x) s e);
    mkprod LibrarySingleDefinition [t KType; n TypeNameIdentifier]
      (fun s e '(_, (x, _)) => mkwm (TypeDefinition x None) s e);
    mkprod LibrarySingleDefinition [t KType; n TypeNameIdentifier; t KEquals; Plus (Nt TypeAlternativeClause)]
      (fun s e '(_, (x, (_, (c, _)))) => mkwm (TypeDefinition x (Some c)) s e) ].

(** parser.lalrpop:794-802 *)
Definition prods_TypedIdentifier : list (production TypedIdentifier) :=
  [ mkprod TypedIdentifier [n RegularId; n TypeAnnotation]
      (fun s e '(i, (a, _)) => mkwm (mkTypedIdentifier i a) s e) ].

(** parser.lalrpop:815-822 *)
Definition prods_TypeAnnotation : list (production TypeAnnotation) :=
  [ mkprod TypeAnnotation [t KColon; n ScillaType]
      (fun s e '(_, (x, _)) => mkwm (mkTypeAnnotation x) s e) ].

(** parser.lalrpop:837-848 *)
Definition prods_TypeAlternativeClause : list (production TypeAlternativeClause) :=
  [ mkprod TypeAlternativeClause [t KPipe; n TypeNameIdentifier]
      (fun s e '(_, (x, _)) => mkwm (ClauseType x) s e);
    mkprod TypeAlternativeClause [t KPipe; n TypeNameIdentifier; t KOf; Plus (Nt TypeArgument)]
      (fun s e '(_, (x, (_, (a, _)))) => mkwm (ClauseTypeWithArgs x a) s e) ].

(** parser.lalrpop:866-879 *)
Definition prods_TypeMapValueAllowingTypeArguments : list (production TypeMapValueAllowingTypeArguments) :=
  [ mkprod TypeMapValueAllowingTypeArguments [n MetaIdentifier; Plus (Nt TypeMapValueArguments)]
      (fun s e '(m, (a, _)) => mkwm (TypeMapValueWithArgs m a) s e);
    mkprod TypeMapValueAllowingTypeArguments [n TypeMapValue]
      (fun s e '(x, _) => mkwm (TypeMapValueNoArgs x) s e) ].

(** parser.lalrpop:890-897 *)
Definition prods_ContractTypeArguments : list (production ContractTypeArguments) :=
  [ mkprod ContractTypeArguments [t KOpenBrace; Star (Nt TypeArgument); t KCloseBrace]
      (fun s e '(_, (a, (_, _))) => mkwm (mkContractTypeArguments a) s e) ].

(** parser.lalrpop:921-1007 *)
Definition prods_FullExpression : list (production FullExpression) :=
  [ mkprod FullExpression [t KLet; n RegularId; Opt (Nt TypeAnnotation); t KEquals; n FullExpression; t KIn; n FullExpression]
      (fun s e '(_, (i, (a, (_, (x, (_, (c, _))))))) => mkwm (LocalVariableDeclaration i x a c) s e);
    mkprod FullExpression [t KFun; t KOpenParen; n RegularId; n TypeAnnotation; t KCloseParen; t KDoubleArrow; n FullExpression]
      (fun s e '(_, (_, (i, (a, (_, (_, (x, _))))))) => mkwm (FunctionDeclaration i a x) s e);
    mkprod FullExpression [n VariableIdentifier; Plus (Nt VariableIdentifier)]
      (fun s e '(f, (a, _)) => mkwm (FunctionCall f a) s e);
    mkprod FullExpression [n AtomicExpression]
      (fun s e '(a, _) => mkwm (ExpressionAtomic a) s e);
    mkprod FullExpression [t KBuiltin; n RegularId; Opt (Nt ContractTypeArguments); n BuiltinArguments]
      (fun s e '(_, (b, (a, (x, _)))) => mkwm (ExpressionBuiltin b a x) s e);
    mkprod FullExpression [t KOpenBrace; n MessageEntry; Star (Nt NextMessageEntry); t KCloseBrace]
      (fun s e '(_, (m, (l, (_, _)))) => mkwm (Message (m :: l)) s e);
    mkprod FullExpression [t KMatch; n VariableIdentifier; t KWith; Plus (Nt PatternMatchExpressionClause); t KEnd]
      (fun s e '(_, (v, (_, (c, (_, _))))) => mkwm (EMatch v c) s e);
    mkprod FullExpression [n MetaIdentifier; Opt (Nt ContractTypeArguments); Star (Nt VariableIdentifier)]
      (fun s e '(m, (a, (l, _))) => mkwm (ConstructorCall m a l) s e);
    mkprod FullExpression [t KTfun; n TemplateTypeId; t KDoubleArrow; n FullExpression]
      (fun s e '(_, (i, (_, (x, _)))) => mkwm (TemplateFunction i x) s e);
    mkprod FullExpression [t KAt; n VariableIdentifier; Plus (Nt TypeArgument)]
      (fun s e '(_, (i, (a, _))) => mkwm (TApp i a) s e) ].

(** parser.lalrpop:1021-1027 *)
Definition prods_PatternMatchExpressionClause : list (production PatternMatchExpressionClause) :=
  [ mkprod PatternMatchExpressionClause [t KPipe; n Pattern; t KDoubleArrow; n FullExpression]
      (fun s e '(_, (p, (_, (x, _)))) => mkwm (mkPatternMatchExpressionClause p x) s e) ].

(** parser.lalrpop:1044-1063 *)
Definition prods_Pattern : list (production Pattern) :=
  [ mkprod Pattern [t KUnderscore]
      (fun s e '(_, _) => mkwm (Wildcard) s e);
    mkprod Pattern [n RegularId]
      (fun s e '(i, _) => mkwm (Binder i) s e);
    mkprod Pattern [n MetaIdentifier; Star (Nt ArgumentPattern)]
      (fun s e '(m, (a, _)) => mkwm (PatConstructor m a) s e) ].

(** parser.lalrpop:1079-1105 *)
Definition prods_ArgumentPattern : list (production ArgumentPattern) :=
  [ mkprod ArgumentPattern [t KUnderscore]
      (fun s e '(_, _) => mkwm (WildcardArgument) s e);
    mkprod ArgumentPattern [n RegularId]
      (fun s e '(i, _) => mkwm (BinderArgument i) s e);
    mkprod ArgumentPattern [n MetaIdentifier]
      (fun s e '(m, _) => mkwm (ConstructorArgument m) s e);
    mkprod ArgumentPattern [t KOpenParen; n Pattern; t KCloseParen]
      (fun s e '(_, (p, (_, _))) => mkwm (PatternArgument p) s e) ].

(** parser.lalrpop:1119-1121 *)
Definition prods_NextMessageEntry : list (production NextMessageEntry) :=
  [ mkprod NextMessageEntry [t KSemicolon; n MessageEntry]
      (fun s e '(_, (m, _)) => m) ].

(** parser.lalrpop:1123-1135 *)
Definition prods_MessageEntry : list (production MessageEntry) :=
  [ mkprod MessageEntry [n VariableIdentifier; t KColon; n ValueLiteral]
      (fun s e '(i, (_, (v, _))) => mkwm (MessageLiteral i v) s e);
    mkprod MessageEntry [n VariableIdentifier; t KColon; n VariableIdentifier]
      (fun s e '(i, (_, (v, _))) => mkwm (MessageVariable i v) s e) ].

(** parser.lalrpop:1146-1159 *)
Definition prods_AtomicExpression : list (production AtomicExpression) :=
  [ mkprod AtomicExpression [n VariableIdentifier]
      (fun s e '(v, _) => mkwm (AtomicSid v) s e);
    mkprod AtomicExpression [n ValueLiteral]
      (fun s e '(v, _) => mkwm (AtomicLit v) s e) ].

(** parser.lalrpop:1180-1207 *)
Definition prods_ValueLiteral : list (production ValueLiteral) :=
  [ mkprod ValueLiteral [n TypeNameIdentifier; n SignedInteger]
      (fun s e '(x, (v, _)) => (* written [<end:@L>] in the source; for the last symbol of a production
             lalrpop's inlining makes that the end of the last symbol *)
          mkwm (LiteralInt x v) s e);
    mkprod ValueLiteral [n HexNumber]
      (fun s e '(x, _) => mkwm (LiteralHex x) s e);
    mkprod ValueLiteral [n StringLiteral]
      (fun s e '(x, _) => mkwm (LiteralString x) s e);
    mkprod ValueLiteral [t KEmp; n TypeMapKey; n TypeMapValue]
      (fun s e '(_, (k, (v, _))) => mkwm (LiteralEmptyMap k v) s e) ].

(** parser.lalrpop:1239-1310 *)
Definition prods_Statement : list (production Statement) :=
  [ mkprod Statement [n RegularId; t KLeftArrow; n VariableIdentifier]
      (fun s e '(i, (_, (r, _))) => Load i r);
    mkprod Statement [n RemoteFetchStatement]
      (fun s e '(r, _) => RemoteFetch r);
    mkprod Statement [n RegularId; t KColonEquals; n VariableIdentifier]
      (fun s e '(i, (_, (r, _))) => Store i r);
    mkprod Statement [n RegularId; t KEquals; n FullExpression]
      (fun s e '(i, (_, (r, _))) => Bind i r);
    mkprod Statement [n RegularId; t KLeftArrow; t KAmpersand; n TypeNameIdentifier; Opt (Nt BlockchainFetchArguments)]
      (fun s e '(i, (_, (_, (x, (a, _))))) => ReadFromBC i x a);
    mkprod Statement [n RegularId; t KLeftArrow; n RegularId; Plus (Nt MapAccess)]
      (fun s e '(i, (_, (r, (k, _)))) => MapGet i k r);
    mkprod Statement [n RegularId; t KLeftArrow; t KExists; n RegularId; Plus (Nt MapAccess)]
      (fun s e '(i, (_, (_, (r, (k, _))))) => MapGetExists i k r);
    mkprod Statement [n RegularId; Plus (Nt MapAccess); t KColonEquals; n VariableIdentifier]
      (fun s e '(i, (k, (_, (r, _)))) => MapUpdate i k r);
    mkprod Statement [t KDelete; n RegularId; Plus (Nt MapAccess)]
      (fun s e '(_, (i, (k, _))) => MapUpdateDelete i k);
    mkprod Statement [t KAccept]
      (fun s e '(_, _) => Accept);
    mkprod Statement [t KSend; n VariableIdentifier]
      (fun s e '(_, (v, _)) => Send v);
    mkprod Statement [t KEvent; n VariableIdentifier]
      (fun s e '(_, (v, _)) => CreateEvnt v);
    mkprod Statement [t KThrow; Opt (Nt VariableIdentifier)]
      (fun s e '(_, (v, _)) => Throw v);
    mkprod Statement [t KMatch; n VariableIdentifier; t KWith; Plus (Nt PatternMatchClause); t KEnd]
      (fun s e '(_, (v, (_, (c, (_, _))))) => MatchStmt v c);
    mkprod Statement [n ComponentId; Star (Nt VariableIdentifier)]
      (fun s e '(c, (a, _)) => CallProc c a);
    mkprod Statement [t KForall; n VariableIdentifier; n ComponentId]
      (fun s e '(_, (v, (c, _))) => Iterate v c) ].

(** parser.lalrpop:1312-1314 *)
Definition prods_NextStatement : list (production NextStatement) :=
  [ mkprod NextStatement [t KSemicolon; n Statement]
      (fun s e '(_, (x, _)) => x) ].

(** parser.lalrpop:1329-1345 *)
Definition prods_StatementBlock : list (production StatementBlock) :=
  [ mkprod StatementBlock [n Statement; Star (Nt NextStatement)]
      (fun s e '(x, (l, _)) => mkwm (mkStatementBlock (x :: l)) s e) ].

(** parser.lalrpop:1358-1360 *)
Definition prods_BlockchainFetchArguments : list (production BlockchainFetchArguments) :=
  [ mkprod BlockchainFetchArguments [t KOpenParen; Plus (Nt VariableIdentifier); t KCloseParen]
      (fun s e '(_, (a, (_, _))) => mkBlockchainFetchArguments a) ].

(** parser.lalrpop:1377-1391 *)
Definition prods_ComponentId : list (production ComponentId) :=
  [ mkprod ComponentId [n TypeNameIdentifier]
      (fun s e '(x, _) => mkwm (WithTypeLikeName x) s e);
    mkprod ComponentId [n RegularId]
      (fun s e '(x, _) => mkwm (WithRegularId x) s e) ].

(** parser.lalrpop:1406-1417 *)
Definition prods_PatternMatchClause : list (production PatternMatchClause) :=
  [ mkprod PatternMatchClause [t KPipe; n Pattern; t KDoubleArrow; Opt (Nt StatementBlock)]
      (fun s e '(_, (p, (_, (b, _)))) => mkwm (mkPatternMatchClause p b) s e) ].

(** parser.lalrpop:1440-1484 *)
Definition prods_RemoteFetchStatement : list (production RemoteFetchStatement) :=
  [ mkprod RemoteFetchStatement [n RegularId; t KLeftArrow; t KAmpersand; n RegularId; t KDot; n VariableIdentifier]
      (fun s e '(l, (_, (_, (a, (_, (r, _)))))) => ReadStateMutable l a r);
    mkprod RemoteFetchStatement [n RegularId; t KLeftArrow; t KAmpersand; n SpecialId; t KDot; n SpecialId]
      (fun s e '(l, (_, (_, (a, (_, (r, _)))))) => ReadStateMutableSpecialId l a r);
    mkprod RemoteFetchStatement [n RegularId; t KLeftArrow; t KAmpersand; n RegularId; t KDot; n RegularId; Plus (Nt MapAccess)]
      (fun s e '(l, (_, (_, (a, (_, (m, (k, _))))))) => ReadStateMutableMapAccess l a m k);
    mkprod RemoteFetchStatement [n RegularId; t KLeftArrow; t KAmpersand; t KExists; n RegularId; t KDot; n RegularId; Plus (Nt MapAccess)]
      (fun s e '(l, (_, (_, (_, (a, (_, (m, (k, _)))))))) => ReadStateMutableMapAccessExists l a m k);
    mkprod RemoteFetchStatement [n RegularId; t KLeftArrow; t KAmpersand; n VariableIdentifier; t KAs; n AddressType]
      (fun s e '(l, (_, (_, (a, (_, (x, _)))))) => ReadStateMutableCastAddress l a x) ].

(** parser.lalrpop:1497-1503 *)
Definition prods_MapAccess : list (production MapAccess) :=
  [ mkprod MapAccess [t KOpenBracket; n VariableIdentifier; t KCloseBracket]
      (fun s e '(_, (i, (_, _))) => mkwm (mkMapAccess i) s e) ].

(** parser.lalrpop:1516-1525 *)
Definition prods_ParameterPair : list (production ParameterPair) :=
  [ mkprod ParameterPair [n TypedIdentifier]
      (fun s e '(x, _) => mkwm (mkParameterPair x) s e) ].

(** parser.lalrpop:1528-1530 *)
Definition prods_NextParameterPair : list (production NextParameterPair) :=
  [ mkprod NextParameterPair [t KComma; n ParameterPair]
      (fun s e '(_, (p, _)) => p) ].

(** parser.lalrpop:1543-1563 *)
Definition prods_ComponentParameters : list (production ComponentParameters) :=
  [ mkprod ComponentParameters [t KOpenParen; Opt (Nt ParameterPair); Star (Nt NextParameterPair); t KCloseParen]
      (fun s e '(_, (p, (l, (_, _)))) => mkwm (mkComponentParameters (match p with Some x => x :: l | None => l end)) s e) ].

(** parser.lalrpop:1577-1589 *)
Definition prods_ComponentDefinition : list (production ComponentDefinition) :=
  [ mkprod ComponentDefinition [n TransitionDefinition]
      (fun s e '(x, _) => mkwm (TransitionComponent x) s e);
    mkprod ComponentDefinition [n ProcedureDefinition]
      (fun s e '(x, _) => mkwm (ProcedureComponent x) s e) ].

(** parser.lalrpop:1603-1609 *)
Definition prods_TransitionDefinition : list (production TransitionDefinition) :=
  [ mkprod TransitionDefinition [t KTransition; n ComponentId; n ComponentParameters; n ComponentBody]
      (fun s e '(_, (i, (p, (b, _)))) => mkwm (mkTransitionDefinition i p b) s e) ].

(** parser.lalrpop:1623-1633 *)
Definition prods_ProcedureDefinition : list (production ProcedureDefinition) :=
  [ mkprod ProcedureDefinition [t KProcedure; n ComponentId; n ComponentParameters; n ComponentBody]
      (fun s e '(_, (i, (p, (b, _)))) => mkwm (mkProcedureDefinition i p b) s e) ].

(** parser.lalrpop:1646-1652 *)
Definition prods_ComponentBody : list (production ComponentBody) :=
  [ mkprod ComponentBody [Opt (Nt StatementBlock); t KEnd]
      (fun s e '(b, (_, _)) => mkwm (mkComponentBody b) s e) ].

(** parser.lalrpop:1671-1688 *)
Definition prods_ContractDefinition : list (production ContractDefinition) :=
  [ mkprod ContractDefinition [t KContract; n TypeNameIdentifier; n ComponentParameters; Opt (Nt WithConstraint); Star (Nt ContractField); Star (Nt ComponentDefinition)]
      (fun s e '(_, (i, (p, (c, (f, (d, _)))))) => mkwm (mkContractDefinition i p c f d) s e) ].

(** parser.lalrpop:1705-1711 *)
Definition prods_ContractField : list (production ContractField) :=
  [ mkprod ContractField [t KField; n TypedIdentifier; t KEquals; n FullExpression]
      (fun s e '(_, (i, (_, (x, _)))) => mkwm (mkContractField i x) s e) ].

(** parser.lalrpop:1724-1730 *)
Definition prods_WithConstraint : list (production WithConstraint) :=
  [ mkprod WithConstraint [t KWith; n FullExpression; t KDoubleArrow]
      (fun s e '(_, (x, (_, _))) => mkwm (mkWithConstraint x) s e) ].

(** parser.lalrpop:1735-1741 *)
Definition prods_HexNumber : list (production HexNumber) :=
  [ mkprod HexNumber [t KHexNumber]
      (fun s e '(x, _) => mkwm (tok_str x) s e) ].

(** parser.lalrpop:1755-1761 *)
Definition prods_SignedInteger : list (production SignedInteger) :=
  [ mkprod SignedInteger [t KNumber]
      (fun s e '(x, _) => mkwm (tok_str x) s e) ].

(** parser.lalrpop:1774-1780 *)
Definition prods_RegularId : list (production RegularId) :=
  [ mkprod RegularId [t KIdentifier]
      (fun s e '(x, _) => mkwm (tok_str x) s e) ].

(** parser.lalrpop:1790-1796 *)
Definition prods_SpecialId : list (production SpecialId) :=
  [ mkprod SpecialId [t KSpecialIdentifier]
      (fun s e '(x, _) => mkwm (tok_str x) s e) ].

(** parser.lalrpop:1809-1815 *)
Definition prods_TypeOrEnumLikeIdentifierId : list (production TypeOrEnumLikeIdentifierId) :=
  [ mkprod TypeOrEnumLikeIdentifierId [t KCustomIdentifier]
      (fun s e '(x, _) => mkwm (tok_str x) s e) ].

(** parser.lalrpop:1817-1823 *)
Definition prods_TemplateTypeId : list (production TemplateTypeId) :=
  [ mkprod TemplateTypeId [t KTemplateIdentifier]
      (fun s e '(x, _) => mkwm (tok_str x) s e) ].

(** parser.lalrpop:1825-1831 *)
Definition prods_StringLiteral : list (production StringLiteral) :=
  [ mkprod StringLiteral [t KStringLiteral]
      (fun s e '(x, _) => mkwm (tok_str x) s e) ].

(** All the productions. *)
Definition prods (A : nt) : list (production A) :=
  match A with
  | ByteString => prods_ByteString
  | TypeNameIdentifier => prods_TypeNameIdentifier
  | ImportedName => prods_ImportedName
  | ImportDeclarations => prods_ImportDeclarations
  | MetaIdentifier => prods_MetaIdentifier
  | VariableIdentifier => prods_VariableIdentifier
  | BuiltinArguments => prods_BuiltinArguments
  | RemainingTypes => prods_RemainingTypes
  | FunctionSignature => prods_FunctionSignature
  | ScillaType => prods_ScillaType
  | TypeArgument => prods_TypeArgument
  | AddressType => prods_AddressType
  | AddressTypeFieldList => prods_AddressTypeFieldList
  | NextAddressTypeField => prods_NextAddressTypeField
  | AddressTypeField => prods_AddressTypeField
  | TypeMapKey => prods_TypeMapKey
  | TypeMapValue => prods_TypeMapValue
  | TypeMapValueArguments => prods_TypeMapValueArguments
  | Program => prods_Program
  | LibraryDefinition => prods_LibraryDefinition
  | LibrarySingleDefinition => prods_LibrarySingleDefinition
  | TypedIdentifier => prods_TypedIdentifier
  | TypeAnnotation => prods_TypeAnnotation
  | TypeAlternativeClause => prods_TypeAlternativeClause
  | TypeMapValueAllowingTypeArguments => prods_TypeMapValueAllowingTypeArguments
  | ContractTypeArguments => prods_ContractTypeArguments
  | FullExpression => prods_FullExpression
  | PatternMatchExpressionClause => prods_PatternMatchExpressionClause
  | Pattern => prods_Pattern
  | ArgumentPattern => prods_ArgumentPattern
  | NextMessageEntry => prods_NextMessageEntry
  | MessageEntry => prods_MessageEntry
  | AtomicExpression => prods_AtomicExpression
  | ValueLiteral => prods_ValueLiteral
  | Statement => prods_Statement
  | NextStatement => prods_NextStatement
  | StatementBlock => prods_StatementBlock
  | BlockchainFetchArguments => prods_BlockchainFetchArguments
  | ComponentId => prods_ComponentId
  | PatternMatchClause => prods_PatternMatchClause
  | RemoteFetchStatement => prods_RemoteFetchStatement
  | MapAccess => prods_MapAccess
  | ParameterPair => prods_ParameterPair
  | NextParameterPair => prods_NextParameterPair
  | ComponentParameters => prods_ComponentParameters
  | ComponentDefinition => prods_ComponentDefinition
  | TransitionDefinition => prods_TransitionDefinition
  | ProcedureDefinition => prods_ProcedureDefinition
  | ComponentBody => prods_ComponentBody
  | ContractDefinition => prods_ContractDefinition
  | ContractField => prods_ContractField
  | WithConstraint => prods_WithConstraint
  | HexNumber => prods_HexNumber
  | SignedInteger => prods_SignedInteger
  | RegularId => prods_RegularId
  | SpecialId => prods_SpecialId
  | TypeOrEnumLikeIdentifierId => prods_TypeOrEnumLikeIdentifierId
  | TemplateTypeId => prods_TemplateTypeId
  | StringLiteral => prods_StringLiteral
  end.

(** ** Derivations *)

(** Span of a token sequence: start of the first token, end of the last. *)
Definition first_start (l : list item) : source_position :=
  match l with [] => start_position | i :: _ => item_start i end.
Fixpoint last_end (l : list item) : source_position :=
  match l with
  | [] => start_position
  | i :: r => match r with [] => item_end i | _ => last_end r end
  end.

(** [der_sym s toks v]: the token sequence [toks] derives the symbol [s] with
    semantic value [v], by the productions and actions above. *)
Inductive der_atom : forall a : atom, list item -> atom_type a -> Prop :=
| der_Tm : forall k i, kind_of (item_token i) = Some k -> der_atom (Tm k) [i] i
| der_Nt : forall A p toks vs,
    In p (prods A) -> der_rhs (p_rhs p) toks vs ->
    der_atom (Nt A) toks (p_act p (first_start toks) (last_end toks) vs)
with der_sym : forall s : sym, list item -> sym_type s -> Prop :=
| der_One : forall a toks v, der_atom a toks v -> der_sym (One a) toks v
| der_None : forall a, der_sym (Opt a) [] None
| der_Some : forall a toks v, der_atom a toks v -> der_sym (Opt a) toks (Some v)
| der_Star : forall a toks vs, der_list a toks vs -> der_sym (Star a) toks vs
| der_Plus : forall a toks vs, der_list a toks vs -> vs <> [] -> der_sym (Plus a) toks vs
with der_list : forall a : atom, list item -> list (atom_type a) -> Prop :=
| der_nil : forall a, der_list a [] []
| der_cons : forall a toks1 v toks2 vs,
    der_atom a toks1 v -> der_list a toks2 vs -> der_list a (toks1 ++ toks2) (v :: vs)
with der_rhs : forall l : list sym, list item -> tuple l -> Prop :=
| der_rhs_nil : der_rhs [] [] tt
| der_rhs_cons : forall s l toks1 v toks2 vs,
    der_sym s toks1 v -> der_rhs l toks2 vs -> der_rhs (s :: l) (toks1 ++ toks2) (v, vs).

(** "[toks] derives the non terminal [A] with value [v]." *)
Definition derives (A : nt) (toks : list item) (v : nt_type A) : Prop := der_atom (Nt A) toks v.
