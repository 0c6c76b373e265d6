(** Specification for the parser properties that talk about source text: how an
    AST is written down as tokens, and which ASTs can be written down at all.
    Nothing here refers to the productions of parser.lalrpop. *)
From Verif Require Import Chars Lexer Ast Grammar.

(** A piece of source: a token; tokens that may also be left out; or the part
    of an address type between [with] and its fields. *)
Inductive piece :=
| P (t : token)
| Maybe (l : list token)
| AddressKind (s : str).

(** The kind of an address type as tokens: [ByStr20 with end] (kind ""),
    [with contract .. end], [with library end], [with _codehash end]. *)
Inductive kind_tokens (s : str) : list token -> Prop :=
| kt_none : s = lit "" -> kind_tokens s []
| kt_contract : s = lit "contract" -> kind_tokens s [TContract]
| kt_library : s = lit "library" -> kind_tokens s [TLibrary]
| kt_special : kind_tokens s [TSpecialIdentifier s].

Inductive matches : list piece -> list token -> Prop :=
| mt_nil : matches [] []
| mt_token t ps toks : matches ps toks -> matches (P t :: ps) (t :: toks)
| mt_skip l ps toks : matches ps toks -> matches (Maybe l :: ps) toks
| mt_take l ps toks : matches ps toks -> matches (Maybe l :: ps) (l ++ toks)
| mt_kind s k ps toks : kind_tokens s k -> matches ps toks -> matches (AddressKind s :: ps) (k ++ toks).

(** The shortest way to write the pieces. *)
Definition canonical_kind (s : str) : list token :=
  if str_eqb s (lit "") then []
  else if str_eqb s (lit "contract") then [TContract]
  else if str_eqb s (lit "library") then [TLibrary]
  else [TSpecialIdentifier s].
Definition canonical (ps : list piece) : list token :=
  flat_map (fun p => match p with P t => [t] | Maybe _ => [] | AddressKind s => canonical_kind s end) ps.

Definition sep (c : token) (l : list (list piece)) : list piece :=
  match l with [] => [] | x :: r => x ++ flat_map (fun y => P c :: y) r end.
Definition opt {A} (f : A -> list piece) (o : option A) : list piece :=
  match o with Some a => f a | None => [] end.

(** ** Writing an AST *)
Definition w_id (s : wm str) : list piece := [P (TIdentifier (node s))].
Definition w_special (s : wm str) : list piece := [P (TSpecialIdentifier (node s))].
Definition w_template (s : wm str) : list piece := [P (TTemplateIdentifier (node s))].
Definition w_hex (s : wm str) : list piece := [P (THexNumber (node s))].
Definition w_number (s : wm str) : list piece := [P (TNumber (node s))].
Definition w_string (s : wm str) : list piece := [P (TStringLiteral (node s))].
Definition w_custom (s : wm str) : list piece := [P (TCustomIdentifier (node s))].

Definition w_bystr (b : NodeByteStr) : list piece :=
  match b with BSConstant s | BSType s => [P (TByStrWithSize (node s))] end.
Definition w_tni (n : NodeTypeNameIdentifier) : list piece :=
  match n with
  | ByteStringType b => w_bystr b
  | EventType => [P TEventType]
  | TypeOrEnumLikeIdentifier s => w_custom s
  end.
Definition w_imported (n : NodeImportedName) : list piece :=
  match n with
  | RegularImport n => w_tni (node n)
  | AliasedImport n a => w_tni (node n) ++ P TAs :: w_tni (node a)
  end.
(** [import A B import C]: the names after the first may repeat the keyword. *)
Definition w_imports (n : NodeImportDeclarations) : list piece :=
  match n with
  | mkImportDeclarations [] => []
  | mkImportDeclarations (x :: r) =>
      P TImport :: w_imported (node x) ++ flat_map (fun y => Maybe [TImport] :: w_imported (node y)) r
  end.
Definition w_meta (m : NodeMetaIdentifier) : list piece :=
  match m with
  | MetaName n => w_tni (node n)
  | MetaNameInNamespace a b => w_tni (node a) ++ P TDot :: w_tni (node b)
  | MetaNameInHexspace h n => w_hex h ++ P TDot :: w_tni (node n)
  | MetaByteString => [P TByStr]
  end.
Definition w_var (v : NodeVariableIdentifier) : list piece :=
  match v with
  | VariableName s => w_id s
  | VISpecialIdentifier s => w_special s
  | VariableInNamespace n s => w_tni (node n) ++ P TDot :: w_id s
  end.
Definition w_vars (l : list (wm NodeVariableIdentifier)) : list piece := flat_map (fun v => w_var (node v)) l.
(** [builtin f ()], and the optional [()] before arguments. *)
Definition w_bargs (b : NodeBuiltinArguments) : list piece :=
  match b with
  | mkBuiltinArguments [] => [P TOpenParen; P TCloseParen]
  | mkBuiltinArguments l => Maybe [TOpenParen; TCloseParen] :: w_vars l
  end.

Fixpoint w_key (k : NodeTypeMapKey) : list piece :=
  match k with
  | GenericMapKey m => w_meta (node m)
  | EnclosedGenericId m => P TOpenParen :: w_meta (node m) ++ [P TCloseParen]
  | EnclosedAddressMapKeyType a => P TOpenParen :: w_addr (node a) ++ [P TCloseParen]
  | AddressMapKeyType a => w_addr (node a)
  end
with w_value (x : NodeTypeMapValue) : list piece :=
  match x with
  | MapValueTypeOrEnumLikeIdentifier m => w_meta (node m)
  | MapKeyValue e => P TMap :: w_entry (node e)
  | MapValueParenthesizedType t => P TOpenParen :: w_tva (node t) ++ [P TCloseParen]
  | MapValueAddressType a => w_addr (node a)
  end
with w_arg (x : NodeTypeArgument) : list piece :=
  match x with
  | EnclosedTypeArgument t => P TOpenParen :: w_type (node t) ++ [P TCloseParen]
  | GenericTypeArgument m => w_meta (node m)
  | TemplateTypeArgument s => w_template s
  | AddressTypeArgument a => w_addr (node a)
  | MapTypeArgument k v => P TMap :: w_key (node k) ++ w_value (node v)
  end
with w_type (t : NodeScillaType) : list piece :=
  match t with
  | GenericTypeWithArgs m args => w_meta (node m) ++ flat_map (fun a => w_arg (node a)) args
  | MapType k v => P TMap :: w_key (node k) ++ w_value (node v)
  | FunctionType a b => w_type (node a) ++ P TArrow :: w_type (node b)
  | EnclosedType t => P TOpenParen :: w_type (node t) ++ [P TCloseParen]
  | ScillaAddresseType a => w_addr (node a)
  | PolyFunctionType v t => P TForall :: w_template v ++ P TDot :: w_type (node t)
  | TypeVarType v => w_template v
  end
with w_entry (e : NodeTypeMapEntry) : list piece :=
  match e with mkTypeMapEntry k v => w_key (node k) ++ w_value (node v) end
with w_afield (f : NodeAddressTypeField) : list piece :=
  match f with mkAddressTypeField i t => P TField :: w_var (node i) ++ P TColon :: w_type (node t) end
with w_addr (a : NodeAddressType) : list piece :=
  match a with
  | mkAddressType i tn fs =>
      w_tni (node i) ++ P TWith :: AddressKind (node tn) :: sep TComma (map (fun f => w_afield (node f)) fs) ++ [P TEnd]
  end
with w_tvarg (x : NodeTypeMapValueArguments) : list piece :=
  match x with
  | EnclosedTypeMapValue t => P TOpenParen :: w_tva (node t) ++ [P TCloseParen]
  | GenericMapValueArgument m => w_meta (node m)
  | MapKeyValueType k v => P TMap :: w_key (node k) ++ w_value (node v)
  end
with w_tva (x : NodeTypeMapValueAllowingTypeArguments) : list piece :=
  match x with
  | TypeMapValueNoArgs t => w_value (node t)
  | TypeMapValueWithArgs m args => w_meta (node m) ++ flat_map (fun a => w_tvarg (node a)) args
  end.

Definition w_annot (a : NodeTypeAnnotation) : list piece :=
  match a with mkTypeAnnotation t => P TColon :: w_type (node t) end.
Definition w_ctargs (a : NodeContractTypeArguments) : list piece :=
  match a with
  | mkContractTypeArguments l => P TOpenBrace :: flat_map (fun a => w_arg (node a)) l ++ [P TCloseBrace]
  end.
Definition w_lit (v : NodeValueLiteral) : list piece :=
  match v with
  | LiteralInt n v => w_tni (node n) ++ w_number v
  | LiteralHex s => w_hex s
  | LiteralString s => w_string s
  | LiteralEmptyMap k v => P TEmp :: w_key (node k) ++ w_value (node v)
  end.
Definition w_atomic (a : NodeAtomicExpression) : list piece :=
  match a with AtomicSid v => w_var (node v) | AtomicLit v => w_lit (node v) end.
Definition w_msg (m : NodeMessageEntry) : list piece :=
  match m with
  | MessageLiteral i v => w_var (node i) ++ P TColon :: w_lit (node v)
  | MessageVariable i v => w_var (node i) ++ P TColon :: w_var (node v)
  end.
Definition w_access (m : NodeMapAccess) : list piece :=
  match m with mkMapAccess i => P TOpenBracket :: w_var (node i) ++ [P TCloseBracket] end.
Definition w_accesses (l : list (wm NodeMapAccess)) : list piece := flat_map (fun m => w_access (node m)) l.
Fixpoint w_pattern (p : NodePattern) : list piece :=
  match p with
  | Wildcard => [P TUnderscore]
  | Binder s => w_id s
  | PatConstructor m args => w_meta (node m) ++ flat_map (fun a => w_argpattern (node a)) args
  end
with w_argpattern (p : NodeArgumentPattern) : list piece :=
  match p with
  | WildcardArgument => [P TUnderscore]
  | BinderArgument s => w_id s
  | ConstructorArgument m => w_meta (node m)
  | PatternArgument p => P TOpenParen :: w_pattern (node p) ++ [P TCloseParen]
  end.
Fixpoint w_expr (e : NodeFullExpression) : list piece :=
  match e with
  | LocalVariableDeclaration i x a c =>
      P TLet :: w_id i ++ opt (fun a => w_annot (node a)) a ++ P TEquals :: w_expr (node x)
      ++ P TIn :: w_expr (node c)
  | FunctionDeclaration i a x =>
      P TFun :: P TOpenParen :: w_id i ++ w_annot (node a) ++ P TCloseParen :: P TDoubleArrow :: w_expr (node x)
  | FunctionCall f l => w_var (node f) ++ w_vars l
  | ExpressionAtomic a => w_atomic (node a)
  | ExpressionBuiltin b t x => P TBuiltin :: w_id b ++ opt (fun t => w_ctargs (node t)) t ++ w_bargs (node x)
  | Message l => P TOpenBrace :: sep TSemicolon (map (fun m => w_msg (node m)) l) ++ [P TCloseBrace]
  | EMatch v c => P TMatch :: w_var (node v) ++ P TWith :: flat_map (fun c => w_eclause (node c)) c ++ [P TEnd]
  | ConstructorCall m t l => w_meta (node m) ++ opt (fun t => w_ctargs (node t)) t ++ w_vars l
  | TemplateFunction i x => P TTfun :: w_template i ++ P TDoubleArrow :: w_expr (node x)
  | TApp i l => P TAt :: w_var (node i) ++ flat_map (fun a => w_arg (node a)) l
  end
with w_eclause (c : NodePatternMatchExpressionClause) : list piece :=
  match c with
  | mkPatternMatchExpressionClause p e => P TPipe :: w_pattern (node p) ++ P TDoubleArrow :: w_expr (node e)
  end.
Definition w_bfa (a : NodeBlockchainFetchArguments) : list piece :=
  match a with mkBlockchainFetchArguments l => P TOpenParen :: w_vars l ++ [P TCloseParen] end.
Definition w_cid (c : NodeComponentId) : list piece :=
  match c with WithTypeLikeName n => w_tni (node n) | WithRegularId s => w_id s end.
Definition w_remote (r : NodeRemoteFetchStatement) : list piece :=
  match r with
  | ReadStateMutable l a r => w_id l ++ P TLeftArrow :: P TAmpersand :: w_id a ++ P TDot :: w_var (node r)
  | ReadStateMutableSpecialId l a r =>
      w_id l ++ P TLeftArrow :: P TAmpersand :: w_special a ++ P TDot :: w_special r
  | ReadStateMutableMapAccess l a m k =>
      w_id l ++ P TLeftArrow :: P TAmpersand :: w_id a ++ P TDot :: w_id m ++ w_accesses k
  | ReadStateMutableMapAccessExists l a m k =>
      w_id l ++ P TLeftArrow :: P TAmpersand :: P TExists :: w_id a ++ P TDot :: w_id m ++ w_accesses k
  | ReadStateMutableCastAddress l a t =>
      w_id l ++ P TLeftArrow :: P TAmpersand :: w_var (node a) ++ P TAs :: w_addr (node t)
  end.
Fixpoint w_stmt (s : NodeStatement) : list piece :=
  match s with
  | Load l r => w_id l ++ P TLeftArrow :: w_var (node r)
  | RemoteFetch r => w_remote r
  | Store l r => w_id l ++ P TColonEquals :: w_var (node r)
  | Bind l r => w_id l ++ P TEquals :: w_expr (node r)
  | ReadFromBC l t a => w_id l ++ P TLeftArrow :: P TAmpersand :: w_tni (node t) ++ opt w_bfa a
  | MapGet l k r => w_id l ++ P TLeftArrow :: w_id r ++ w_accesses k
  | MapGetExists l k r => w_id l ++ P TLeftArrow :: P TExists :: w_id r ++ w_accesses k
  | MapUpdate l k r => w_id l ++ w_accesses k ++ P TColonEquals :: w_var (node r)
  | MapUpdateDelete l k => P TDelete :: w_id l ++ w_accesses k
  | Accept => [P TAccept]
  | Send i => P TSend :: w_var (node i)
  | CreateEvnt i => P TEvent :: w_var (node i)
  | Throw v => P TThrow :: opt (fun v => w_var (node v)) v
  | MatchStmt v c => P TMatch :: w_var (node v) ++ P TWith :: flat_map (fun c => w_sclause (node c)) c ++ [P TEnd]
  | CallProc c l => w_cid (node c) ++ w_vars l
  | Iterate i c => P TForall :: w_var (node i) ++ w_cid (node c)
  end
with w_sclause (c : NodePatternMatchClause) : list piece :=
  match c with
  | mkPatternMatchClause p b =>
      P TPipe :: w_pattern (node p) ++ P TDoubleArrow :: opt (fun b => w_block (node b)) b
  end
with w_block (b : NodeStatementBlock) : list piece :=
  match b with mkStatementBlock l => sep TSemicolon (map w_stmt l) end.

Definition w_typed (t : NodeTypedIdentifier) : list piece :=
  match t with mkTypedIdentifier n a => w_id n ++ w_annot (node a) end.
Definition w_pair (p : NodeParameterPair) : list piece :=
  match p with mkParameterPair t => w_typed (node t) end.
(** The first parameter may be preceded by a comma. *)
Definition w_params (p : NodeComponentParameters) : list piece :=
  match p with
  | mkComponentParameters [] => [P TOpenParen; P TCloseParen]
  | mkComponentParameters l =>
      P TOpenParen :: Maybe [TComma] :: sep TComma (map (fun p => w_pair (node p)) l) ++ [P TCloseParen]
  end.
Definition w_body (b : NodeComponentBody) : list piece :=
  match b with mkComponentBody o => opt (fun b => w_block (node b)) o ++ [P TEnd] end.
Definition w_alt (c : NodeTypeAlternativeClause) : list piece :=
  match c with
  | ClauseType n => P TPipe :: w_tni (node n)
  | ClauseTypeWithArgs n l => P TPipe :: w_tni (node n) ++ P TOf :: flat_map (fun a => w_arg (node a)) l
  end.
Definition w_libdef (d : NodeLibrarySingleDefinition) : list piece :=
  match d with
  | LetDefinition v t e => P TLet :: w_id v ++ opt (fun a => w_annot (node a)) t ++ P TEquals :: w_expr (node e)
  | TypeDefinition n c =>
      P TType :: w_tni (node n) ++ opt (fun l => P TEquals :: flat_map (fun c => w_alt (node c)) l) c
  end.
Definition w_lib (l : NodeLibraryDefinition) : list piece :=
  match l with
  | mkLibraryDefinition n d => P TLibrary :: w_tni (node n) ++ flat_map (fun d => w_libdef (node d)) d
  end.
Definition w_cfield (f : NodeContractField) : list piece :=
  match f with mkContractField t e => P TField :: w_typed (node t) ++ P TEquals :: w_expr (node e) end.
Definition w_with (w : NodeWithConstraint) : list piece :=
  match w with mkWithConstraint e => P TWith :: w_expr (node e) ++ [P TDoubleArrow] end.
Definition w_proc (p : NodeProcedureDefinition) : list piece :=
  match p with
  | mkProcedureDefinition n ps b => P TProcedure :: w_cid (node n) ++ w_params (node ps) ++ w_body (node b)
  end.
Definition w_trans (p : NodeTransitionDefinition) : list piece :=
  match p with
  | mkTransitionDefinition n ps b => P TTransition :: w_cid (node n) ++ w_params (node ps) ++ w_body (node b)
  end.
Definition w_comp (c : NodeComponentDefinition) : list piece :=
  match c with TransitionComponent t => w_trans (node t) | ProcedureComponent p => w_proc (node p) end.
Definition w_contract (c : NodeContractDefinition) : list piece :=
  match c with
  | mkContractDefinition n ps w fs cs =>
      P TContract :: w_tni (node n) ++ w_params (node ps) ++ opt (fun w => w_with (node w)) w
      ++ flat_map (fun f => w_cfield (node f)) fs ++ flat_map (fun c => w_comp (node c)) cs
  end.
Definition w_program (p : NodeProgram) : list piece :=
  match p with
  | mkProgram v i l c =>
      P TScillaVersion :: w_number v ++ opt (fun i => w_imports (node i)) i ++ opt (fun l => w_lib (node l)) l
      ++ w_contract (node c)
  end.

(** The value of any non terminal, written down. *)
Definition write (A : nt) : nt_type A -> list piece :=
  match A return nt_type A -> list piece with
  | ByteString => w_bystr
  | TypeNameIdentifier => fun w => w_tni (node w)
  | ImportedName => fun w => w_imported (node w)
  | ImportDeclarations => fun w => w_imports (node w)
  | MetaIdentifier => fun w => w_meta (node w)
  | VariableIdentifier => fun w => w_var (node w)
  | BuiltinArguments => fun w => w_bargs (node w)
  | RemainingTypes | FunctionSignature | ScillaType => fun w => w_type (node w)
  | TypeArgument => fun w => w_arg (node w)
  | AddressType => fun w => w_addr (node w)
  | AddressTypeFieldList => fun l => sep TComma (map (fun f => w_afield (node f)) l)
  | NextAddressTypeField => fun w => P TComma :: w_afield (node w)
  | AddressTypeField => fun w => w_afield (node w)
  | TypeMapKey => fun w => w_key (node w)
  | TypeMapValue => fun w => w_value (node w)
  | TypeMapValueArguments => fun w => w_tvarg (node w)
  | Program => w_program
  | LibraryDefinition => fun w => w_lib (node w)
  | LibrarySingleDefinition => fun w => w_libdef (node w)
  | TypedIdentifier => fun w => w_typed (node w)
  | TypeAnnotation => fun w => w_annot (node w)
  | TypeAlternativeClause => fun w => w_alt (node w)
  | TypeMapValueAllowingTypeArguments => fun w => w_tva (node w)
  | ContractTypeArguments => fun w => w_ctargs (node w)
  | FullExpression => fun w => w_expr (node w)
  | PatternMatchExpressionClause => fun w => w_eclause (node w)
  | Pattern => fun w => w_pattern (node w)
  | ArgumentPattern => fun w => w_argpattern (node w)
  | NextMessageEntry => fun w => P TSemicolon :: w_msg (node w)
  | MessageEntry => fun w => w_msg (node w)
  | AtomicExpression => fun w => w_atomic (node w)
  | ValueLiteral => fun w => w_lit (node w)
  | Statement => w_stmt
  | NextStatement => fun s => P TSemicolon :: w_stmt s
  | StatementBlock => fun w => w_block (node w)
  | BlockchainFetchArguments => w_bfa
  | ComponentId => fun w => w_cid (node w)
  | PatternMatchClause => fun w => w_sclause (node w)
  | RemoteFetchStatement => w_remote
  | MapAccess => fun w => w_access (node w)
  | ParameterPair => fun w => w_pair (node w)
  | NextParameterPair => fun w => P TComma :: w_pair (node w)
  | ComponentParameters => fun w => w_params (node w)
  | ComponentDefinition => fun w => w_comp (node w)
  | TransitionDefinition => fun w => w_trans (node w)
  | ProcedureDefinition => fun w => w_proc (node w)
  | ComponentBody => fun w => w_body (node w)
  | ContractDefinition => fun w => w_contract (node w)
  | ContractField => fun w => w_cfield (node w)
  | WithConstraint => fun w => w_with (node w)
  | HexNumber => w_hex
  | SignedInteger => w_number
  | RegularId => w_id
  | SpecialId => w_special
  | TypeOrEnumLikeIdentifierId => w_custom
  | TemplateTypeId => w_template
  | StringLiteral => w_string
  end.

(** ** The ASTs that can be written down *)

(** Lists that have no empty form in the source are not empty; the left side of
    an arrow and the body of a [forall] are no arrows themselves; byte-string
    constants do not occur as type names; only [with contract] has fields. *)
Definition some {A} (l : list A) : bool := match l with [] => false | _ => true end.
Definition all {A} (f : A -> bool) (l : list (wm A)) : bool := forallb (fun w => f (node w)) l.
Definition maybe {A} (f : A -> bool) (o : option A) : bool := match o with Some a => f a | None => true end.
Definition is_arrow (t : NodeScillaType) : bool := match t with FunctionType _ _ => true | _ => false end.

Definition k_bystr (b : NodeByteStr) : bool := match b with BSConstant _ => false | BSType _ => true end.
Definition k_tni (n : NodeTypeNameIdentifier) : bool :=
  match n with ByteStringType b => k_bystr b | _ => true end.
Definition k_imported (n : NodeImportedName) : bool :=
  match n with RegularImport n => k_tni (node n) | AliasedImport n a => k_tni (node n) && k_tni (node a) end.
Definition k_imports (n : NodeImportDeclarations) : bool :=
  match n with mkImportDeclarations l => some l && all k_imported l end.
Definition k_meta (m : NodeMetaIdentifier) : bool :=
  match m with
  | MetaName n => k_tni (node n)
  | MetaNameInNamespace a b => k_tni (node a) && k_tni (node b)
  | MetaNameInHexspace h n => k_tni (node n)
  | MetaByteString => true
  end.
Definition k_var (v : NodeVariableIdentifier) : bool :=
  match v with VariableInNamespace n _ => k_tni (node n) | _ => true end.
Definition k_bargs (b : NodeBuiltinArguments) : bool :=
  match b with mkBuiltinArguments l => all k_var l end.
Fixpoint k_key (k : NodeTypeMapKey) : bool :=
  match k with
  | GenericMapKey m | EnclosedGenericId m => k_meta (node m)
  | EnclosedAddressMapKeyType a | AddressMapKeyType a => k_addr (node a)
  end
with k_value (x : NodeTypeMapValue) : bool :=
  match x with
  | MapValueTypeOrEnumLikeIdentifier m => k_meta (node m)
  | MapKeyValue e => k_entry (node e)
  | MapValueParenthesizedType t => k_tva (node t)
  | MapValueAddressType a => k_addr (node a)
  end
with k_arg (x : NodeTypeArgument) : bool :=
  match x with
  | EnclosedTypeArgument t => k_type (node t)
  | GenericTypeArgument m => k_meta (node m)
  | TemplateTypeArgument s => true
  | AddressTypeArgument a => k_addr (node a)
  | MapTypeArgument k v => k_key (node k) && k_value (node v)
  end
with k_type (t : NodeScillaType) : bool :=
  match t with
  | GenericTypeWithArgs m args => k_meta (node m) && forallb (fun a => k_arg (node a)) args
  | MapType k v => k_key (node k) && k_value (node v)
  | FunctionType a b => k_type (node a) && negb (is_arrow (node a)) && k_type (node b)
  | EnclosedType t => k_type (node t)
  | ScillaAddresseType a => k_addr (node a)
  | PolyFunctionType v t => k_type (node t) && negb (is_arrow (node t))
  | TypeVarType v => true
  end
with k_entry (e : NodeTypeMapEntry) : bool :=
  match e with mkTypeMapEntry k v => k_key (node k) && k_value (node v) end
with k_afield (f : NodeAddressTypeField) : bool :=
  match f with mkAddressTypeField i t => k_var (node i) && k_type (node t) end
with k_addr (a : NodeAddressType) : bool :=
  match a with
  | mkAddressType i tn fs =>
      k_tni (node i) && (negb (some fs) || str_eqb (node tn) (lit "contract"))
      && forallb (fun f => k_afield (node f)) fs
  end
with k_tvarg (x : NodeTypeMapValueArguments) : bool :=
  match x with
  | EnclosedTypeMapValue t => k_tva (node t)
  | GenericMapValueArgument m => k_meta (node m)
  | MapKeyValueType k v => k_key (node k) && k_value (node v)
  end
with k_tva (x : NodeTypeMapValueAllowingTypeArguments) : bool :=
  match x with
  | TypeMapValueNoArgs t => k_value (node t)
  | TypeMapValueWithArgs m args => k_meta (node m) && some args && forallb (fun a => k_tvarg (node a)) args
  end.
Definition k_annot (a : NodeTypeAnnotation) : bool := match a with mkTypeAnnotation t => k_type (node t) end.
Definition k_ctargs (a : NodeContractTypeArguments) : bool :=
  match a with mkContractTypeArguments l => all k_arg l end.
Definition k_lit (v : NodeValueLiteral) : bool :=
  match v with
  | LiteralInt n v => k_tni (node n)
  | LiteralEmptyMap k v => k_key (node k) && k_value (node v)
  | _ => true
  end.
Definition k_atomic (a : NodeAtomicExpression) : bool :=
  match a with AtomicSid v => k_var (node v) | AtomicLit v => k_lit (node v) end.
Definition k_msg (m : NodeMessageEntry) : bool :=
  match m with
  | MessageLiteral i v => k_var (node i) && k_lit (node v)
  | MessageVariable i v => k_var (node i) && k_var (node v)
  end.
Definition k_access (m : NodeMapAccess) : bool := match m with mkMapAccess i => k_var (node i) end.
Fixpoint k_pattern (p : NodePattern) : bool :=
  match p with
  | PatConstructor m args => k_meta (node m) && forallb (fun a => k_argpattern (node a)) args
  | _ => true
  end
with k_argpattern (p : NodeArgumentPattern) : bool :=
  match p with
  | ConstructorArgument m => k_meta (node m)
  | PatternArgument p => k_pattern (node p)
  | _ => true
  end.
Definition k_wm {A} (f : A -> bool) (w : wm A) : bool := f (node w).
Fixpoint k_expr (e : NodeFullExpression) : bool :=
  match e with
  | LocalVariableDeclaration i x a c => k_expr (node x) && maybe (k_wm k_annot) a && k_expr (node c)
  | FunctionDeclaration i a x => k_annot (node a) && k_expr (node x)
  | FunctionCall f l => k_var (node f) && some l && all k_var l
  | ExpressionAtomic a => k_atomic (node a)
  | ExpressionBuiltin b t x => maybe (k_wm k_ctargs) t && k_bargs (node x)
  | Message l => some l && all k_msg l
  | EMatch v c => k_var (node v) && some c && forallb (fun c => k_eclause (node c)) c
  | ConstructorCall m t l => k_meta (node m) && maybe (k_wm k_ctargs) t && all k_var l
  | TemplateFunction i x => k_expr (node x)
  | TApp i l => k_var (node i) && some l && all k_arg l
  end
with k_eclause (c : NodePatternMatchExpressionClause) : bool :=
  match c with mkPatternMatchExpressionClause p e => k_pattern (node p) && k_expr (node e) end.
Definition k_bfa (a : NodeBlockchainFetchArguments) : bool :=
  match a with mkBlockchainFetchArguments l => some l && all k_var l end.
Definition k_cid (c : NodeComponentId) : bool :=
  match c with WithTypeLikeName n => k_tni (node n) | WithRegularId s => true end.
Definition k_remote (r : NodeRemoteFetchStatement) : bool :=
  match r with
  | ReadStateMutable l a r => k_var (node r)
  | ReadStateMutableSpecialId l a r => true
  | ReadStateMutableMapAccess l a m k | ReadStateMutableMapAccessExists l a m k => some k && all k_access k
  | ReadStateMutableCastAddress l a t => k_var (node a) && k_addr (node t)
  end.
Fixpoint k_stmt (s : NodeStatement) : bool :=
  match s with
  | Load l r | Store l r => k_var (node r)
  | RemoteFetch r => k_remote r
  | Bind l r => k_expr (node r)
  | ReadFromBC l t a => k_tni (node t) && maybe k_bfa a
  | MapGet l k r | MapGetExists l k r => some k && all k_access k
  | MapUpdate l k r => some k && all k_access k && k_var (node r)
  | MapUpdateDelete l k => some k && all k_access k
  | Accept => true
  | Send i | CreateEvnt i => k_var (node i)
  | Throw v => maybe (k_wm k_var) v
  | MatchStmt v c => k_var (node v) && some c && forallb (fun c => k_sclause (node c)) c
  | CallProc c l => k_cid (node c) && all k_var l
  | Iterate i c => k_var (node i) && k_cid (node c)
  end
with k_sclause (c : NodePatternMatchClause) : bool :=
  match c with
  | mkPatternMatchClause p b => k_pattern (node p) && maybe (fun b => k_block (node b)) b
  end
with k_block (b : NodeStatementBlock) : bool :=
  match b with mkStatementBlock l => some l && forallb k_stmt l end.
Definition k_typed (t : NodeTypedIdentifier) : bool :=
  match t with mkTypedIdentifier n a => k_annot (node a) end.
Definition k_pair (p : NodeParameterPair) : bool := match p with mkParameterPair t => k_typed (node t) end.
Definition k_params (p : NodeComponentParameters) : bool :=
  match p with mkComponentParameters l => all k_pair l end.
Definition k_body (b : NodeComponentBody) : bool :=
  match b with mkComponentBody o => maybe (k_wm k_block) o end.
Definition k_alt (c : NodeTypeAlternativeClause) : bool :=
  match c with
  | ClauseType n => k_tni (node n)
  | ClauseTypeWithArgs n l => k_tni (node n) && some l && all k_arg l
  end.
Definition k_libdef (d : NodeLibrarySingleDefinition) : bool :=
  match d with
  | LetDefinition v t e => maybe (k_wm k_annot) t && k_expr (node e)
  | TypeDefinition n c => k_tni (node n) && maybe (fun l => some l && all k_alt l) c
  end.
Definition k_lib (l : NodeLibraryDefinition) : bool :=
  match l with mkLibraryDefinition n d => k_tni (node n) && all k_libdef d end.
Definition k_cfield (f : NodeContractField) : bool :=
  match f with mkContractField t e => k_typed (node t) && k_expr (node e) end.
Definition k_with (w : NodeWithConstraint) : bool := match w with mkWithConstraint e => k_expr (node e) end.
Definition k_proc (p : NodeProcedureDefinition) : bool :=
  match p with mkProcedureDefinition n ps b => k_cid (node n) && k_params (node ps) && k_body (node b) end.
Definition k_trans (p : NodeTransitionDefinition) : bool :=
  match p with mkTransitionDefinition n ps b => k_cid (node n) && k_params (node ps) && k_body (node b) end.
Definition k_comp (c : NodeComponentDefinition) : bool :=
  match c with TransitionComponent t => k_trans (node t) | ProcedureComponent p => k_proc (node p) end.
Definition k_contract (c : NodeContractDefinition) : bool :=
  match c with
  | mkContractDefinition n ps w fs cs =>
      k_tni (node n) && k_params (node ps) && maybe (k_wm k_with) w && all k_cfield fs && all k_comp cs
  end.
Definition k_program (p : NodeProgram) : bool :=
  match p with
  | mkProgram v i l c => maybe (k_wm k_imports) i && maybe (k_wm k_lib) l && k_contract (node c)
  end.

Definition writable (A : nt) : nt_type A -> bool :=
  match A return nt_type A -> bool with
  | ByteString => k_bystr
  | TypeNameIdentifier => k_wm k_tni
  | ImportedName => k_wm k_imported
  | ImportDeclarations => k_wm k_imports
  | MetaIdentifier => k_wm k_meta
  | VariableIdentifier => k_wm k_var
  | BuiltinArguments => k_wm k_bargs
  | RemainingTypes => fun w => k_type (node w) && negb (is_arrow (node w))
  | FunctionSignature => fun w => k_type (node w) && is_arrow (node w)
  | ScillaType => k_wm k_type
  | TypeArgument => k_wm k_arg
  | AddressType => k_wm k_addr
  | AddressTypeFieldList => fun l => some l && all k_afield l
  | NextAddressTypeField | AddressTypeField => k_wm k_afield
  | TypeMapKey => k_wm k_key
  | TypeMapValue => k_wm k_value
  | TypeMapValueArguments => k_wm k_tvarg
  | Program => k_program
  | LibraryDefinition => k_wm k_lib
  | LibrarySingleDefinition => k_wm k_libdef
  | TypedIdentifier => k_wm k_typed
  | TypeAnnotation => k_wm k_annot
  | TypeAlternativeClause => k_wm k_alt
  | TypeMapValueAllowingTypeArguments => k_wm k_tva
  | ContractTypeArguments => k_wm k_ctargs
  | FullExpression => k_wm k_expr
  | PatternMatchExpressionClause => k_wm k_eclause
  | Pattern => k_wm k_pattern
  | ArgumentPattern => k_wm k_argpattern
  | NextMessageEntry | MessageEntry => k_wm k_msg
  | AtomicExpression => k_wm k_atomic
  | ValueLiteral => k_wm k_lit
  | Statement | NextStatement => k_stmt
  | StatementBlock => k_wm k_block
  | BlockchainFetchArguments => k_bfa
  | ComponentId => k_wm k_cid
  | PatternMatchClause => k_wm k_sclause
  | RemoteFetchStatement => k_remote
  | MapAccess => k_wm k_access
  | ParameterPair | NextParameterPair => k_wm k_pair
  | ComponentParameters => k_wm k_params
  | ComponentDefinition => k_wm k_comp
  | TransitionDefinition => k_wm k_trans
  | ProcedureDefinition => k_wm k_proc
  | ComponentBody => k_wm k_body
  | ContractDefinition => k_wm k_contract
  | ContractField => k_wm k_cfield
  | WithConstraint => k_wm k_with
  | HexNumber | SignedInteger | RegularId | SpecialId | TypeOrEnumLikeIdentifierId
  | TemplateTypeId | StringLiteral => fun _ => true
  end.
