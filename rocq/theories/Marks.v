(** The positions recorded in an AST, as a forest: one [Mark] per node with
    metadata, in source order, with the nodes below it inside.  Two kinds of
    metadata are left out and treated separately in PropSpans.v: that of the
    import list, and that of the words "", "contract" and "library" the parser
    makes up for address types. *)
From Verif Require Import Chars Lexer LexerProofs Ast Grammar.

(** [Mark s e phrase inner]: a node from [s] to [e]; [phrase toks] says that the
    tokens [toks] are a phrase of the grammar with this node as its value. *)
Inductive mark := Mark (s e : source_position) (phrase : list item -> Prop) (inner : list mark).
Definition loc {A} (ph : wm A -> list item -> Prop) (f : A -> list mark) (w : wm A) : list mark :=
  [Mark (wm_start w) (wm_end w) (ph w) (f (node w))].
Definition is (A : nt) (v : nt_type A) (toks : list item) : Prop := derives A toks v.
(** names and literals are single tokens *)
Definition is_token (w : wm str) (toks : list item) : Prop := exists i, toks = [i] /\ tok_str i = node w.
(** the entry inside the value type [Map k v] *)
Definition is_entry (w : wm NodeTypeMapEntry) (toks : list item) : Prop :=
  derives TypeMapValue toks (mkwm (MapKeyValue w) (wm_start w) (wm_end w)).
Definition opt {A} (f : A -> list mark) (o : option A) : list mark := match o with Some a => f a | None => [] end.
Notation m_str := (loc is_token (fun _ : str => [])).
Definition synthetic (kind : str) : bool :=
  str_eqb kind (lit "") || str_eqb kind (lit "contract") || str_eqb kind (lit "library").

Definition m_bystr (b : NodeByteStr) : list mark :=
  match b with BSConstant s => m_str s | BSType s => m_str s end.
Definition m_tni (n : NodeTypeNameIdentifier) : list mark :=
  match n with
  | ByteStringType b => m_bystr b
  | EventType => []
  | TypeOrEnumLikeIdentifier s => m_str s
  end.
Definition m_imported (n : NodeImportedName) : list mark :=
  match n with
  | RegularImport n => loc (is TypeNameIdentifier) m_tni n
  | AliasedImport n a => loc (is TypeNameIdentifier) m_tni n ++ loc (is TypeNameIdentifier) m_tni a
  end.
Definition m_imports (n : NodeImportDeclarations) : list mark :=
  match n with mkImportDeclarations l => flat_map (loc (is ImportedName) m_imported) l end.
Definition m_meta (m : NodeMetaIdentifier) : list mark :=
  match m with
  | MetaName n => loc (is TypeNameIdentifier) m_tni n
  | MetaNameInNamespace a b => loc (is TypeNameIdentifier) m_tni a ++ loc (is TypeNameIdentifier) m_tni b
  | MetaNameInHexspace h n => m_str h ++ loc (is TypeNameIdentifier) m_tni n
  | MetaByteString => []
  end.
Definition m_var (v : NodeVariableIdentifier) : list mark :=
  match v with
  | VariableName s => m_str s
  | VISpecialIdentifier s => m_str s
  | VariableInNamespace n s => loc (is TypeNameIdentifier) m_tni n ++ m_str s
  end.
Definition m_bargs (b : NodeBuiltinArguments) : list mark :=
  match b with mkBuiltinArguments l => flat_map (loc (is VariableIdentifier) m_var) l end.

Fixpoint m_key (k : NodeTypeMapKey) : list mark :=
  match k with
  | GenericMapKey m => loc (is MetaIdentifier) m_meta m
  | EnclosedGenericId m => loc (is MetaIdentifier) m_meta m
  | EnclosedAddressMapKeyType a => loc (is AddressType) m_addr a
  | AddressMapKeyType a => loc (is AddressType) m_addr a
  end
with m_value (x : NodeTypeMapValue) : list mark :=
  match x with
  | MapValueTypeOrEnumLikeIdentifier m => loc (is MetaIdentifier) m_meta m
  | MapKeyValue e => loc is_entry m_entry e
  | MapValueParenthesizedType t => loc (is TypeMapValueAllowingTypeArguments) m_tva t
  | MapValueAddressType a => loc (is AddressType) m_addr a
  end
with m_arg (x : NodeTypeArgument) : list mark :=
  match x with
  | EnclosedTypeArgument t => loc (is ScillaType) m_type t
  | GenericTypeArgument m => loc (is MetaIdentifier) m_meta m
  | TemplateTypeArgument s => m_str s
  | AddressTypeArgument a => loc (is AddressType) m_addr a
  | MapTypeArgument k v => loc (is TypeMapKey) m_key k ++ loc (is TypeMapValue) m_value v
  end
with m_type (t : NodeScillaType) : list mark :=
  match t with
  | GenericTypeWithArgs m args => loc (is MetaIdentifier) m_meta m ++ flat_map (loc (is TypeArgument) m_arg) args
  | MapType k v => loc (is TypeMapKey) m_key k ++ loc (is TypeMapValue) m_value v
  | FunctionType a b => loc (is ScillaType) m_type a ++ loc (is ScillaType) m_type b
  | EnclosedType t => loc (is ScillaType) m_type t
  | ScillaAddresseType a => loc (is AddressType) m_addr a
  | PolyFunctionType v t => m_str v ++ loc (is ScillaType) m_type t
  | TypeVarType v => m_str v
  end
with m_entry (e : NodeTypeMapEntry) : list mark :=
  match e with mkTypeMapEntry k v => loc (is TypeMapKey) m_key k ++ loc (is TypeMapValue) m_value v end
with m_afield (f : NodeAddressTypeField) : list mark :=
  match f with mkAddressTypeField i t => loc (is VariableIdentifier) m_var i ++ loc (is ScillaType) m_type t end
with m_addr (a : NodeAddressType) : list mark :=
  match a with
  | mkAddressType i tn fs => loc (is TypeNameIdentifier) m_tni i ++ (if synthetic (node tn) then [] else m_str tn) ++ flat_map (loc (is AddressTypeField) m_afield) fs
  end
with m_tvarg (x : NodeTypeMapValueArguments) : list mark :=
  match x with
  | EnclosedTypeMapValue t => loc (is TypeMapValueAllowingTypeArguments) m_tva t
  | GenericMapValueArgument m => loc (is MetaIdentifier) m_meta m
  | MapKeyValueType k v => loc (is TypeMapKey) m_key k ++ loc (is TypeMapValue) m_value v
  end
with m_tva (x : NodeTypeMapValueAllowingTypeArguments) : list mark :=
  match x with
  | TypeMapValueNoArgs t => loc (is TypeMapValue) m_value t
  | TypeMapValueWithArgs m args => loc (is MetaIdentifier) m_meta m ++ flat_map (loc (is TypeMapValueArguments) m_tvarg) args
  end.

Definition m_annot (a : NodeTypeAnnotation) : list mark :=
  match a with mkTypeAnnotation t => loc (is ScillaType) m_type t end.
Definition m_ctargs (a : NodeContractTypeArguments) : list mark :=
  match a with mkContractTypeArguments l => flat_map (loc (is TypeArgument) m_arg) l end.
Definition m_lit (v : NodeValueLiteral) : list mark :=
  match v with
  | LiteralInt n v => loc (is TypeNameIdentifier) m_tni n ++ m_str v
  | LiteralHex s => m_str s
  | LiteralString s => m_str s
  | LiteralEmptyMap k v => loc (is TypeMapKey) m_key k ++ loc (is TypeMapValue) m_value v
  end.
Definition m_atomic (a : NodeAtomicExpression) : list mark :=
  match a with AtomicSid v => loc (is VariableIdentifier) m_var v | AtomicLit v => loc (is ValueLiteral) m_lit v end.
Definition m_msg (m : NodeMessageEntry) : list mark :=
  match m with
  | MessageLiteral i v => loc (is VariableIdentifier) m_var i ++ loc (is ValueLiteral) m_lit v
  | MessageVariable i v => loc (is VariableIdentifier) m_var i ++ loc (is VariableIdentifier) m_var v
  end.
Definition m_access (m : NodeMapAccess) : list mark :=
  match m with mkMapAccess i => loc (is VariableIdentifier) m_var i end.
Fixpoint m_pattern (p : NodePattern) : list mark :=
  match p with
  | Wildcard => []
  | Binder s => m_str s
  | PatConstructor m args => loc (is MetaIdentifier) m_meta m ++ flat_map (loc (is ArgumentPattern) m_argpattern) args
  end
with m_argpattern (p : NodeArgumentPattern) : list mark :=
  match p with
  | WildcardArgument => []
  | BinderArgument s => m_str s
  | ConstructorArgument m => loc (is MetaIdentifier) m_meta m
  | PatternArgument p => loc (is Pattern) m_pattern p
  end.
Fixpoint m_expr (e : NodeFullExpression) : list mark :=
  match e with
  | LocalVariableDeclaration i x a c => m_str i ++ opt (loc (is TypeAnnotation) m_annot) a ++ loc (is FullExpression) m_expr x ++ loc (is FullExpression) m_expr c
  | FunctionDeclaration i a x => m_str i ++ loc (is TypeAnnotation) m_annot a ++ loc (is FullExpression) m_expr x
  | FunctionCall f l => loc (is VariableIdentifier) m_var f ++ flat_map (loc (is VariableIdentifier) m_var) l
  | ExpressionAtomic a => loc (is AtomicExpression) m_atomic a
  | ExpressionBuiltin b t x => m_str b ++ opt (loc (is ContractTypeArguments) m_ctargs) t ++ loc (is BuiltinArguments) m_bargs x
  | Message l => flat_map (loc (is MessageEntry) m_msg) l
  | EMatch v c => loc (is VariableIdentifier) m_var v ++ flat_map (loc (is PatternMatchExpressionClause) m_eclause) c
  | ConstructorCall m t l => loc (is MetaIdentifier) m_meta m ++ opt (loc (is ContractTypeArguments) m_ctargs) t ++ flat_map (loc (is VariableIdentifier) m_var) l
  | TemplateFunction i x => m_str i ++ loc (is FullExpression) m_expr x
  | TApp i l => loc (is VariableIdentifier) m_var i ++ flat_map (loc (is TypeArgument) m_arg) l
  end
with m_eclause (c : NodePatternMatchExpressionClause) : list mark :=
  match c with
  | mkPatternMatchExpressionClause p e => loc (is Pattern) m_pattern p ++ loc (is FullExpression) m_expr e
  end.
Definition m_bfa (a : NodeBlockchainFetchArguments) : list mark :=
  match a with mkBlockchainFetchArguments l => flat_map (loc (is VariableIdentifier) m_var) l end.
Definition m_cid (c : NodeComponentId) : list mark :=
  match c with
  | WithTypeLikeName n => loc (is TypeNameIdentifier) m_tni n
  | WithRegularId s => m_str s
  end.
Definition m_remote (r : NodeRemoteFetchStatement) : list mark :=
  match r with
  | ReadStateMutable l a r => m_str l ++ m_str a ++ loc (is VariableIdentifier) m_var r
  | ReadStateMutableSpecialId l a r => m_str l ++ m_str a ++ m_str r
  | ReadStateMutableMapAccess l a m k => m_str l ++ m_str a ++ m_str m ++ flat_map (loc (is MapAccess) m_access) k
  | ReadStateMutableMapAccessExists l a m k => m_str l ++ m_str a ++ m_str m ++ flat_map (loc (is MapAccess) m_access) k
  | ReadStateMutableCastAddress l a t => m_str l ++ loc (is VariableIdentifier) m_var a ++ loc (is AddressType) m_addr t
  end.
Fixpoint m_stmt (s : NodeStatement) : list mark :=
  match s with
  | Load l r => m_str l ++ loc (is VariableIdentifier) m_var r
  | RemoteFetch r => m_remote r
  | Store l r => m_str l ++ loc (is VariableIdentifier) m_var r
  | Bind l r => m_str l ++ loc (is FullExpression) m_expr r
  | ReadFromBC l t a => m_str l ++ loc (is TypeNameIdentifier) m_tni t ++ opt m_bfa a
  | MapGet l k r => m_str l ++ m_str r ++ flat_map (loc (is MapAccess) m_access) k
  | MapGetExists l k r => m_str l ++ m_str r ++ flat_map (loc (is MapAccess) m_access) k
  | MapUpdate l k r => m_str l ++ flat_map (loc (is MapAccess) m_access) k ++ loc (is VariableIdentifier) m_var r
  | MapUpdateDelete l k => m_str l ++ flat_map (loc (is MapAccess) m_access) k
  | Accept => []
  | Send i => loc (is VariableIdentifier) m_var i
  | CreateEvnt i => loc (is VariableIdentifier) m_var i
  | Throw v => opt (loc (is VariableIdentifier) m_var) v
  | MatchStmt v c => loc (is VariableIdentifier) m_var v ++ flat_map (loc (is PatternMatchClause) m_sclause) c
  | CallProc c l => loc (is ComponentId) m_cid c ++ flat_map (loc (is VariableIdentifier) m_var) l
  | Iterate i c => loc (is VariableIdentifier) m_var i ++ loc (is ComponentId) m_cid c
  end
with m_sclause (c : NodePatternMatchClause) : list mark :=
  match c with
  | mkPatternMatchClause p b => loc (is Pattern) m_pattern p ++ opt (loc (is StatementBlock) m_block) b
  end
with m_block (b : NodeStatementBlock) : list mark :=
  match b with mkStatementBlock l => flat_map m_stmt l end.

Definition m_typed (t : NodeTypedIdentifier) : list mark :=
  match t with mkTypedIdentifier n a => m_str n ++ loc (is TypeAnnotation) m_annot a end.
Definition m_pair (p : NodeParameterPair) : list mark :=
  match p with mkParameterPair t => loc (is TypedIdentifier) m_typed t end.
Definition m_params (p : NodeComponentParameters) : list mark :=
  match p with mkComponentParameters l => flat_map (loc (is ParameterPair) m_pair) l end.
Definition m_body (b : NodeComponentBody) : list mark :=
  match b with mkComponentBody o => opt (loc (is StatementBlock) m_block) o end.
Definition m_alt (c : NodeTypeAlternativeClause) : list mark :=
  match c with
  | ClauseType n => loc (is TypeNameIdentifier) m_tni n
  | ClauseTypeWithArgs n l => loc (is TypeNameIdentifier) m_tni n ++ flat_map (loc (is TypeArgument) m_arg) l
  end.
Definition m_libdef (d : NodeLibrarySingleDefinition) : list mark :=
  match d with
  | LetDefinition v t e => m_str v ++ opt (loc (is TypeAnnotation) m_annot) t ++ loc (is FullExpression) m_expr e
  | TypeDefinition n c => loc (is TypeNameIdentifier) m_tni n ++ opt (flat_map (loc (is TypeAlternativeClause) m_alt)) c
  end.
Definition m_lib (l : NodeLibraryDefinition) : list mark :=
  match l with mkLibraryDefinition n d => loc (is TypeNameIdentifier) m_tni n ++ flat_map (loc (is LibrarySingleDefinition) m_libdef) d end.
Definition m_cfield (f : NodeContractField) : list mark :=
  match f with mkContractField t e => loc (is TypedIdentifier) m_typed t ++ loc (is FullExpression) m_expr e end.
Definition m_with (w : NodeWithConstraint) : list mark :=
  match w with mkWithConstraint e => loc (is FullExpression) m_expr e end.
Definition m_proc (p : NodeProcedureDefinition) : list mark :=
  match p with
  | mkProcedureDefinition n ps b => loc (is ComponentId) m_cid n ++ loc (is ComponentParameters) m_params ps ++ loc (is ComponentBody) m_body b
  end.
Definition m_trans (p : NodeTransitionDefinition) : list mark :=
  match p with
  | mkTransitionDefinition n ps b => loc (is ComponentId) m_cid n ++ loc (is ComponentParameters) m_params ps ++ loc (is ComponentBody) m_body b
  end.
Definition m_comp (c : NodeComponentDefinition) : list mark :=
  match c with
  | TransitionComponent t => loc (is TransitionDefinition) m_trans t
  | ProcedureComponent p => loc (is ProcedureDefinition) m_proc p
  end.
Definition m_contract (c : NodeContractDefinition) : list mark :=
  match c with
  | mkContractDefinition n ps w fs cs => loc (is TypeNameIdentifier) m_tni n ++ loc (is ComponentParameters) m_params ps ++ opt (loc (is WithConstraint) m_with) w ++ flat_map (loc (is ContractField) m_cfield) fs ++ flat_map (loc (is ComponentDefinition) m_comp) cs
  end.
Definition m_program (p : NodeProgram) : list mark :=
  match p with
  | mkProgram v i l c => m_str v ++ opt (fun w => m_imports (node w)) i ++ opt (loc (is LibraryDefinition) m_lib) l ++ loc (is ContractDefinition) m_contract c
  end.

(** The positions in the value of any non terminal. *)
Definition marks (A : nt) : nt_type A -> list mark :=
  match A return nt_type A -> list mark with
  | ByteString => m_bystr
  | TypeNameIdentifier => loc (is TypeNameIdentifier) m_tni
  | ImportedName => loc (is ImportedName) m_imported
  | ImportDeclarations => fun w => m_imports (node w)
  | MetaIdentifier => loc (is MetaIdentifier) m_meta
  | VariableIdentifier => loc (is VariableIdentifier) m_var
  | BuiltinArguments => loc (is BuiltinArguments) m_bargs
  | RemainingTypes | FunctionSignature | ScillaType => loc (is ScillaType) m_type
  | TypeArgument => loc (is TypeArgument) m_arg
  | AddressType => loc (is AddressType) m_addr
  | AddressTypeFieldList => flat_map (loc (is AddressTypeField) m_afield)
  | NextAddressTypeField | AddressTypeField => loc (is AddressTypeField) m_afield
  | TypeMapKey => loc (is TypeMapKey) m_key
  | TypeMapValue => loc (is TypeMapValue) m_value
  | TypeMapValueArguments => loc (is TypeMapValueArguments) m_tvarg
  | Program => m_program
  | LibraryDefinition => loc (is LibraryDefinition) m_lib
  | LibrarySingleDefinition => loc (is LibrarySingleDefinition) m_libdef
  | TypedIdentifier => loc (is TypedIdentifier) m_typed
  | TypeAnnotation => loc (is TypeAnnotation) m_annot
  | TypeAlternativeClause => loc (is TypeAlternativeClause) m_alt
  | TypeMapValueAllowingTypeArguments => loc (is TypeMapValueAllowingTypeArguments) m_tva
  | ContractTypeArguments => loc (is ContractTypeArguments) m_ctargs
  | FullExpression => loc (is FullExpression) m_expr
  | PatternMatchExpressionClause => loc (is PatternMatchExpressionClause) m_eclause
  | Pattern => loc (is Pattern) m_pattern
  | ArgumentPattern => loc (is ArgumentPattern) m_argpattern
  | NextMessageEntry | MessageEntry => loc (is MessageEntry) m_msg
  | AtomicExpression => loc (is AtomicExpression) m_atomic
  | ValueLiteral => loc (is ValueLiteral) m_lit
  | Statement | NextStatement => m_stmt
  | StatementBlock => loc (is StatementBlock) m_block
  | BlockchainFetchArguments => m_bfa
  | ComponentId => loc (is ComponentId) m_cid
  | PatternMatchClause => loc (is PatternMatchClause) m_sclause
  | RemoteFetchStatement => m_remote
  | MapAccess => loc (is MapAccess) m_access
  | ParameterPair | NextParameterPair => loc (is ParameterPair) m_pair
  | ComponentParameters => loc (is ComponentParameters) m_params
  | ComponentDefinition => loc (is ComponentDefinition) m_comp
  | TransitionDefinition => loc (is TransitionDefinition) m_trans
  | ProcedureDefinition => loc (is ProcedureDefinition) m_proc
  | ComponentBody => loc (is ComponentBody) m_body
  | ContractDefinition => loc (is ContractDefinition) m_contract
  | ContractField => loc (is ContractField) m_cfield
  | WithConstraint => loc (is WithConstraint) m_with
  | HexNumber | SignedInteger | RegularId | SpecialId | TypeOrEnumLikeIdentifierId
  | TemplateTypeId | StringLiteral => m_str
  end.
