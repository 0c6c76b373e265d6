(** Erasing the positions of an AST: every [start]/[end] is replaced by the
    start position, everything else is kept.  Two ASTs are equal up to
    positions when their erasures are equal. *)
From Verif Require Import Chars Lexer Ast Grammar.

Definition at0 {A B} (f : A -> B) (w : wm A) : wm B :=
  mkwm (f (node w)) start_position start_position.
Definition strip (i : item) : item := (start_position, item_token i, start_position).
Definition same {A} (a : A) : A := a.
Notation e_str := (at0 (@same str)).

Definition e_bystr (b : NodeByteStr) : NodeByteStr :=
  match b with BSConstant s => BSConstant (e_str s) | BSType s => BSType (e_str s) end.
Definition e_tni (n : NodeTypeNameIdentifier) : NodeTypeNameIdentifier :=
  match n with
  | ByteStringType b => ByteStringType (e_bystr b)
  | EventType => EventType
  | TypeOrEnumLikeIdentifier s => TypeOrEnumLikeIdentifier (e_str s)
  end.
Definition e_imported (n : NodeImportedName) : NodeImportedName :=
  match n with
  | RegularImport n => RegularImport (at0 e_tni n)
  | AliasedImport n a => AliasedImport (at0 e_tni n) (at0 e_tni a)
  end.
Definition e_imports (n : NodeImportDeclarations) : NodeImportDeclarations :=
  match n with mkImportDeclarations l => mkImportDeclarations (map (at0 e_imported) l) end.
Definition e_meta (m : NodeMetaIdentifier) : NodeMetaIdentifier :=
  match m with
  | MetaName n => MetaName (at0 e_tni n)
  | MetaNameInNamespace a b => MetaNameInNamespace (at0 e_tni a) (at0 e_tni b)
  | MetaNameInHexspace h n => MetaNameInHexspace (e_str h) (at0 e_tni n)
  | MetaByteString => MetaByteString
  end.
Definition e_var (v : NodeVariableIdentifier) : NodeVariableIdentifier :=
  match v with
  | VariableName s => VariableName (e_str s)
  | VISpecialIdentifier s => VISpecialIdentifier (e_str s)
  | VariableInNamespace n s => VariableInNamespace (at0 e_tni n) (e_str s)
  end.
Definition e_bargs (b : NodeBuiltinArguments) : NodeBuiltinArguments :=
  match b with mkBuiltinArguments l => mkBuiltinArguments (map (at0 e_var) l) end.

Fixpoint e_key (k : NodeTypeMapKey) : NodeTypeMapKey :=
  match k with
  | GenericMapKey m => GenericMapKey (at0 e_meta m)
  | EnclosedGenericId m => EnclosedGenericId (at0 e_meta m)
  | EnclosedAddressMapKeyType a => EnclosedAddressMapKeyType (at0 e_addr a)
  | AddressMapKeyType a => AddressMapKeyType (at0 e_addr a)
  end
with e_value (x : NodeTypeMapValue) : NodeTypeMapValue :=
  match x with
  | MapValueTypeOrEnumLikeIdentifier m => MapValueTypeOrEnumLikeIdentifier (at0 e_meta m)
  | MapKeyValue e => MapKeyValue (at0 e_entry e)
  | MapValueParenthesizedType t => MapValueParenthesizedType (at0 e_tva t)
  | MapValueAddressType a => MapValueAddressType (at0 e_addr a)
  end
with e_arg (x : NodeTypeArgument) : NodeTypeArgument :=
  match x with
  | EnclosedTypeArgument t => EnclosedTypeArgument (at0 e_type t)
  | GenericTypeArgument m => GenericTypeArgument (at0 e_meta m)
  | TemplateTypeArgument s => TemplateTypeArgument (e_str s)
  | AddressTypeArgument a => AddressTypeArgument (at0 e_addr a)
  | MapTypeArgument k v => MapTypeArgument (at0 e_key k) (at0 e_value v)
  end
with e_type (t : NodeScillaType) : NodeScillaType :=
  match t with
  | GenericTypeWithArgs m args => GenericTypeWithArgs (at0 e_meta m) (map (at0 e_arg) args)
  | MapType k v => MapType (at0 e_key k) (at0 e_value v)
  | FunctionType a b => FunctionType (at0 e_type a) (at0 e_type b)
  | EnclosedType t => EnclosedType (at0 e_type t)
  | ScillaAddresseType a => ScillaAddresseType (at0 e_addr a)
  | PolyFunctionType v t => PolyFunctionType (e_str v) (at0 e_type t)
  | TypeVarType v => TypeVarType (e_str v)
  end
with e_entry (e : NodeTypeMapEntry) : NodeTypeMapEntry :=
  match e with mkTypeMapEntry k v => mkTypeMapEntry (at0 e_key k) (at0 e_value v) end
with e_afield (f : NodeAddressTypeField) : NodeAddressTypeField :=
  match f with mkAddressTypeField i t => mkAddressTypeField (at0 e_var i) (at0 e_type t) end
with e_addr (a : NodeAddressType) : NodeAddressType :=
  match a with
  | mkAddressType i tn fs => mkAddressType (at0 e_tni i) (e_str tn) (map (at0 e_afield) fs)
  end
with e_tvarg (x : NodeTypeMapValueArguments) : NodeTypeMapValueArguments :=
  match x with
  | EnclosedTypeMapValue t => EnclosedTypeMapValue (at0 e_tva t)
  | GenericMapValueArgument m => GenericMapValueArgument (at0 e_meta m)
  | MapKeyValueType k v => MapKeyValueType (at0 e_key k) (at0 e_value v)
  end
with e_tva (x : NodeTypeMapValueAllowingTypeArguments) : NodeTypeMapValueAllowingTypeArguments :=
  match x with
  | TypeMapValueNoArgs t => TypeMapValueNoArgs (at0 e_value t)
  | TypeMapValueWithArgs m args => TypeMapValueWithArgs (at0 e_meta m) (map (at0 e_tvarg) args)
  end.

Definition e_annot (a : NodeTypeAnnotation) : NodeTypeAnnotation :=
  match a with mkTypeAnnotation t => mkTypeAnnotation (at0 e_type t) end.
Definition e_ctargs (a : NodeContractTypeArguments) : NodeContractTypeArguments :=
  match a with mkContractTypeArguments l => mkContractTypeArguments (map (at0 e_arg) l) end.
Definition e_lit (v : NodeValueLiteral) : NodeValueLiteral :=
  match v with
  | LiteralInt n v => LiteralInt (at0 e_tni n) (e_str v)
  | LiteralHex s => LiteralHex (e_str s)
  | LiteralString s => LiteralString (e_str s)
  | LiteralEmptyMap k v => LiteralEmptyMap (at0 e_key k) (at0 e_value v)
  end.
Definition e_atomic (a : NodeAtomicExpression) : NodeAtomicExpression :=
  match a with AtomicSid v => AtomicSid (at0 e_var v) | AtomicLit v => AtomicLit (at0 e_lit v) end.
Definition e_msg (m : NodeMessageEntry) : NodeMessageEntry :=
  match m with
  | MessageLiteral i v => MessageLiteral (at0 e_var i) (at0 e_lit v)
  | MessageVariable i v => MessageVariable (at0 e_var i) (at0 e_var v)
  end.
Definition e_access (m : NodeMapAccess) : NodeMapAccess :=
  match m with mkMapAccess i => mkMapAccess (at0 e_var i) end.
Fixpoint e_pattern (p : NodePattern) : NodePattern :=
  match p with
  | Wildcard => Wildcard
  | Binder s => Binder (e_str s)
  | PatConstructor m args => PatConstructor (at0 e_meta m) (map (at0 e_argpattern) args)
  end
with e_argpattern (p : NodeArgumentPattern) : NodeArgumentPattern :=
  match p with
  | WildcardArgument => WildcardArgument
  | BinderArgument s => BinderArgument (e_str s)
  | ConstructorArgument m => ConstructorArgument (at0 e_meta m)
  | PatternArgument p => PatternArgument (at0 e_pattern p)
  end.
Fixpoint e_expr (e : NodeFullExpression) : NodeFullExpression :=
  match e with
  | LocalVariableDeclaration i x a c =>
      LocalVariableDeclaration (e_str i) (at0 e_expr x) (option_map (at0 e_annot) a) (at0 e_expr c)
  | FunctionDeclaration i a x => FunctionDeclaration (e_str i) (at0 e_annot a) (at0 e_expr x)
  | FunctionCall f l => FunctionCall (at0 e_var f) (map (at0 e_var) l)
  | ExpressionAtomic a => ExpressionAtomic (at0 e_atomic a)
  | ExpressionBuiltin b t x => ExpressionBuiltin (e_str b) (option_map (at0 e_ctargs) t) (at0 e_bargs x)
  | Message l => Message (map (at0 e_msg) l)
  | EMatch v c => EMatch (at0 e_var v) (map (at0 e_eclause) c)
  | ConstructorCall m t l =>
      ConstructorCall (at0 e_meta m) (option_map (at0 e_ctargs) t) (map (at0 e_var) l)
  | TemplateFunction i x => TemplateFunction (e_str i) (at0 e_expr x)
  | TApp i l => TApp (at0 e_var i) (map (at0 e_arg) l)
  end
with e_eclause (c : NodePatternMatchExpressionClause) : NodePatternMatchExpressionClause :=
  match c with
  | mkPatternMatchExpressionClause p e => mkPatternMatchExpressionClause (at0 e_pattern p) (at0 e_expr e)
  end.
Definition e_bfa (a : NodeBlockchainFetchArguments) : NodeBlockchainFetchArguments :=
  match a with mkBlockchainFetchArguments l => mkBlockchainFetchArguments (map (at0 e_var) l) end.
Definition e_cid (c : NodeComponentId) : NodeComponentId :=
  match c with
  | WithTypeLikeName n => WithTypeLikeName (at0 e_tni n)
  | WithRegularId s => WithRegularId (e_str s)
  end.
Definition e_remote (r : NodeRemoteFetchStatement) : NodeRemoteFetchStatement :=
  match r with
  | ReadStateMutable l a r => ReadStateMutable (e_str l) (e_str a) (at0 e_var r)
  | ReadStateMutableSpecialId l a r => ReadStateMutableSpecialId (e_str l) (e_str a) (e_str r)
  | ReadStateMutableMapAccess l a m k =>
      ReadStateMutableMapAccess (e_str l) (e_str a) (e_str m) (map (at0 e_access) k)
  | ReadStateMutableMapAccessExists l a m k =>
      ReadStateMutableMapAccessExists (e_str l) (e_str a) (e_str m) (map (at0 e_access) k)
  | ReadStateMutableCastAddress l a t => ReadStateMutableCastAddress (e_str l) (at0 e_var a) (at0 e_addr t)
  end.
Fixpoint e_stmt (s : NodeStatement) : NodeStatement :=
  match s with
  | Load l r => Load (e_str l) (at0 e_var r)
  | RemoteFetch r => RemoteFetch (e_remote r)
  | Store l r => Store (e_str l) (at0 e_var r)
  | Bind l r => Bind (e_str l) (at0 e_expr r)
  | ReadFromBC l t a => ReadFromBC (e_str l) (at0 e_tni t) (option_map e_bfa a)
  | MapGet l k r => MapGet (e_str l) (map (at0 e_access) k) (e_str r)
  | MapGetExists l k r => MapGetExists (e_str l) (map (at0 e_access) k) (e_str r)
  | MapUpdate l k r => MapUpdate (e_str l) (map (at0 e_access) k) (at0 e_var r)
  | MapUpdateDelete l k => MapUpdateDelete (e_str l) (map (at0 e_access) k)
  | Accept => Accept
  | Send i => Send (at0 e_var i)
  | CreateEvnt i => CreateEvnt (at0 e_var i)
  | Throw v => Throw (option_map (at0 e_var) v)
  | MatchStmt v c => MatchStmt (at0 e_var v) (map (at0 e_sclause) c)
  | CallProc c l => CallProc (at0 e_cid c) (map (at0 e_var) l)
  | Iterate i c => Iterate (at0 e_var i) (at0 e_cid c)
  end
with e_sclause (c : NodePatternMatchClause) : NodePatternMatchClause :=
  match c with
  | mkPatternMatchClause p b => mkPatternMatchClause (at0 e_pattern p) (option_map (at0 e_block) b)
  end
with e_block (b : NodeStatementBlock) : NodeStatementBlock :=
  match b with mkStatementBlock l => mkStatementBlock (map e_stmt l) end.

Definition e_typed (t : NodeTypedIdentifier) : NodeTypedIdentifier :=
  match t with mkTypedIdentifier n a => mkTypedIdentifier (e_str n) (at0 e_annot a) end.
Definition e_pair (p : NodeParameterPair) : NodeParameterPair :=
  match p with mkParameterPair t => mkParameterPair (at0 e_typed t) end.
Definition e_params (p : NodeComponentParameters) : NodeComponentParameters :=
  match p with mkComponentParameters l => mkComponentParameters (map (at0 e_pair) l) end.
Definition e_body (b : NodeComponentBody) : NodeComponentBody :=
  match b with mkComponentBody o => mkComponentBody (option_map (at0 e_block) o) end.
Definition e_alt (c : NodeTypeAlternativeClause) : NodeTypeAlternativeClause :=
  match c with
  | ClauseType n => ClauseType (at0 e_tni n)
  | ClauseTypeWithArgs n l => ClauseTypeWithArgs (at0 e_tni n) (map (at0 e_arg) l)
  end.
Definition e_libdef (d : NodeLibrarySingleDefinition) : NodeLibrarySingleDefinition :=
  match d with
  | LetDefinition v t e => LetDefinition (e_str v) (option_map (at0 e_annot) t) (at0 e_expr e)
  | TypeDefinition n c => TypeDefinition (at0 e_tni n) (option_map (map (at0 e_alt)) c)
  end.
Definition e_lib (l : NodeLibraryDefinition) : NodeLibraryDefinition :=
  match l with mkLibraryDefinition n d => mkLibraryDefinition (at0 e_tni n) (map (at0 e_libdef) d) end.
Definition e_cfield (f : NodeContractField) : NodeContractField :=
  match f with mkContractField t e => mkContractField (at0 e_typed t) (at0 e_expr e) end.
Definition e_with (w : NodeWithConstraint) : NodeWithConstraint :=
  match w with mkWithConstraint e => mkWithConstraint (at0 e_expr e) end.
Definition e_proc (p : NodeProcedureDefinition) : NodeProcedureDefinition :=
  match p with
  | mkProcedureDefinition n ps b => mkProcedureDefinition (at0 e_cid n) (at0 e_params ps) (at0 e_body b)
  end.
Definition e_trans (p : NodeTransitionDefinition) : NodeTransitionDefinition :=
  match p with
  | mkTransitionDefinition n ps b => mkTransitionDefinition (at0 e_cid n) (at0 e_params ps) (at0 e_body b)
  end.
Definition e_comp (c : NodeComponentDefinition) : NodeComponentDefinition :=
  match c with
  | TransitionComponent t => TransitionComponent (at0 e_trans t)
  | ProcedureComponent p => ProcedureComponent (at0 e_proc p)
  end.
Definition e_contract (c : NodeContractDefinition) : NodeContractDefinition :=
  match c with
  | mkContractDefinition n ps w fs cs =>
      mkContractDefinition (at0 e_tni n) (at0 e_params ps) (option_map (at0 e_with) w)
        (map (at0 e_cfield) fs) (map (at0 e_comp) cs)
  end.
Definition e_program (p : NodeProgram) : NodeProgram :=
  match p with
  | mkProgram v i l c =>
      mkProgram (e_str v) (option_map (at0 e_imports) i) (option_map (at0 e_lib) l) (at0 e_contract c)
  end.

(** The value of any non terminal without its positions. *)
Definition erase (A : nt) : nt_type A -> nt_type A :=
  match A return nt_type A -> nt_type A with
  | ByteString => e_bystr
  | TypeNameIdentifier => at0 e_tni
  | ImportedName => at0 e_imported
  | ImportDeclarations => at0 e_imports
  | MetaIdentifier => at0 e_meta
  | VariableIdentifier => at0 e_var
  | BuiltinArguments => at0 e_bargs
  | RemainingTypes | FunctionSignature | ScillaType => at0 e_type
  | TypeArgument => at0 e_arg
  | AddressType => at0 e_addr
  | AddressTypeFieldList => map (at0 e_afield)
  | NextAddressTypeField | AddressTypeField => at0 e_afield
  | TypeMapKey => at0 e_key
  | TypeMapValue => at0 e_value
  | TypeMapValueArguments => at0 e_tvarg
  | Program => e_program
  | LibraryDefinition => at0 e_lib
  | LibrarySingleDefinition => at0 e_libdef
  | TypedIdentifier => at0 e_typed
  | TypeAnnotation => at0 e_annot
  | TypeAlternativeClause => at0 e_alt
  | TypeMapValueAllowingTypeArguments => at0 e_tva
  | ContractTypeArguments => at0 e_ctargs
  | FullExpression => at0 e_expr
  | PatternMatchExpressionClause => at0 e_eclause
  | Pattern => at0 e_pattern
  | ArgumentPattern => at0 e_argpattern
  | NextMessageEntry | MessageEntry => at0 e_msg
  | AtomicExpression => at0 e_atomic
  | ValueLiteral => at0 e_lit
  | Statement | NextStatement => e_stmt
  | StatementBlock => at0 e_block
  | BlockchainFetchArguments => e_bfa
  | ComponentId => at0 e_cid
  | PatternMatchClause => at0 e_sclause
  | RemoteFetchStatement => e_remote
  | MapAccess => at0 e_access
  | ParameterPair | NextParameterPair => at0 e_pair
  | ComponentParameters => at0 e_params
  | ComponentDefinition => at0 e_comp
  | TransitionDefinition => at0 e_trans
  | ProcedureDefinition => at0 e_proc
  | ComponentBody => at0 e_body
  | ContractDefinition => at0 e_contract
  | ContractField => at0 e_cfield
  | WithConstraint => at0 e_with
  | HexNumber | SignedInteger | RegularId | SpecialId | TypeOrEnumLikeIdentifierId
  | TemplateTypeId | StringLiteral => e_str
  end.
