(** Renaming the texts of an AST: every text of a token in it is replaced by
    its image under a function; positions and everything else are kept. *)
From Verif Require Import Chars Lexer Ast Grammar.

Definition on {A B} (f : A -> B) (w : wm A) : wm B := mkwm (f (node w)) (wm_start w) (wm_end w).

Section Rename.
Context (r : str -> str).
Local Notation r_str := (on r).

(** A token whose text is replaced; tokens without a text of their own (keywords
    and punctuation) are kept. *)
Definition r_token (t : token) : token :=
  match t with
  | TByStrWithSize s => TByStrWithSize (r s)
  | TComment s => TComment (r s)
  | TNumber s => TNumber (r s)
  | THexNumber s => THexNumber (r s)
  | TIdentifier s => TIdentifier (r s)
  | TTemplateIdentifier s => TTemplateIdentifier (r s)
  | TCustomIdentifier s => TCustomIdentifier (r s)
  | TSpecialIdentifier s => TSpecialIdentifier (r s)
  | TTypeName s => TTypeName (r s)
  | TStringLiteral s => TStringLiteral (r s)
  | _ => t
  end.
Definition r_item (i : item) : item := (item_start i, r_token (item_token i), item_end i).

Definition r_bystr (b : NodeByteStr) : NodeByteStr :=
  match b with BSConstant s => BSConstant (r_str s) | BSType s => BSType (r_str s) end.
Definition r_tni (n : NodeTypeNameIdentifier) : NodeTypeNameIdentifier :=
  match n with
  | ByteStringType b => ByteStringType (r_bystr b)
  | EventType => EventType
  | TypeOrEnumLikeIdentifier s => TypeOrEnumLikeIdentifier (r_str s)
  end.
Definition r_imported (n : NodeImportedName) : NodeImportedName :=
  match n with
  | RegularImport n => RegularImport (on r_tni n)
  | AliasedImport n a => AliasedImport (on r_tni n) (on r_tni a)
  end.
Definition r_imports (n : NodeImportDeclarations) : NodeImportDeclarations :=
  match n with mkImportDeclarations l => mkImportDeclarations (map (on r_imported) l) end.
Definition r_meta (m : NodeMetaIdentifier) : NodeMetaIdentifier :=
  match m with
  | MetaName n => MetaName (on r_tni n)
  | MetaNameInNamespace a b => MetaNameInNamespace (on r_tni a) (on r_tni b)
  | MetaNameInHexspace h n => MetaNameInHexspace (r_str h) (on r_tni n)
  | MetaByteString => MetaByteString
  end.
Definition r_var (v : NodeVariableIdentifier) : NodeVariableIdentifier :=
  match v with
  | VariableName s => VariableName (r_str s)
  | VISpecialIdentifier s => VISpecialIdentifier (r_str s)
  | VariableInNamespace n s => VariableInNamespace (on r_tni n) (r_str s)
  end.
Definition r_bargs (b : NodeBuiltinArguments) : NodeBuiltinArguments :=
  match b with mkBuiltinArguments l => mkBuiltinArguments (map (on r_var) l) end.

Fixpoint r_key (k : NodeTypeMapKey) : NodeTypeMapKey :=
  match k with
  | GenericMapKey m => GenericMapKey (on r_meta m)
  | EnclosedGenericId m => EnclosedGenericId (on r_meta m)
  | EnclosedAddressMapKeyType a => EnclosedAddressMapKeyType (on r_addr a)
  | AddressMapKeyType a => AddressMapKeyType (on r_addr a)
  end
with r_value (x : NodeTypeMapValue) : NodeTypeMapValue :=
  match x with
  | MapValueTypeOrEnumLikeIdentifier m => MapValueTypeOrEnumLikeIdentifier (on r_meta m)
  | MapKeyValue e => MapKeyValue (on r_entry e)
  | MapValueParenthesizedType t => MapValueParenthesizedType (on r_tva t)
  | MapValueAddressType a => MapValueAddressType (on r_addr a)
  end
with r_arg (x : NodeTypeArgument) : NodeTypeArgument :=
  match x with
  | EnclosedTypeArgument t => EnclosedTypeArgument (on r_type t)
  | GenericTypeArgument m => GenericTypeArgument (on r_meta m)
  | TemplateTypeArgument s => TemplateTypeArgument (r_str s)
  | AddressTypeArgument a => AddressTypeArgument (on r_addr a)
  | MapTypeArgument k v => MapTypeArgument (on r_key k) (on r_value v)
  end
with r_type (t : NodeScillaType) : NodeScillaType :=
  match t with
  | GenericTypeWithArgs m args => GenericTypeWithArgs (on r_meta m) (map (on r_arg) args)
  | MapType k v => MapType (on r_key k) (on r_value v)
  | FunctionType a b => FunctionType (on r_type a) (on r_type b)
  | EnclosedType t => EnclosedType (on r_type t)
  | ScillaAddresseType a => ScillaAddresseType (on r_addr a)
  | PolyFunctionType v t => PolyFunctionType (r_str v) (on r_type t)
  | TypeVarType v => TypeVarType (r_str v)
  end
with r_entry (e : NodeTypeMapEntry) : NodeTypeMapEntry :=
  match e with mkTypeMapEntry k v => mkTypeMapEntry (on r_key k) (on r_value v) end
with r_afield (f : NodeAddressTypeField) : NodeAddressTypeField :=
  match f with mkAddressTypeField i t => mkAddressTypeField (on r_var i) (on r_type t) end
with r_addr (a : NodeAddressType) : NodeAddressType :=
  match a with
  | mkAddressType i tn fs => mkAddressType (on r_tni i) (r_str tn) (map (on r_afield) fs)
  end
with r_tvarg (x : NodeTypeMapValueArguments) : NodeTypeMapValueArguments :=
  match x with
  | EnclosedTypeMapValue t => EnclosedTypeMapValue (on r_tva t)
  | GenericMapValueArgument m => GenericMapValueArgument (on r_meta m)
  | MapKeyValueType k v => MapKeyValueType (on r_key k) (on r_value v)
  end
with r_tva (x : NodeTypeMapValueAllowingTypeArguments) : NodeTypeMapValueAllowingTypeArguments :=
  match x with
  | TypeMapValueNoArgs t => TypeMapValueNoArgs (on r_value t)
  | TypeMapValueWithArgs m args => TypeMapValueWithArgs (on r_meta m) (map (on r_tvarg) args)
  end.

Definition r_annot (a : NodeTypeAnnotation) : NodeTypeAnnotation :=
  match a with mkTypeAnnotation t => mkTypeAnnotation (on r_type t) end.
Definition r_ctargs (a : NodeContractTypeArguments) : NodeContractTypeArguments :=
  match a with mkContractTypeArguments l => mkContractTypeArguments (map (on r_arg) l) end.
Definition r_lit (v : NodeValueLiteral) : NodeValueLiteral :=
  match v with
  | LiteralInt n v => LiteralInt (on r_tni n) (r_str v)
  | LiteralHex s => LiteralHex (r_str s)
  | LiteralString s => LiteralString (r_str s)
  | LiteralEmptyMap k v => LiteralEmptyMap (on r_key k) (on r_value v)
  end.
Definition r_atomic (a : NodeAtomicExpression) : NodeAtomicExpression :=
  match a with AtomicSid v => AtomicSid (on r_var v) | AtomicLit v => AtomicLit (on r_lit v) end.
Definition r_msg (m : NodeMessageEntry) : NodeMessageEntry :=
  match m with
  | MessageLiteral i v => MessageLiteral (on r_var i) (on r_lit v)
  | MessageVariable i v => MessageVariable (on r_var i) (on r_var v)
  end.
Definition r_access (m : NodeMapAccess) : NodeMapAccess :=
  match m with mkMapAccess i => mkMapAccess (on r_var i) end.
Fixpoint r_pattern (p : NodePattern) : NodePattern :=
  match p with
  | Wildcard => Wildcard
  | Binder s => Binder (r_str s)
  | PatConstructor m args => PatConstructor (on r_meta m) (map (on r_argpattern) args)
  end
with r_argpattern (p : NodeArgumentPattern) : NodeArgumentPattern :=
  match p with
  | WildcardArgument => WildcardArgument
  | BinderArgument s => BinderArgument (r_str s)
  | ConstructorArgument m => ConstructorArgument (on r_meta m)
  | PatternArgument p => PatternArgument (on r_pattern p)
  end.
Fixpoint r_expr (e : NodeFullExpression) : NodeFullExpression :=
  match e with
  | LocalVariableDeclaration i x a c =>
      LocalVariableDeclaration (r_str i) (on r_expr x) (option_map (on r_annot) a) (on r_expr c)
  | FunctionDeclaration i a x => FunctionDeclaration (r_str i) (on r_annot a) (on r_expr x)
  | FunctionCall f l => FunctionCall (on r_var f) (map (on r_var) l)
  | ExpressionAtomic a => ExpressionAtomic (on r_atomic a)
  | ExpressionBuiltin b t x => ExpressionBuiltin (r_str b) (option_map (on r_ctargs) t) (on r_bargs x)
  | Message l => Message (map (on r_msg) l)
  | EMatch v c => EMatch (on r_var v) (map (on r_eclause) c)
  | ConstructorCall m t l =>
      ConstructorCall (on r_meta m) (option_map (on r_ctargs) t) (map (on r_var) l)
  | TemplateFunction i x => TemplateFunction (r_str i) (on r_expr x)
  | TApp i l => TApp (on r_var i) (map (on r_arg) l)
  end
with r_eclause (c : NodePatternMatchExpressionClause) : NodePatternMatchExpressionClause :=
  match c with
  | mkPatternMatchExpressionClause p e => mkPatternMatchExpressionClause (on r_pattern p) (on r_expr e)
  end.
Definition r_bfa (a : NodeBlockchainFetchArguments) : NodeBlockchainFetchArguments :=
  match a with mkBlockchainFetchArguments l => mkBlockchainFetchArguments (map (on r_var) l) end.
Definition r_cid (c : NodeComponentId) : NodeComponentId :=
  match c with
  | WithTypeLikeName n => WithTypeLikeName (on r_tni n)
  | WithRegularId s => WithRegularId (r_str s)
  end.
Definition r_remote (r : NodeRemoteFetchStatement) : NodeRemoteFetchStatement :=
  match r with
  | ReadStateMutable l a r => ReadStateMutable (r_str l) (r_str a) (on r_var r)
  | ReadStateMutableSpecialId l a r => ReadStateMutableSpecialId (r_str l) (r_str a) (r_str r)
  | ReadStateMutableMapAccess l a m k =>
      ReadStateMutableMapAccess (r_str l) (r_str a) (r_str m) (map (on r_access) k)
  | ReadStateMutableMapAccessExists l a m k =>
      ReadStateMutableMapAccessExists (r_str l) (r_str a) (r_str m) (map (on r_access) k)
  | ReadStateMutableCastAddress l a t => ReadStateMutableCastAddress (r_str l) (on r_var a) (on r_addr t)
  end.
Fixpoint r_stmt (s : NodeStatement) : NodeStatement :=
  match s with
  | Load l r => Load (r_str l) (on r_var r)
  | RemoteFetch r => RemoteFetch (r_remote r)
  | Store l r => Store (r_str l) (on r_var r)
  | Bind l r => Bind (r_str l) (on r_expr r)
  | ReadFromBC l t a => ReadFromBC (r_str l) (on r_tni t) (option_map r_bfa a)
  | MapGet l k r => MapGet (r_str l) (map (on r_access) k) (r_str r)
  | MapGetExists l k r => MapGetExists (r_str l) (map (on r_access) k) (r_str r)
  | MapUpdate l k r => MapUpdate (r_str l) (map (on r_access) k) (on r_var r)
  | MapUpdateDelete l k => MapUpdateDelete (r_str l) (map (on r_access) k)
  | Accept => Accept
  | Send i => Send (on r_var i)
  | CreateEvnt i => CreateEvnt (on r_var i)
  | Throw v => Throw (option_map (on r_var) v)
  | MatchStmt v c => MatchStmt (on r_var v) (map (on r_sclause) c)
  | CallProc c l => CallProc (on r_cid c) (map (on r_var) l)
  | Iterate i c => Iterate (on r_var i) (on r_cid c)
  end
with r_sclause (c : NodePatternMatchClause) : NodePatternMatchClause :=
  match c with
  | mkPatternMatchClause p b => mkPatternMatchClause (on r_pattern p) (option_map (on r_block) b)
  end
with r_block (b : NodeStatementBlock) : NodeStatementBlock :=
  match b with mkStatementBlock l => mkStatementBlock (map r_stmt l) end.

Definition r_typed (t : NodeTypedIdentifier) : NodeTypedIdentifier :=
  match t with mkTypedIdentifier n a => mkTypedIdentifier (r_str n) (on r_annot a) end.
Definition r_pair (p : NodeParameterPair) : NodeParameterPair :=
  match p with mkParameterPair t => mkParameterPair (on r_typed t) end.
Definition r_params (p : NodeComponentParameters) : NodeComponentParameters :=
  match p with mkComponentParameters l => mkComponentParameters (map (on r_pair) l) end.
Definition r_body (b : NodeComponentBody) : NodeComponentBody :=
  match b with mkComponentBody o => mkComponentBody (option_map (on r_block) o) end.
Definition r_alt (c : NodeTypeAlternativeClause) : NodeTypeAlternativeClause :=
  match c with
  | ClauseType n => ClauseType (on r_tni n)
  | ClauseTypeWithArgs n l => ClauseTypeWithArgs (on r_tni n) (map (on r_arg) l)
  end.
Definition r_libdef (d : NodeLibrarySingleDefinition) : NodeLibrarySingleDefinition :=
  match d with
  | LetDefinition v t e => LetDefinition (r_str v) (option_map (on r_annot) t) (on r_expr e)
  | TypeDefinition n c => TypeDefinition (on r_tni n) (option_map (map (on r_alt)) c)
  end.
Definition r_lib (l : NodeLibraryDefinition) : NodeLibraryDefinition :=
  match l with mkLibraryDefinition n d => mkLibraryDefinition (on r_tni n) (map (on r_libdef) d) end.
Definition r_cfield (f : NodeContractField) : NodeContractField :=
  match f with mkContractField t e => mkContractField (on r_typed t) (on r_expr e) end.
Definition r_with (w : NodeWithConstraint) : NodeWithConstraint :=
  match w with mkWithConstraint e => mkWithConstraint (on r_expr e) end.
Definition r_proc (p : NodeProcedureDefinition) : NodeProcedureDefinition :=
  match p with
  | mkProcedureDefinition n ps b => mkProcedureDefinition (on r_cid n) (on r_params ps) (on r_body b)
  end.
Definition r_trans (p : NodeTransitionDefinition) : NodeTransitionDefinition :=
  match p with
  | mkTransitionDefinition n ps b => mkTransitionDefinition (on r_cid n) (on r_params ps) (on r_body b)
  end.
Definition r_comp (c : NodeComponentDefinition) : NodeComponentDefinition :=
  match c with
  | TransitionComponent t => TransitionComponent (on r_trans t)
  | ProcedureComponent p => ProcedureComponent (on r_proc p)
  end.
Definition r_contract (c : NodeContractDefinition) : NodeContractDefinition :=
  match c with
  | mkContractDefinition n ps w fs cs =>
      mkContractDefinition (on r_tni n) (on r_params ps) (option_map (on r_with) w)
        (map (on r_cfield) fs) (map (on r_comp) cs)
  end.
Definition r_program (p : NodeProgram) : NodeProgram :=
  match p with
  | mkProgram v i l c =>
      mkProgram (r_str v) (option_map (on r_imports) i) (option_map (on r_lib) l) (on r_contract c)
  end.

(** The value of any non terminal with its texts renamed. *)
Definition rename (A : nt) : nt_type A -> nt_type A :=
  match A return nt_type A -> nt_type A with
  | ByteString => r_bystr
  | TypeNameIdentifier => on r_tni
  | ImportedName => on r_imported
  | ImportDeclarations => on r_imports
  | MetaIdentifier => on r_meta
  | VariableIdentifier => on r_var
  | BuiltinArguments => on r_bargs
  | RemainingTypes | FunctionSignature | ScillaType => on r_type
  | TypeArgument => on r_arg
  | AddressType => on r_addr
  | AddressTypeFieldList => map (on r_afield)
  | NextAddressTypeField | AddressTypeField => on r_afield
  | TypeMapKey => on r_key
  | TypeMapValue => on r_value
  | TypeMapValueArguments => on r_tvarg
  | Program => r_program
  | LibraryDefinition => on r_lib
  | LibrarySingleDefinition => on r_libdef
  | TypedIdentifier => on r_typed
  | TypeAnnotation => on r_annot
  | TypeAlternativeClause => on r_alt
  | TypeMapValueAllowingTypeArguments => on r_tva
  | ContractTypeArguments => on r_ctargs
  | FullExpression => on r_expr
  | PatternMatchExpressionClause => on r_eclause
  | Pattern => on r_pattern
  | ArgumentPattern => on r_argpattern
  | NextMessageEntry | MessageEntry => on r_msg
  | AtomicExpression => on r_atomic
  | ValueLiteral => on r_lit
  | Statement | NextStatement => r_stmt
  | StatementBlock => on r_block
  | BlockchainFetchArguments => r_bfa
  | ComponentId => on r_cid
  | PatternMatchClause => on r_sclause
  | RemoteFetchStatement => r_remote
  | MapAccess => on r_access
  | ParameterPair | NextParameterPair => on r_pair
  | ComponentParameters => on r_params
  | ComponentDefinition => on r_comp
  | TransitionDefinition => on r_trans
  | ProcedureDefinition => on r_proc
  | ComponentBody => on r_body
  | ContractDefinition => on r_contract
  | ContractField => on r_cfield
  | WithConstraint => on r_with
  | HexNumber | SignedInteger | RegularId | SpecialId | TypeOrEnumLikeIdentifierId
  | TemplateTypeId | StringLiteral => r_str
  end.
End Rename.
