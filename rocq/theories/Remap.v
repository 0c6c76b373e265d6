(** Replacing the positions of an AST: every start position [x] by [fs x], every
    end position by [fe x]; everything else is kept. *)
From Verif Require Import Chars Lexer Ast Grammar.

Section Remap.
Context (fs fe : source_position -> source_position).
Definition atf {A B} (f : A -> B) (w : wm A) : wm B := mkwm (f (node w)) (fs (wm_start w)) (fe (wm_end w)).
(** The same for a token. *)
Definition move (i : item) : item := (fs (item_start i), item_token i, fe (item_end i)).
Definition r_str : wm str -> wm str := atf (fun s => s).

Definition r_bystr (b : NodeByteStr) : NodeByteStr :=
  match b with BSConstant s => BSConstant (r_str s) | BSType s => BSType (r_str s) end.
Definition r_tni (n : NodeTypeNameIdentifier) : NodeTypeNameIdentifier :=
  match n with
  | ByteStringType b => ByteStringType (r_bystr b)
  | EventType => EventType
  | TypeOrEnumLikeIdentifier s => TypeOrEnumLikeIdentifier (r_str s)
  end.
Definition r_imported (n : NodeImportedName) : NodeImportedName :=
  match n with
  | RegularImport n => RegularImport (atf r_tni n)
  | AliasedImport n a => AliasedImport (atf r_tni n) (atf r_tni a)
  end.
Definition r_imports (n : NodeImportDeclarations) : NodeImportDeclarations :=
  match n with mkImportDeclarations l => mkImportDeclarations (map (atf r_imported) l) end.
Definition r_meta (m : NodeMetaIdentifier) : NodeMetaIdentifier :=
  match m with
  | MetaName n => MetaName (atf r_tni n)
  | MetaNameInNamespace a b => MetaNameInNamespace (atf r_tni a) (atf r_tni b)
  | MetaNameInHexspace h n => MetaNameInHexspace (r_str h) (atf r_tni n)
  | MetaByteString => MetaByteString
  end.
Definition r_var (v : NodeVariableIdentifier) : NodeVariableIdentifier :=
  match v with
  | VariableName s => VariableName (r_str s)
  | VISpecialIdentifier s => VISpecialIdentifier (r_str s)
  | VariableInNamespace n s => VariableInNamespace (atf r_tni n) (r_str s)
  end.
Definition r_bargs (b : NodeBuiltinArguments) : NodeBuiltinArguments :=
  match b with mkBuiltinArguments l => mkBuiltinArguments (map (atf r_var) l) end.

Fixpoint r_key (k : NodeTypeMapKey) : NodeTypeMapKey :=
  match k with
  | GenericMapKey m => GenericMapKey (atf r_meta m)
  | EnclosedGenericId m => EnclosedGenericId (atf r_meta m)
  | EnclosedAddressMapKeyType a => EnclosedAddressMapKeyType (atf r_addr a)
  | AddressMapKeyType a => AddressMapKeyType (atf r_addr a)
  end
with r_value (x : NodeTypeMapValue) : NodeTypeMapValue :=
  match x with
  | MapValueTypeOrEnumLikeIdentifier m => MapValueTypeOrEnumLikeIdentifier (atf r_meta m)
  | MapKeyValue e => MapKeyValue (atf r_entry e)
  | MapValueParenthesizedType t => MapValueParenthesizedType (atf r_tva t)
  | MapValueAddressType a => MapValueAddressType (atf r_addr a)
  end
with r_arg (x : NodeTypeArgument) : NodeTypeArgument :=
  match x with
  | EnclosedTypeArgument t => EnclosedTypeArgument (atf r_type t)
  | GenericTypeArgument m => GenericTypeArgument (atf r_meta m)
  | TemplateTypeArgument s => TemplateTypeArgument (r_str s)
  | AddressTypeArgument a => AddressTypeArgument (atf r_addr a)
  | MapTypeArgument k v => MapTypeArgument (atf r_key k) (atf r_value v)
  end
with r_type (t : NodeScillaType) : NodeScillaType :=
  match t with
  | GenericTypeWithArgs m args => GenericTypeWithArgs (atf r_meta m) (map (atf r_arg) args)
  | MapType k v => MapType (atf r_key k) (atf r_value v)
  | FunctionType a b => FunctionType (atf r_type a) (atf r_type b)
  | EnclosedType t => EnclosedType (atf r_type t)
  | ScillaAddresseType a => ScillaAddresseType (atf r_addr a)
  | PolyFunctionType v t => PolyFunctionType (r_str v) (atf r_type t)
  | TypeVarType v => TypeVarType (r_str v)
  end
with r_entry (e : NodeTypeMapEntry) : NodeTypeMapEntry :=
  match e with mkTypeMapEntry k v => mkTypeMapEntry (atf r_key k) (atf r_value v) end
with r_afield (f : NodeAddressTypeField) : NodeAddressTypeField :=
  match f with mkAddressTypeField i t => mkAddressTypeField (atf r_var i) (atf r_type t) end
with r_addr (a : NodeAddressType) : NodeAddressType :=
  match a with
  | mkAddressType i tn fl => mkAddressType (atf r_tni i) (r_str tn) (map (atf r_afield) fl)
  end
with r_tvarg (x : NodeTypeMapValueArguments) : NodeTypeMapValueArguments :=
  match x with
  | EnclosedTypeMapValue t => EnclosedTypeMapValue (atf r_tva t)
  | GenericMapValueArgument m => GenericMapValueArgument (atf r_meta m)
  | MapKeyValueType k v => MapKeyValueType (atf r_key k) (atf r_value v)
  end
with r_tva (x : NodeTypeMapValueAllowingTypeArguments) : NodeTypeMapValueAllowingTypeArguments :=
  match x with
  | TypeMapValueNoArgs t => TypeMapValueNoArgs (atf r_value t)
  | TypeMapValueWithArgs m args => TypeMapValueWithArgs (atf r_meta m) (map (atf r_tvarg) args)
  end.

Definition r_annot (a : NodeTypeAnnotation) : NodeTypeAnnotation :=
  match a with mkTypeAnnotation t => mkTypeAnnotation (atf r_type t) end.
Definition r_ctargs (a : NodeContractTypeArguments) : NodeContractTypeArguments :=
  match a with mkContractTypeArguments l => mkContractTypeArguments (map (atf r_arg) l) end.
Definition r_lit (v : NodeValueLiteral) : NodeValueLiteral :=
  match v with
  | LiteralInt n v => LiteralInt (atf r_tni n) (r_str v)
  | LiteralHex s => LiteralHex (r_str s)
  | LiteralString s => LiteralString (r_str s)
  | LiteralEmptyMap k v => LiteralEmptyMap (atf r_key k) (atf r_value v)
  end.
Definition r_atomic (a : NodeAtomicExpression) : NodeAtomicExpression :=
  match a with AtomicSid v => AtomicSid (atf r_var v) | AtomicLit v => AtomicLit (atf r_lit v) end.
Definition r_msg (m : NodeMessageEntry) : NodeMessageEntry :=
  match m with
  | MessageLiteral i v => MessageLiteral (atf r_var i) (atf r_lit v)
  | MessageVariable i v => MessageVariable (atf r_var i) (atf r_var v)
  end.
Definition r_access (m : NodeMapAccess) : NodeMapAccess :=
  match m with mkMapAccess i => mkMapAccess (atf r_var i) end.
Fixpoint r_pattern (p : NodePattern) : NodePattern :=
  match p with
  | Wildcard => Wildcard
  | Binder s => Binder (r_str s)
  | PatConstructor m args => PatConstructor (atf r_meta m) (map (atf r_argpattern) args)
  end
with r_argpattern (p : NodeArgumentPattern) : NodeArgumentPattern :=
  match p with
  | WildcardArgument => WildcardArgument
  | BinderArgument s => BinderArgument (r_str s)
  | ConstructorArgument m => ConstructorArgument (atf r_meta m)
  | PatternArgument p => PatternArgument (atf r_pattern p)
  end.
Fixpoint r_expr (e : NodeFullExpression) : NodeFullExpression :=
  match e with
  | LocalVariableDeclaration i x a c =>
      LocalVariableDeclaration (r_str i) (atf r_expr x) (option_map (atf r_annot) a) (atf r_expr c)
  | FunctionDeclaration i a x => FunctionDeclaration (r_str i) (atf r_annot a) (atf r_expr x)
  | FunctionCall f l => FunctionCall (atf r_var f) (map (atf r_var) l)
  | ExpressionAtomic a => ExpressionAtomic (atf r_atomic a)
  | ExpressionBuiltin b t x => ExpressionBuiltin (r_str b) (option_map (atf r_ctargs) t) (atf r_bargs x)
  | Message l => Message (map (atf r_msg) l)
  | EMatch v c => EMatch (atf r_var v) (map (atf r_eclause) c)
  | ConstructorCall m t l =>
      ConstructorCall (atf r_meta m) (option_map (atf r_ctargs) t) (map (atf r_var) l)
  | TemplateFunction i x => TemplateFunction (r_str i) (atf r_expr x)
  | TApp i l => TApp (atf r_var i) (map (atf r_arg) l)
  end
with r_eclause (c : NodePatternMatchExpressionClause) : NodePatternMatchExpressionClause :=
  match c with
  | mkPatternMatchExpressionClause p e => mkPatternMatchExpressionClause (atf r_pattern p) (atf r_expr e)
  end.
Definition r_bfa (a : NodeBlockchainFetchArguments) : NodeBlockchainFetchArguments :=
  match a with mkBlockchainFetchArguments l => mkBlockchainFetchArguments (map (atf r_var) l) end.
Definition r_cid (c : NodeComponentId) : NodeComponentId :=
  match c with
  | WithTypeLikeName n => WithTypeLikeName (atf r_tni n)
  | WithRegularId s => WithRegularId (r_str s)
  end.
Definition r_remote (r : NodeRemoteFetchStatement) : NodeRemoteFetchStatement :=
  match r with
  | ReadStateMutable l a r => ReadStateMutable (r_str l) (r_str a) (atf r_var r)
  | ReadStateMutableSpecialId l a r => ReadStateMutableSpecialId (r_str l) (r_str a) (r_str r)
  | ReadStateMutableMapAccess l a m k =>
      ReadStateMutableMapAccess (r_str l) (r_str a) (r_str m) (map (atf r_access) k)
  | ReadStateMutableMapAccessExists l a m k =>
      ReadStateMutableMapAccessExists (r_str l) (r_str a) (r_str m) (map (atf r_access) k)
  | ReadStateMutableCastAddress l a t => ReadStateMutableCastAddress (r_str l) (atf r_var a) (atf r_addr t)
  end.
Fixpoint r_stmt (s : NodeStatement) : NodeStatement :=
  match s with
  | Load l r => Load (r_str l) (atf r_var r)
  | RemoteFetch r => RemoteFetch (r_remote r)
  | Store l r => Store (r_str l) (atf r_var r)
  | Bind l r => Bind (r_str l) (atf r_expr r)
  | ReadFromBC l t a => ReadFromBC (r_str l) (atf r_tni t) (option_map r_bfa a)
  | MapGet l k r => MapGet (r_str l) (map (atf r_access) k) (r_str r)
  | MapGetExists l k r => MapGetExists (r_str l) (map (atf r_access) k) (r_str r)
  | MapUpdate l k r => MapUpdate (r_str l) (map (atf r_access) k) (atf r_var r)
  | MapUpdateDelete l k => MapUpdateDelete (r_str l) (map (atf r_access) k)
  | Accept => Accept
  | Send i => Send (atf r_var i)
  | CreateEvnt i => CreateEvnt (atf r_var i)
  | Throw v => Throw (option_map (atf r_var) v)
  | MatchStmt v c => MatchStmt (atf r_var v) (map (atf r_sclause) c)
  | CallProc c l => CallProc (atf r_cid c) (map (atf r_var) l)
  | Iterate i c => Iterate (atf r_var i) (atf r_cid c)
  end
with r_sclause (c : NodePatternMatchClause) : NodePatternMatchClause :=
  match c with
  | mkPatternMatchClause p b => mkPatternMatchClause (atf r_pattern p) (option_map (atf r_block) b)
  end
with r_block (b : NodeStatementBlock) : NodeStatementBlock :=
  match b with mkStatementBlock l => mkStatementBlock (map r_stmt l) end.

Definition r_typed (t : NodeTypedIdentifier) : NodeTypedIdentifier :=
  match t with mkTypedIdentifier n a => mkTypedIdentifier (r_str n) (atf r_annot a) end.
Definition r_pair (p : NodeParameterPair) : NodeParameterPair :=
  match p with mkParameterPair t => mkParameterPair (atf r_typed t) end.
Definition r_params (p : NodeComponentParameters) : NodeComponentParameters :=
  match p with mkComponentParameters l => mkComponentParameters (map (atf r_pair) l) end.
Definition r_body (b : NodeComponentBody) : NodeComponentBody :=
  match b with mkComponentBody o => mkComponentBody (option_map (atf r_block) o) end.
Definition r_alt (c : NodeTypeAlternativeClause) : NodeTypeAlternativeClause :=
  match c with
  | ClauseType n => ClauseType (atf r_tni n)
  | ClauseTypeWithArgs n l => ClauseTypeWithArgs (atf r_tni n) (map (atf r_arg) l)
  end.
Definition r_libdef (d : NodeLibrarySingleDefinition) : NodeLibrarySingleDefinition :=
  match d with
  | LetDefinition v t e => LetDefinition (r_str v) (option_map (atf r_annot) t) (atf r_expr e)
  | TypeDefinition n c => TypeDefinition (atf r_tni n) (option_map (map (atf r_alt)) c)
  end.
Definition r_lib (l : NodeLibraryDefinition) : NodeLibraryDefinition :=
  match l with mkLibraryDefinition n d => mkLibraryDefinition (atf r_tni n) (map (atf r_libdef) d) end.
Definition r_cfield (f : NodeContractField) : NodeContractField :=
  match f with mkContractField t e => mkContractField (atf r_typed t) (atf r_expr e) end.
Definition r_with (w : NodeWithConstraint) : NodeWithConstraint :=
  match w with mkWithConstraint e => mkWithConstraint (atf r_expr e) end.
Definition r_proc (p : NodeProcedureDefinition) : NodeProcedureDefinition :=
  match p with
  | mkProcedureDefinition n ps b => mkProcedureDefinition (atf r_cid n) (atf r_params ps) (atf r_body b)
  end.
Definition r_trans (p : NodeTransitionDefinition) : NodeTransitionDefinition :=
  match p with
  | mkTransitionDefinition n ps b => mkTransitionDefinition (atf r_cid n) (atf r_params ps) (atf r_body b)
  end.
Definition r_comp (c : NodeComponentDefinition) : NodeComponentDefinition :=
  match c with
  | TransitionComponent t => TransitionComponent (atf r_trans t)
  | ProcedureComponent p => ProcedureComponent (atf r_proc p)
  end.
Definition r_contract (c : NodeContractDefinition) : NodeContractDefinition :=
  match c with
  | mkContractDefinition n ps w fl cs =>
      mkContractDefinition (atf r_tni n) (atf r_params ps) (option_map (atf r_with) w)
        (map (atf r_cfield) fl) (map (atf r_comp) cs)
  end.
Definition r_program (p : NodeProgram) : NodeProgram :=
  match p with
  | mkProgram v i l c =>
      mkProgram (r_str v) (option_map (atf r_imports) i) (option_map (atf r_lib) l) (atf r_contract c)
  end.

(** The value of any non terminal with its positions replaced. *)
Definition remap (A : nt) : nt_type A -> nt_type A :=
  match A return nt_type A -> nt_type A with
  | ByteString => r_bystr
  | TypeNameIdentifier => atf r_tni
  | ImportedName => atf r_imported
  | ImportDeclarations => atf r_imports
  | MetaIdentifier => atf r_meta
  | VariableIdentifier => atf r_var
  | BuiltinArguments => atf r_bargs
  | RemainingTypes | FunctionSignature | ScillaType => atf r_type
  | TypeArgument => atf r_arg
  | AddressType => atf r_addr
  | AddressTypeFieldList => map (atf r_afield)
  | NextAddressTypeField | AddressTypeField => atf r_afield
  | TypeMapKey => atf r_key
  | TypeMapValue => atf r_value
  | TypeMapValueArguments => atf r_tvarg
  | Program => r_program
  | LibraryDefinition => atf r_lib
  | LibrarySingleDefinition => atf r_libdef
  | TypedIdentifier => atf r_typed
  | TypeAnnotation => atf r_annot
  | TypeAlternativeClause => atf r_alt
  | TypeMapValueAllowingTypeArguments => atf r_tva
  | ContractTypeArguments => atf r_ctargs
  | FullExpression => atf r_expr
  | PatternMatchExpressionClause => atf r_eclause
  | Pattern => atf r_pattern
  | ArgumentPattern => atf r_argpattern
  | NextMessageEntry | MessageEntry => atf r_msg
  | AtomicExpression => atf r_atomic
  | ValueLiteral => atf r_lit
  | Statement | NextStatement => r_stmt
  | StatementBlock => atf r_block
  | BlockchainFetchArguments => r_bfa
  | ComponentId => atf r_cid
  | PatternMatchClause => atf r_sclause
  | RemoteFetchStatement => r_remote
  | MapAccess => atf r_access
  | ParameterPair | NextParameterPair => atf r_pair
  | ComponentParameters => atf r_params
  | ComponentDefinition => atf r_comp
  | TransitionDefinition => atf r_trans
  | ProcedureDefinition => atf r_proc
  | ComponentBody => atf r_body
  | ContractDefinition => atf r_contract
  | ContractField => atf r_cfield
  | WithConstraint => atf r_with
  | HexNumber | SignedInteger | RegularId | SpecialId | TypeOrEnumLikeIdentifierId
  | TemplateTypeId | StringLiteral => r_str
  end.
End Remap.
