(** Specification of the traversal (C30, C31): which callbacks a visitor makes
    on an emitter that always continues. *)
From Verif Require Import Chars Lexer Ast Visitor.

(** The calls an emitter receives. *)
Inductive event :=
| EvPush (a b : source_position)  (* push_source_position *)
| EvPop                           (* pop_source_position *)
| EvEmit (m : mode) (n : anynode) (* emit_xxx(mode, node) *).

(** The children of a node, in the order of the traversal: [At w] with their
    position, [Bare] without; [Extra] marks a position that is pushed but never
    popped. *)
Inductive step :=
| At (a b : source_position) (n : anynode)
| Bare (n : anynode)
| Extra (a b : source_position).
Definition at_ {A} (inj : A -> anynode) (w : wm A) : step := At (wm_start w) (wm_end w) (inj (node w)).
Definition ats {A} (inj : A -> anynode) (l : list (wm A)) : list step := map (at_ inj) l.
Definition extra {A} (w : wm A) : step := Extra (wm_start w) (wm_end w).
Definition opt_at {A} (inj : A -> anynode) (o : option (wm A)) : list step :=
  match o with Some w => [at_ inj w] | None => [] end.

(** Not visited at all: names that are plain strings, the contract's and a
    library's name, and the type annotations, type arguments and variables
    listed in the comments. *)
Definition kids (n : anynode) : list step :=
  match n with
  | AByteStr _ => []
  | ATypeNameIdentifier (ByteStringType b) => [Bare (AByteStr b)]
  | ATypeNameIdentifier _ => []
  | AImportedName (RegularImport n) => [at_ ATypeNameIdentifier n]
  | AImportedName (AliasedImport n a) => [at_ ATypeNameIdentifier n; at_ ATypeNameIdentifier a]
  | AImportDeclarations (mkImportDeclarations l) => ats AImportedName l
  | AMetaIdentifier (MetaName n) => [at_ ATypeNameIdentifier n]
  | AMetaIdentifier (MetaNameInNamespace a b) => [at_ ATypeNameIdentifier a; at_ ATypeNameIdentifier b]
  | AMetaIdentifier (MetaNameInHexspace _ n) => [at_ ATypeNameIdentifier n]
  | AMetaIdentifier MetaByteString => []
  | AVariableIdentifier (VariableInNamespace ns _) => [at_ ATypeNameIdentifier ns]
  | AVariableIdentifier _ => []
  | ABuiltinArguments (mkBuiltinArguments l) => ats AVariableIdentifier l
  | ATypeMapKey (GenericMapKey m) | ATypeMapKey (EnclosedGenericId m) => [at_ AMetaIdentifier m]
  | ATypeMapKey (EnclosedAddressMapKeyType a) | ATypeMapKey (AddressMapKeyType a) => [at_ AAddressType a]
  | ATypeMapValue (MapValueTypeOrEnumLikeIdentifier m) => [at_ AMetaIdentifier m]
  | ATypeMapValue (MapKeyValue e) => [at_ ATypeMapEntry e]
  | ATypeMapValue (MapValueParenthesizedType t) => [at_ ATypeMapValueAllowingTypeArguments t]
  | ATypeMapValue (MapValueAddressType a) => [at_ AAddressType a]
  | ATypeArgument (EnclosedTypeArgument t) => [at_ AScillaType t]
  | ATypeArgument (GenericTypeArgument m) => [at_ AMetaIdentifier m]
  | ATypeArgument (TemplateTypeArgument _) => []
  | ATypeArgument (AddressTypeArgument a) => [at_ AAddressType a]
  | ATypeArgument (MapTypeArgument k x) => [at_ ATypeMapKey k; at_ ATypeMapValue x]
  | AScillaType (GenericTypeWithArgs m args) => at_ AMetaIdentifier m :: ats ATypeArgument args
  | AScillaType (MapType k x) => [at_ ATypeMapKey k; at_ ATypeMapValue x]
  | AScillaType (FunctionType a b) => [at_ AScillaType a; at_ AScillaType b]
  | AScillaType (PolyFunctionType _ t) => [at_ AScillaType t]
  | AScillaType (EnclosedType t) => [at_ AScillaType t]
  | AScillaType (ScillaAddresseType a) => [at_ AAddressType a]
  | AScillaType (TypeVarType _) => []
  | ATypeMapEntry (mkTypeMapEntry k x) => [at_ ATypeMapKey k; at_ ATypeMapValue x]
  | AAddressTypeField (mkAddressTypeField i t) => [at_ AVariableIdentifier i; at_ AScillaType t]
  | AAddressType (mkAddressType i _ fs) => at_ ATypeNameIdentifier i :: ats AAddressTypeField fs
  | AFullExpression (LocalVariableDeclaration _ e _ c) => [at_ AFullExpression e; at_ AFullExpression c] (* not the annotation *)
  | AFullExpression (FunctionDeclaration _ _ e) => [at_ AFullExpression e] (* not the annotation *)
  | AFullExpression (FunctionCall f args) => at_ AVariableIdentifier f :: ats AVariableIdentifier args
  | AFullExpression (ExpressionAtomic a) => [at_ AAtomicExpression a]
  | AFullExpression (ExpressionBuiltin _ _ xs) => [at_ ABuiltinArguments xs] (* not the type arguments *)
  | AFullExpression (Message l) => ats AMessageEntry l
  | AFullExpression (EMatch e cs) => at_ AVariableIdentifier e :: ats APatternMatchExpressionClause cs
  | AFullExpression (ConstructorCall i _ args) => at_ AMetaIdentifier i :: ats AVariableIdentifier args (* not the type arguments *)
  | AFullExpression (TemplateFunction _ e) => [at_ AFullExpression e]
  | AFullExpression (TApp i args) => at_ AVariableIdentifier i :: ats ATypeArgument args
  | AMessageEntry (MessageLiteral i x) => [at_ AVariableIdentifier i; at_ AValueLiteral x]
  | AMessageEntry (MessageVariable i x) => [at_ AVariableIdentifier i; extra x; at_ AVariableIdentifier x]
  | APatternMatchExpressionClause (mkPatternMatchExpressionClause p e) => [at_ APattern p; at_ AFullExpression e]
  | AAtomicExpression (AtomicSid x) => [at_ AVariableIdentifier x]
  | AAtomicExpression (AtomicLit x) => [at_ AValueLiteral x]
  | AContractTypeArguments (mkContractTypeArguments l) => ats ATypeArgument l
  | AValueLiteral (LiteralInt n _) => [at_ ATypeNameIdentifier n]
  | AValueLiteral (LiteralEmptyMap k x) => [at_ ATypeMapKey k; extra x; at_ ATypeMapValue x]
  | AValueLiteral _ => []
  | AMapAccess (mkMapAccess i) => [at_ AVariableIdentifier i]
  | APattern (PatConstructor m args) => at_ AMetaIdentifier m :: ats AArgumentPattern args
  | APattern _ => []
  | AArgumentPattern (ConstructorArgument m) => [at_ AMetaIdentifier m]
  | AArgumentPattern (PatternArgument p) => [at_ APattern p]
  | AArgumentPattern _ => []
  | APatternMatchClause (mkPatternMatchClause p b) => extra p :: at_ APattern p :: opt_at AStatementBlock b
  | ABlockchainFetchArguments (mkBlockchainFetchArguments l) => ats AVariableIdentifier l
  | AStatement (Load _ x) | AStatement (Store _ x) => [at_ AVariableIdentifier x]
  | AStatement (RemoteFetch r) => [Bare (ARemoteFetchStatement r)]
  | AStatement (Bind _ e) => [at_ AFullExpression e]
  | AStatement (ReadFromBC _ _ (Some a)) => [Bare (ABlockchainFetchArguments a)]
  | AStatement (ReadFromBC _ _ None) => []
  | AStatement (MapGet _ l _) | AStatement (MapGetExists _ l _) => ats AMapAccess l
  | AStatement (MapUpdate _ l _) | AStatement (MapUpdateDelete _ l) => ats AMapAccess l (* not the new value *)
  | AStatement Accept => []
  | AStatement (Send i) | AStatement (CreateEvnt i) => [at_ AVariableIdentifier i]
  | AStatement (Throw o) => opt_at AVariableIdentifier o
  | AStatement (MatchStmt x cs) => at_ AVariableIdentifier x :: ats APatternMatchClause cs
  | AStatement (CallProc c args) => at_ AComponentId c :: ats AVariableIdentifier args
  | AStatement (Iterate i c) => [at_ AVariableIdentifier i; at_ AComponentId c]
  | ARemoteFetchStatement (ReadStateMutable _ _ x) => [at_ AVariableIdentifier x]
  | ARemoteFetchStatement (ReadStateMutableSpecialId _ _ _) => []
  | ARemoteFetchStatement (ReadStateMutableMapAccess _ _ _ l)
  | ARemoteFetchStatement (ReadStateMutableMapAccessExists _ _ _ l) => ats AMapAccess l
  | ARemoteFetchStatement (ReadStateMutableCastAddress _ x a) => [at_ AVariableIdentifier x; at_ AAddressType a]
  | AComponentId (WithTypeLikeName n) => [at_ ATypeNameIdentifier n]
  | AComponentId (WithRegularId _) => []
  | AComponentParameters (mkComponentParameters l) => ats AParameterPair l
  | AParameterPair (mkParameterPair i) => [at_ ATypedIdentifier i]
  | AComponentBody (mkComponentBody o) => opt_at AStatementBlock o
  | AStatementBlock (mkStatementBlock l) => map (fun st => Bare (AStatement st)) l
  | ATypedIdentifier (mkTypedIdentifier _ a) => [at_ ATypeAnnotation a]
  | ATypeAnnotation (mkTypeAnnotation t) => [at_ AScillaType t]
  | AProgram (mkProgram _ imp lib c) => opt_at AImportDeclarations imp ++ opt_at ALibraryDefinition lib ++ [at_ AContractDefinition c]
  | ALibraryDefinition (mkLibraryDefinition _ l) => ats ALibrarySingleDefinition l
  | ALibrarySingleDefinition (LetDefinition _ _ e) => [at_ AFullExpression e]
  | ALibrarySingleDefinition (TypeDefinition n cs) =>
      at_ ATypeNameIdentifier n :: match cs with Some cs => ats ATypeAlternativeClause cs | None => [] end
  | AContractDefinition (mkContractDefinition _ ps con fs cs) =>
      at_ AComponentParameters ps :: opt_at AWithConstraint con ++ ats AContractField fs ++ ats AComponentDefinition cs
  | AContractField (mkContractField i e) => [at_ ATypedIdentifier i; at_ AFullExpression e]
  | AWithConstraint (mkWithConstraint e) => [at_ AFullExpression e]
  | AComponentDefinition (TransitionComponent t) => [at_ ATransitionDefinition t]
  | AComponentDefinition (ProcedureComponent p) => [at_ AProcedureDefinition p]
  | AProcedureDefinition (mkProcedureDefinition n ps b) => [at_ AComponentId n; at_ AComponentParameters ps; at_ AComponentBody b]
  | ATransitionDefinition (mkTransitionDefinition n ps b) => [at_ AComponentId n; at_ AComponentParameters ps; at_ AComponentBody b]
  | ATypeAlternativeClause (ClauseType n) => [at_ ATypeNameIdentifier n]
  | ATypeAlternativeClause (ClauseTypeWithArgs n args) => at_ ATypeNameIdentifier n :: ats ATypeArgument args
  | ATypeMapValueArguments (EnclosedTypeMapValue t) => [at_ ATypeMapValueAllowingTypeArguments t]
  | ATypeMapValueArguments (GenericMapValueArgument m) => [at_ AMetaIdentifier m]
  | ATypeMapValueArguments (MapKeyValueType k x) => [at_ ATypeMapKey k; at_ ATypeMapValue x]
  | ATypeMapValueAllowingTypeArguments (TypeMapValueNoArgs t) => [at_ ATypeMapValue t]
  | ATypeMapValueAllowingTypeArguments (TypeMapValueWithArgs m args) => at_ AMetaIdentifier m :: ats ATypeMapValueArguments args
  end.

(** [walk n l]: the calls [l] are a depth-first traversal of [n]: the node is
    entered, its children are traversed in order, then the node is left. *)
Inductive walk : anynode -> list event -> Prop :=
| walk_node n body : walks (kids n) body -> walk n (EvEmit Enter n :: body ++ [EvEmit Exit n])
with walks : list step -> list event -> Prop :=
| walks_nil : walks [] []
| walks_at a b n l e es : walk n e -> walks l es -> walks (At a b n :: l) ((EvPush a b :: e ++ [EvPop]) ++ es)
| walks_bare n l e es : walk n e -> walks l es -> walks (Bare n :: l) (e ++ es)
| walks_extra a b l es : walks l es -> walks (Extra a b :: l) (EvPush a b :: es).
Scheme walk_ind2 := Induction for walk Sort Prop with walks_ind2 := Induction for walks Sort Prop.
Combined Scheme walk_mutind from walk_ind2, walks_ind2.

(** An emitter that records its calls and gives the answers [dec], which may
    depend on everything recorded so far. *)
Definition recorder (dec : list event -> mode -> anynode -> result tr) : emitter (list event) :=
  mkEmitter (list event)
    (fun a b s => s ++ [EvPush a b])
    (fun s => s ++ [EvPop])
    (fun _ m n s => Ret (dec s m n) (s ++ [EvEmit m n])).

(** The state of an emitter after the calls [l], when its answers are ignored:
    [f m n] is what [emit] does to the state. *)
Definition play {S} (E : emitter S) (f : mode -> anynode -> S -> S) (l : list event) (s : S) : S :=
  fold_left (fun s e => match e with
                        | EvPush a b => push_source_position E a b s
                        | EvPop => pop_source_position E s
                        | EvEmit m n => f m n s
                        end) l s.

(** An emitter that always answers [Ok(Continue)], changing its state by [f]. *)
Definition continues {S} (E : emitter S) (f : mode -> anynode -> S -> S) : Prop :=
  forall v m n s, emit E v m n s = Ret (Ok Continue) (f m n s).

Definition is_address (n : anynode) : bool := match n with AAddressType _ => true | _ => false end.

(** No library [let] definition below the node. *)
Definition is_let (d : NodeLibrarySingleDefinition) : bool := match d with LetDefinition _ _ _ => true | _ => false end.
Definition lets_of (l : NodeLibraryDefinition) : bool :=
  match l with mkLibraryDefinition _ ds => existsb (fun d => is_let (node d)) ds end.
Definition has_let (n : anynode) : bool :=
  match n with
  | ALibrarySingleDefinition d => is_let d
  | ALibraryDefinition l => lets_of l
  | AProgram (mkProgram _ _ (Some l) _) => lets_of (node l)
  | _ => false
  end.

(** The nodes among the children. *)
Definition step_node (st : step) : list anynode :=
  match st with At _ _ n | Bare n => [n] | Extra _ _ => [] end.
Definition kid_nodes (n : anynode) : list anynode := flat_map step_node (kids n).

(** ** Height of a node: a bound on the recursion depth of a traversal *)
Local Open Scope nat_scope.
Definition h_name : nat := 2.
Definition h_meta : nat := 3.
Definition h_var : nat := 3.
Definition maxs {A} (h : A -> nat) (l : list (wm A)) : nat := list_max (map (fun w => h (node w)) l).
Definition opt_h {A} (h : A -> nat) (o : option (wm A)) : nat := match o with Some w => h (node w) | None => 0 end.

Fixpoint h_key (k : NodeTypeMapKey) : nat :=
  match k with
  | GenericMapKey _ | EnclosedGenericId _ => 1 + h_meta
  | EnclosedAddressMapKeyType a | AddressMapKeyType a => 1 + h_addr (node a)
  end
with h_value (x : NodeTypeMapValue) : nat :=
  match x with
  | MapValueTypeOrEnumLikeIdentifier _ => 1 + h_meta
  | MapKeyValue e => 1 + h_entry (node e)
  | MapValueParenthesizedType t => 1 + h_tva (node t)
  | MapValueAddressType a => 1 + h_addr (node a)
  end
with h_arg (x : NodeTypeArgument) : nat :=
  match x with
  | EnclosedTypeArgument t => 1 + h_type (node t)
  | GenericTypeArgument _ => 1 + h_meta
  | TemplateTypeArgument _ => 1
  | AddressTypeArgument a => 1 + h_addr (node a)
  | MapTypeArgument k x => 1 + (h_key (node k) + h_value (node x))
  end
with h_type (t : NodeScillaType) : nat :=
  match t with
  | GenericTypeWithArgs _ args => 1 + (h_meta + list_max (map (fun a => h_arg (node a)) args))
  | MapType k x => 1 + (h_key (node k) + h_value (node x))
  | FunctionType a b => 1 + (h_type (node a) + h_type (node b))
  | EnclosedType t => 1 + h_type (node t)
  | ScillaAddresseType a => 1 + h_addr (node a)
  | PolyFunctionType _ t => 1 + h_type (node t)
  | TypeVarType _ => 1
  end
with h_entry (e : NodeTypeMapEntry) : nat :=
  match e with mkTypeMapEntry k x => 1 + (h_key (node k) + h_value (node x)) end
with h_afield (f : NodeAddressTypeField) : nat :=
  match f with mkAddressTypeField _ t => 1 + (h_var + h_type (node t)) end
with h_addr (a : NodeAddressType) : nat :=
  match a with mkAddressType _ _ fs => 1 + (h_name + list_max (map (fun f => h_afield (node f)) fs)) end
with h_tvarg (x : NodeTypeMapValueArguments) : nat :=
  match x with
  | EnclosedTypeMapValue t => 1 + h_tva (node t)
  | GenericMapValueArgument _ => 1 + h_meta
  | MapKeyValueType k x => 1 + (h_key (node k) + h_value (node x))
  end
with h_tva (x : NodeTypeMapValueAllowingTypeArguments) : nat :=
  match x with
  | TypeMapValueNoArgs x => 1 + h_value (node x)
  | TypeMapValueWithArgs _ args => 1 + (h_meta + list_max (map (fun a => h_tvarg (node a)) args))
  end.
Definition h_lit (x : NodeValueLiteral) : nat :=
  match x with LiteralEmptyMap k x => 1 + (h_key (node k) + h_value (node x)) | _ => 1 + h_name end.
Definition h_atomic (x : NodeAtomicExpression) : nat :=
  match x with AtomicSid _ => 1 + h_var | AtomicLit x => 1 + h_lit (node x) end.
Definition h_msg (x : NodeMessageEntry) : nat :=
  match x with MessageLiteral _ x => 1 + (h_var + h_lit (node x)) | MessageVariable _ _ => 1 + h_var end.
Fixpoint h_pat (p : NodePattern) : nat :=
  match p with
  | PatConstructor _ args => 1 + (h_meta + list_max (map (fun a => h_argpat (node a)) args))
  | _ => 1
  end
with h_argpat (p : NodeArgumentPattern) : nat :=
  match p with
  | ConstructorArgument _ => 1 + h_meta
  | PatternArgument p => 1 + h_pat (node p)
  | _ => 1
  end.
Fixpoint h_expr (e : NodeFullExpression) : nat :=
  match e with
  | LocalVariableDeclaration _ e _ c => 1 + (h_expr (node e) + h_expr (node c))
  | FunctionDeclaration _ _ e => 1 + h_expr (node e)
  | FunctionCall _ _ => 1 + h_var
  | ExpressionAtomic a => 1 + h_atomic (node a)
  | ExpressionBuiltin _ _ _ => 2 + h_var
  | Message l => 1 + maxs h_msg l
  | EMatch _ cs => 1 + (h_var + list_max (map (fun c => h_clause (node c)) cs))
  | ConstructorCall _ _ _ => 1 + h_meta
  | TemplateFunction _ e => 1 + h_expr (node e)
  | TApp _ args => 1 + (h_var + maxs h_arg args)
  end
with h_clause (c : NodePatternMatchExpressionClause) : nat :=
  match c with mkPatternMatchExpressionClause p e => 1 + (h_pat (node p) + h_expr (node e)) end.
Definition h_cid : nat := 3.
Definition h_access : nat := 4.
Definition h_remote (r : NodeRemoteFetchStatement) : nat :=
  match r with
  | ReadStateMutableCastAddress _ _ a => 1 + (h_var + h_addr (node a))
  | _ => 1 + h_access
  end.
Fixpoint h_stmt (x : NodeStatement) : nat :=
  match x with
  | RemoteFetch r => 1 + h_remote r
  | Bind _ e => 1 + h_expr (node e)
  | MatchStmt _ cs => 1 + (h_var + list_max (map (fun c => h_sclause (node c)) cs))
  | _ => 2 + h_access
  end
with h_sclause (c : NodePatternMatchClause) : nat :=
  match c with
  | mkPatternMatchClause p b => 1 + (h_pat (node p) + match b with Some b => h_block (node b) | None => 0 end)
  end
with h_block (b : NodeStatementBlock) : nat :=
  match b with mkStatementBlock l => 1 + list_max (map h_stmt l) end.
Definition h_annot (a : NodeTypeAnnotation) : nat := match a with mkTypeAnnotation t => 1 + h_type (node t) end.
Definition h_typed (t : NodeTypedIdentifier) : nat := match t with mkTypedIdentifier _ a => 1 + h_annot (node a) end.
Definition h_pair (p : NodeParameterPair) : nat := match p with mkParameterPair t => 1 + h_typed (node t) end.
Definition h_params (p : NodeComponentParameters) : nat :=
  match p with mkComponentParameters l => 1 + maxs h_pair l end.
Definition h_body (b : NodeComponentBody) : nat :=
  match b with mkComponentBody o => 1 + opt_h h_block o end.
Definition h_alt (c : NodeTypeAlternativeClause) : nat :=
  match c with ClauseType _ => 1 + h_name | ClauseTypeWithArgs _ args => 1 + (h_name + maxs h_arg args) end.
Definition h_single (d : NodeLibrarySingleDefinition) : nat :=
  match d with
  | LetDefinition _ _ e => 1 + h_expr (node e)
  | TypeDefinition _ cs => 1 + (h_name + match cs with Some cs => maxs h_alt cs | None => 0 end)
  end.
Definition h_library (l : NodeLibraryDefinition) : nat :=
  match l with mkLibraryDefinition _ ds => 1 + maxs h_single ds end.
Definition h_cfield (f : NodeContractField) : nat :=
  match f with mkContractField t e => 1 + (h_typed (node t) + h_expr (node e)) end.
Definition h_with (c : NodeWithConstraint) : nat := match c with mkWithConstraint e => 1 + h_expr (node e) end.
Definition h_proc (p : NodeProcedureDefinition) : nat :=
  match p with mkProcedureDefinition _ ps b => 1 + (h_cid + h_params (node ps) + h_body (node b)) end.
Definition h_trans (p : NodeTransitionDefinition) : nat :=
  match p with mkTransitionDefinition _ ps b => 1 + (h_cid + h_params (node ps) + h_body (node b)) end.
Definition h_comp (c : NodeComponentDefinition) : nat :=
  match c with TransitionComponent t => 1 + h_trans (node t) | ProcedureComponent p => 1 + h_proc (node p) end.
Definition h_contract (c : NodeContractDefinition) : nat :=
  match c with
  | mkContractDefinition _ ps con fs cs =>
      1 + (h_params (node ps) + opt_h h_with con + maxs h_cfield fs + maxs h_comp cs)
  end.
Definition h_imported : nat := 3.
Definition h_imports : nat := 4.
Definition h_program (p : NodeProgram) : nat :=
  match p with mkProgram _ imp lib c => 1 + (h_imports + opt_h h_library lib + h_contract (node c)) end.

Definition height (n : anynode) : nat :=
  match n with
  | AByteStr _ => 1
  | ATypeNameIdentifier _ => h_name
  | AImportedName _ => h_imported
  | AImportDeclarations _ => h_imports
  | AMetaIdentifier _ => h_meta
  | AVariableIdentifier _ => h_var
  | ABuiltinArguments _ => 1 + h_var
  | ATypeMapKey k => h_key k
  | ATypeMapValue x => h_value x
  | ATypeArgument x => h_arg x
  | AScillaType t => h_type t
  | ATypeMapEntry e => h_entry e
  | AAddressTypeField f => h_afield f
  | AAddressType a => h_addr a
  | AFullExpression e => h_expr e
  | AMessageEntry x => h_msg x
  | APatternMatchExpressionClause c => h_clause c
  | AAtomicExpression x => h_atomic x
  | AContractTypeArguments (mkContractTypeArguments l) => 1 + maxs h_arg l
  | AValueLiteral x => h_lit x
  | AMapAccess _ => h_access
  | APattern p => h_pat p
  | AArgumentPattern p => h_argpat p
  | APatternMatchClause c => h_sclause c
  | ABlockchainFetchArguments _ => 1 + h_var
  | AStatement x => h_stmt x
  | ARemoteFetchStatement r => h_remote r
  | AComponentId _ => h_cid
  | AComponentParameters p => h_params p
  | AParameterPair p => h_pair p
  | AComponentBody b => h_body b
  | AStatementBlock b => h_block b
  | ATypedIdentifier t => h_typed t
  | ATypeAnnotation a => h_annot a
  | AProgram p => h_program p
  | ALibraryDefinition l => h_library l
  | ALibrarySingleDefinition d => h_single d
  | AContractDefinition c => h_contract c
  | AContractField f => h_cfield f
  | AWithConstraint c => h_with c
  | AComponentDefinition c => h_comp c
  | AProcedureDefinition p => h_proc p
  | ATransitionDefinition p => h_trans p
  | ATypeAlternativeClause c => h_alt c
  | ATypeMapValueArguments x => h_tvarg x
  | ATypeMapValueAllowingTypeArguments x => h_tva x
  end.
