(** Model of src/ast/visitor.rs, src/ast/converting.rs and src/ast/mod.rs:
    the traversal of the AST, generic in the emitter. *)
From Verif Require Import Chars Lexer Ast.

(** src/ast/mod.rs:6-12 [TreeTraversalMode] and 14-20 [TraversalResult] *)
Inductive mode := Enter | Exit.
Inductive tr := Continue | SkipChildren.

(** [Result<T, String>] *)
Inductive result (A : Type) := Ok (a : A) | Err (msg : str).
Arguments Ok {A} _.
Arguments Err {A} _.

(** Outcome of running Rust code on an emitter in state [S]: it returns a
    result and the new state, or panics, or (model only) the depth bound [Fuel]
    of the recursion was too small. *)
Inductive outcome (S A : Type) := Ret (r : result A) (s : S) | Panic | Fuel.
Arguments Ret {S A} _ _.
Arguments Panic {S A}.
Arguments Fuel {S A}.

Definition M (S A : Type) := S -> outcome S A.
Definition ret {S A} (a : A) : M S A := fun s => Ret (Ok a) s.
Definition raise {S A} (e : str) : M S A := fun s => Ret (Err e) s.
Definition panic {S A} : M S A := fun _ => Panic.
(** Run [m] and hand its [Result] (not only the success value) to [k]. *)
Definition bind_res {S A B} (m : M S A) (k : result A -> M S B) : M S B :=
  fun s => match m s with
           | Ret r s' => k r s'
           | Panic => Panic
           | Fuel => Fuel
           end.
(** The [?] operator. *)
Definition bind {S A B} (m : M S A) (k : A -> M S B) : M S B :=
  bind_res m (fun r => match r with Ok a => k a | Err e => raise e end).
Notation "x <- m ;; k" := (bind m (fun x => k)) (at level 60, m at next level, right associativity).
Notation "m ;;; k" := (bind m (fun _ => k)) (at level 60, right associativity).
Notation "r <-- m ;; k" := (bind_res m (fun r => k)) (at level 60, m at next level, right associativity).
Definition of_result {S A} (r : result A) : M S A := fun s => Ret r s.

(** The nodes that implement [AstVisitor] (one [impl] each in visitor.rs), as
    one type. *)
Inductive anynode :=
| AByteStr (n : NodeByteStr)
| ATypeNameIdentifier (n : NodeTypeNameIdentifier)
| AImportedName (n : NodeImportedName)
| AImportDeclarations (n : NodeImportDeclarations)
| AMetaIdentifier (n : NodeMetaIdentifier)
| AVariableIdentifier (n : NodeVariableIdentifier)
| ABuiltinArguments (n : NodeBuiltinArguments)
| ATypeMapKey (n : NodeTypeMapKey)
| ATypeMapValue (n : NodeTypeMapValue)
| ATypeArgument (n : NodeTypeArgument)
| AScillaType (n : NodeScillaType)
| ATypeMapEntry (n : NodeTypeMapEntry)
| AAddressTypeField (n : NodeAddressTypeField)
| AAddressType (n : NodeAddressType)
| AFullExpression (n : NodeFullExpression)
| AMessageEntry (n : NodeMessageEntry)
| APatternMatchExpressionClause (n : NodePatternMatchExpressionClause)
| AAtomicExpression (n : NodeAtomicExpression)
| AContractTypeArguments (n : NodeContractTypeArguments)
| AValueLiteral (n : NodeValueLiteral)
| AMapAccess (n : NodeMapAccess)
| APattern (n : NodePattern)
| AArgumentPattern (n : NodeArgumentPattern)
| APatternMatchClause (n : NodePatternMatchClause)
| ABlockchainFetchArguments (n : NodeBlockchainFetchArguments)
| AStatement (n : NodeStatement)
| ARemoteFetchStatement (n : NodeRemoteFetchStatement)
| AComponentId (n : NodeComponentId)
| AComponentParameters (n : NodeComponentParameters)
| AParameterPair (n : NodeParameterPair)
| AComponentBody (n : NodeComponentBody)
| AStatementBlock (n : NodeStatementBlock)
| ATypedIdentifier (n : NodeTypedIdentifier)
| ATypeAnnotation (n : NodeTypeAnnotation)
| AProgram (n : NodeProgram)
| ALibraryDefinition (n : NodeLibraryDefinition)
| ALibrarySingleDefinition (n : NodeLibrarySingleDefinition)
| AContractDefinition (n : NodeContractDefinition)
| AContractField (n : NodeContractField)
| AWithConstraint (n : NodeWithConstraint)
| AComponentDefinition (n : NodeComponentDefinition)
| AProcedureDefinition (n : NodeProcedureDefinition)
| ATransitionDefinition (n : NodeTransitionDefinition)
| ATypeAlternativeClause (n : NodeTypeAlternativeClause)
| ATypeMapValueArguments (n : NodeTypeMapValueArguments)
| ATypeMapValueAllowingTypeArguments (n : NodeTypeMapValueAllowingTypeArguments).

(** src/ast/converting.rs:10-340 [trait AstConverting].  The 46 [emit_*]
    methods are one function [emit] by cases on the node; an [emit_*] method
    may itself call [.visit(self)] on nodes, so it receives the visiting
    function. *)
Record emitter (S : Type) := mkEmitter
  { push_source_position : source_position -> source_position -> S -> S;
    pop_source_position : S -> S;
    emit : (anynode -> M S tr) -> mode -> anynode -> M S tr }.
Arguments push_source_position {S} _ _ _ _.
Arguments pop_source_position {S} _ _.
Arguments emit {S} _ _ _ _.

(** How the visit of the children ended: with the value of [children_ret], or
    by an early [return Ok(t)] out of the node's [visit]. *)
Inductive kid := Kid (t : tr) | Early (t : tr).

Section Visit.
  Context {S : Type} (E : emitter S).

  (** visitor.rs:13-21 [impl AstVisitor for WithMetaData<T>] *)
  Definition visit_wm {A} (v : anynode -> M S tr) (inj : A -> anynode) (w : wm A) : M S tr :=
    fun s =>
      match v (inj (node w)) (push_source_position E (wm_start w) (wm_end w) s) with
      | Ret r s' => Ret r (pop_source_position E s')
      | Panic => Panic
      | Fuel => Fuel
      end.

  (** An additional, unmatched [emitter.push_source_position(..)]
      (visitor.rs:436, 522, 605). *)
  Definition push_pos {A} (w : wm A) : M S unit :=
    fun s => Ret (Ok tt) (push_source_position E (wm_start w) (wm_end w) s).

  (** The common shape of all [visit] methods: [emit_*(Enter)], the children
      unless the result is other than [Ok(Continue)], then [emit_*(Exit)]
      unless the children were skipped (e.g. visitor.rs:58-79). *)
  Definition standard (e : mode -> M S tr) (children : M S kid) : M S tr :=
    r <-- e Enter ;;
    k <- match r with
         | Ok Continue => children
         | Ok SkipChildren => ret (Kid SkipChildren)
         | Err m => raise m
         end ;;
    match k with
    | Kid Continue => e Exit
    | Kid SkipChildren => ret Continue
    | Early t => ret t
    end.

  Section Children.
    Context (v : anynode -> M S tr).
    Notation vis inj w := (visit_wm v inj w).

    Definition kid_of (m : M S tr) : M S kid := t <- m ;; ret (Kid t).
    Definition kcont : M S kid := ret (Kid Continue).

    (** [for x in xs { x.visit(emitter)?; }] *)
    Fixpoint visit_all {A} (inj : A -> anynode) (l : list (wm A)) : M S unit :=
      match l with
      | [] => ret tt
      | w :: r => vis inj w ;;; visit_all inj r
      end.

    (** [for x in xs { let ret = x.visit(emitter); if ret != Ok(Continue) { return ret; } }] *)
    Fixpoint visit_until {A} (inj : A -> anynode) (l : list (wm A)) : M S kid :=
      match l with
      | [] => kcont
      | w :: r => t <- vis inj w ;;
                  match t with Continue => visit_until inj r | SkipChildren => ret (Early SkipChildren) end
      end.

    (** [.map(visit).find(|r| *r == Err(msg)).unwrap_or(Ok(Continue))]
        (visitor.rs:157-161, 497-501): visits the elements in order until one
        fails with exactly the message [msg]; other failures are ignored. *)
    Fixpoint visit_find {A} (inj : A -> anynode) (msg : str) (l : list (wm A)) : M S kid :=
      match l with
      | [] => kcont
      | w :: r => x <-- vis inj w ;;
                  match x with
                  | Err m => if str_eqb m msg then raise m else visit_find inj msg r
                  | Ok _ => visit_find inj msg r
                  end
      end.

    (** visitor.rs:1226-1237: [ret] of the last visited element *)
    Fixpoint visit_args {A} (inj : A -> anynode) (l : list (wm A)) : M S tr :=
      match l with
      | [] => ret Continue
      | w :: r => t <- vis inj w ;;
                  match t with Continue => visit_args inj r | SkipChildren => ret SkipChildren end
      end.

    (** The [if ret == Ok(Continue) { .. }] part of each [visit]. *)
    Definition children (n : anynode) : M S kid :=
      match n with
      (* visitor.rs:23-34 *)
      | AByteStr _ => kcont
      (* visitor.rs:36-56; the child is not wrapped in [WithMetaData] *)
      | ATypeNameIdentifier (ByteStringType b) => kid_of (v (AByteStr b))
      | ATypeNameIdentifier _ => kcont
      (* visitor.rs:58-79 *)
      | AImportedName (RegularImport n) => kid_of (vis ATypeNameIdentifier n)
      | AImportedName (AliasedImport n a) =>
          vis ATypeNameIdentifier n ;;; kid_of (vis ATypeNameIdentifier a)
      (* visitor.rs:81-99 *)
      | AImportDeclarations (mkImportDeclarations l) => visit_all AImportedName l ;;; kcont
      (* visitor.rs:101-124 *)
      | AMetaIdentifier (MetaName n) => kid_of (vis ATypeNameIdentifier n)
      | AMetaIdentifier (MetaNameInNamespace a b) =>
          vis ATypeNameIdentifier a ;;; kid_of (vis ATypeNameIdentifier b)
      | AMetaIdentifier (MetaNameInHexspace _ n) => kid_of (vis ATypeNameIdentifier n)
      | AMetaIdentifier MetaByteString => kcont
      (* visitor.rs:126-148 *)
      | AVariableIdentifier (VariableInNamespace ns _) => kid_of (vis ATypeNameIdentifier ns)
      | AVariableIdentifier _ => kcont
      (* visitor.rs:150-173 *)
      | ABuiltinArguments (mkBuiltinArguments l) => visit_find AVariableIdentifier (lit "Failure") l
      (* visitor.rs:175-197 *)
      | ATypeMapKey (GenericMapKey m) => kid_of (vis AMetaIdentifier m)
      | ATypeMapKey (EnclosedGenericId m) => kid_of (vis AMetaIdentifier m)
      | ATypeMapKey (EnclosedAddressMapKeyType a) => kid_of (vis AAddressType a)
      | ATypeMapKey (AddressMapKeyType a) => kid_of (vis AAddressType a)
      (* visitor.rs:199-219 *)
      | ATypeMapValue (MapValueTypeOrEnumLikeIdentifier m) => kid_of (vis AMetaIdentifier m)
      | ATypeMapValue (MapKeyValue e) => kid_of (vis ATypeMapEntry e)
      | ATypeMapValue (MapValueParenthesizedType t) =>
          kid_of (vis ATypeMapValueAllowingTypeArguments t)
      | ATypeMapValue (MapValueAddressType a) => kid_of (vis AAddressType a)
      (* visitor.rs:221-246 *)
      | ATypeArgument (EnclosedTypeArgument t) => kid_of (vis AScillaType t)
      | ATypeArgument (GenericTypeArgument m) => kid_of (vis AMetaIdentifier m)
      | ATypeArgument (TemplateTypeArgument _) => kcont
      | ATypeArgument (AddressTypeArgument a) => kid_of (vis AAddressType a)
      | ATypeArgument (MapTypeArgument k x) =>
          t <- vis ATypeMapKey k ;;
          match t with Continue => kid_of (vis ATypeMapValue x) | SkipChildren => kcont end
      (* visitor.rs:248-281 *)
      | AScillaType (GenericTypeWithArgs m args) =>
          vis AMetaIdentifier m ;;; visit_all ATypeArgument args ;;; kcont
      | AScillaType (MapType k x) => vis ATypeMapKey k ;;; kid_of (vis ATypeMapValue x)
      | AScillaType (FunctionType a b) => vis AScillaType a ;;; kid_of (vis AScillaType b)
      | AScillaType (PolyFunctionType _ t) => kid_of (vis AScillaType t)
      | AScillaType (EnclosedType t) => kid_of (vis AScillaType t)
      | AScillaType (ScillaAddresseType a) => kid_of (vis AAddressType a)
      | AScillaType (TypeVarType _) => kcont
      (* visitor.rs:283-297 *)
      | ATypeMapEntry (mkTypeMapEntry k x) => vis ATypeMapKey k ;;; kid_of (vis ATypeMapValue x)
      (* visitor.rs:299-315 *)
      | AAddressTypeField (mkAddressTypeField i t) =>
          vis AVariableIdentifier i ;;; kid_of (vis AScillaType t)
      (* visitor.rs:320-328; the final [ret] is [Ok(Continue)] *)
      | AAddressType (mkAddressType i _ fs) =>
          vis ATypeNameIdentifier i ;;; visit_all AAddressTypeField fs ;;; kcont
      (* visitor.rs:339-423 *)
      | AFullExpression (LocalVariableDeclaration _ e _ c) =>
          vis AFullExpression e ;;; kid_of (vis AFullExpression c)
      | AFullExpression (FunctionDeclaration _ _ e) => kid_of (vis AFullExpression e)
      | AFullExpression (FunctionCall f args) =>
          vis AVariableIdentifier f ;;; visit_all AVariableIdentifier args ;;; kcont
      | AFullExpression (ExpressionAtomic a) => kid_of (vis AAtomicExpression a)
      | AFullExpression (ExpressionBuiltin _ _ xs) => kid_of (vis ABuiltinArguments xs)
      | AFullExpression (Message l) => visit_all AMessageEntry l ;;; kcont
      | AFullExpression (EMatch e cs) =>
          vis AVariableIdentifier e ;;; visit_all APatternMatchExpressionClause cs ;;; kcont
      | AFullExpression (ConstructorCall i _ args) =>
          vis AMetaIdentifier i ;;; visit_all AVariableIdentifier args ;;; kcont
      | AFullExpression (TemplateFunction _ e) => kid_of (vis AFullExpression e)
      | AFullExpression (TApp i args) =>
          vis AVariableIdentifier i ;;; visit_all ATypeArgument args ;;; kcont
      (* visitor.rs:425-448 *)
      | AMessageEntry (MessageLiteral i x) =>
          vis AVariableIdentifier i ;;; kid_of (vis AValueLiteral x)
      | AMessageEntry (MessageVariable i x) =>
          vis AVariableIdentifier i ;;; push_pos x ;;; kid_of (vis AVariableIdentifier x)
      (* visitor.rs:450-470 *)
      | APatternMatchExpressionClause (mkPatternMatchExpressionClause p e) =>
          t <- vis APattern p ;;
          match t with
          | Continue => kid_of (vis AFullExpression e)
          | SkipChildren => ret (Kid SkipChildren)
          end
      (* visitor.rs:472-491 *)
      | AAtomicExpression (AtomicSid x) => kid_of (vis AVariableIdentifier x)
      | AAtomicExpression (AtomicLit x) => kid_of (vis AValueLiteral x)
      (* visitor.rs:493-512 *)
      | AContractTypeArguments (mkContractTypeArguments l) => visit_find ATypeArgument [] l
      (* visitor.rs:514-535 *)
      | AValueLiteral (LiteralInt n _) => kid_of (vis ATypeNameIdentifier n)
      | AValueLiteral (LiteralEmptyMap k x) =>
          vis ATypeMapKey k ;;; push_pos x ;;; kid_of (vis ATypeMapValue x)
      | AValueLiteral _ => kcont
      (* visitor.rs:537-550 *)
      | AMapAccess (mkMapAccess i) => kid_of (vis AVariableIdentifier i)
      (* visitor.rs:552-575 *)
      | APattern Wildcard => kcont
      | APattern (Binder _) => kcont
      | APattern (PatConstructor m args) =>
          vis AMetaIdentifier m ;;; visit_all AArgumentPattern args ;;; kcont
      (* visitor.rs:577-599 *)
      | AArgumentPattern WildcardArgument => kcont
      | AArgumentPattern (BinderArgument _) => kcont
      | AArgumentPattern (ConstructorArgument m) => kid_of (vis AMetaIdentifier m)
      | AArgumentPattern (PatternArgument p) => kid_of (vis APattern p)
      (* visitor.rs:601-624 *)
      | APatternMatchClause (mkPatternMatchClause p b) =>
          push_pos p ;;; vis APattern p ;;;
          match b with Some b => kid_of (vis AStatementBlock b) | None => kcont end
      (* visitor.rs:626-642 *)
      | ABlockchainFetchArguments (mkBlockchainFetchArguments l) =>
          visit_all AVariableIdentifier l ;;; kcont
      (* visitor.rs:644-749 *)
      | AStatement (Load _ x) => kid_of (vis AVariableIdentifier x)
      | AStatement (Store _ x) => kid_of (vis AVariableIdentifier x)
      | AStatement (RemoteFetch r) => kid_of (v (ARemoteFetchStatement r))
      | AStatement (Bind _ e) => kid_of (vis AFullExpression e)
      | AStatement (ReadFromBC _ _ (Some a)) => kid_of (v (ABlockchainFetchArguments a))
      | AStatement (ReadFromBC _ _ None) => kcont
      | AStatement (MapGet _ keys _) => visit_until AMapAccess keys
      | AStatement (MapGetExists _ keys _) => visit_until AMapAccess keys
      | AStatement (MapUpdate _ keys _) => visit_until AMapAccess keys
      | AStatement (MapUpdateDelete _ keys) => visit_until AMapAccess keys
      | AStatement Accept => kcont
      | AStatement (Send i) => kid_of (vis AVariableIdentifier i)
      | AStatement (CreateEvnt i) => kid_of (vis AVariableIdentifier i)
      | AStatement (Throw (Some x)) => kid_of (vis AVariableIdentifier x)
      | AStatement (Throw None) => kcont
      | AStatement (MatchStmt x cs) =>
          t <- vis AVariableIdentifier x ;;
          match t with
          | Continue => visit_until APatternMatchClause cs
          | SkipChildren => ret (Early SkipChildren)
          end
      | AStatement (CallProc c args) =>
          t <- vis AComponentId c ;;
          match t with
          | Continue => visit_until AVariableIdentifier args
          | SkipChildren => ret (Early SkipChildren)
          end
      | AStatement (Iterate i c) =>
          t <- vis AVariableIdentifier i ;;
          match t with
          | Continue => kid_of (vis AComponentId c)
          | SkipChildren => ret (Early SkipChildren)
          end
      (* visitor.rs:751-789 *)
      | ARemoteFetchStatement (ReadStateMutable _ _ x) => kid_of (vis AVariableIdentifier x)
      | ARemoteFetchStatement (ReadStateMutableSpecialId _ _ _) => kcont
      | ARemoteFetchStatement (ReadStateMutableMapAccess _ _ _ l) => visit_all AMapAccess l ;;; kcont
      | ARemoteFetchStatement (ReadStateMutableMapAccessExists _ _ _ l) =>
          visit_all AMapAccess l ;;; kcont
      | ARemoteFetchStatement (ReadStateMutableCastAddress _ x a) =>
          vis AVariableIdentifier x ;;; kid_of (vis AAddressType a)
      (* visitor.rs:791-811 *)
      | AComponentId (WithTypeLikeName n) => kid_of (vis ATypeNameIdentifier n)
      | AComponentId (WithRegularId _) => kcont
      (* visitor.rs:813-831 *)
      | AComponentParameters (mkComponentParameters l) => visit_all AParameterPair l ;;; kcont
      (* visitor.rs:833-846 *)
      | AParameterPair (mkParameterPair i) => kid_of (vis ATypedIdentifier i)
      (* visitor.rs:848-865 *)
      | AComponentBody (mkComponentBody (Some b)) => kid_of (vis AStatementBlock b)
      | AComponentBody (mkComponentBody None) => kcont
      (* visitor.rs:867-886; statements are not wrapped in [WithMetaData] *)
      | AStatementBlock (mkStatementBlock l) =>
          (fix go (l : list NodeStatement) : M S unit :=
             match l with
             | [] => ret tt
             | st :: r => v (AStatement st) ;;; go r
             end) l ;;; kcont
      (* visitor.rs:888-905 *)
      | ATypedIdentifier (mkTypedIdentifier _ a) => kid_of (vis ATypeAnnotation a)
      (* visitor.rs:907-923 *)
      | ATypeAnnotation (mkTypeAnnotation t) => kid_of (vis AScillaType t)
      (* visitor.rs:925-958 *)
      | AProgram (mkProgram _ imp lib c) =>
          k <- match imp with
               | Some i => t <- vis AImportDeclarations i ;;
                           match t with Continue => kcont | SkipChildren => ret (Early SkipChildren) end
               | None => kcont
               end ;;
          match k with
          | Early t => ret (Early t)
          | Kid _ =>
              k <- match lib with
                   | Some l => t <- vis ALibraryDefinition l ;;
                               match t with
                               | Continue => kcont
                               | SkipChildren => ret (Early SkipChildren)
                               end
                   | None => kcont
                   end ;;
              match k with
              | Early t => ret (Early t)
              | Kid _ => kid_of (vis AContractDefinition c)
              end
          end
      (* visitor.rs:960-983 *)
      | ALibraryDefinition (mkLibraryDefinition _ l) => visit_all ALibrarySingleDefinition l ;;; kcont
      (* visitor.rs:984-1026; line 997 [unimplemented!()] *)
      | ALibrarySingleDefinition (LetDefinition _ _ e) => vis AFullExpression e ;;; panic
      | ALibrarySingleDefinition (TypeDefinition n cs) =>
          vis ATypeNameIdentifier n ;;;
          match cs with
          | Some cs => visit_all ATypeAlternativeClause cs ;;; kcont
          | None => kcont
          end
      (* visitor.rs:1027-1056 *)
      | AContractDefinition (mkContractDefinition _ ps con fs cs) =>
          vis AComponentParameters ps ;;;
          match con with Some w => vis AWithConstraint w ;;; ret tt | None => ret tt end ;;;
          visit_all AContractField fs ;;;
          visit_all AComponentDefinition cs ;;; kcont
      (* visitor.rs:1058-1074 *)
      | AContractField (mkContractField i e) =>
          vis ATypedIdentifier i ;;; kid_of (vis AFullExpression e)
      (* visitor.rs:1075-1090 *)
      | AWithConstraint (mkWithConstraint e) => kid_of (vis AFullExpression e)
      (* visitor.rs:1091-1113 *)
      | AComponentDefinition (TransitionComponent t) => kid_of (vis ATransitionDefinition t)
      | AComponentDefinition (ProcedureComponent p) => kid_of (vis AProcedureDefinition p)
      (* visitor.rs:1114-1136 *)
      | AProcedureDefinition (mkProcedureDefinition n ps b) =>
          vis AComponentId n ;;; vis AComponentParameters ps ;;; kid_of (vis AComponentBody b)
      (* visitor.rs:1137-1154 *)
      | ATransitionDefinition (mkTransitionDefinition n ps b) =>
          vis AComponentId n ;;; vis AComponentParameters ps ;;; kid_of (vis AComponentBody b)
      (* visitor.rs:1156-1181 *)
      | ATypeAlternativeClause (ClauseType n) => kid_of (vis ATypeNameIdentifier n)
      | ATypeAlternativeClause (ClauseTypeWithArgs n args) =>
          vis ATypeNameIdentifier n ;;; visit_all ATypeArgument args ;;; kcont
      (* visitor.rs:1183-1211 *)
      | ATypeMapValueArguments (EnclosedTypeMapValue t) =>
          kid_of (vis ATypeMapValueAllowingTypeArguments t)
      | ATypeMapValueArguments (GenericMapValueArgument m) => kid_of (vis AMetaIdentifier m)
      | ATypeMapValueArguments (MapKeyValueType k x) =>
          vis ATypeMapKey k ;;; kid_of (vis ATypeMapValue x)
      (* visitor.rs:1213-1250 *)
      | ATypeMapValueAllowingTypeArguments (TypeMapValueNoArgs t) => kid_of (vis ATypeMapValue t)
      | ATypeMapValueAllowingTypeArguments (TypeMapValueWithArgs m args) =>
          t <- vis AMetaIdentifier m ;;
          match t with
          | Continue => kid_of (visit_args ATypeMapValueArguments args)
          | SkipChildren => ret (Kid SkipChildren)
          end
      end.

    (** One [visit] call, given how nested [visit] calls behave. *)
    Definition visit_node (n : anynode) : M S tr :=
      match n with
      | AAddressType _ =>
          (* visitor.rs:317-337: every [emit_address_type(Enter)] result other
             than [Ok(Continue)], errors included, is replaced by [Ok(Continue)] *)
          r <-- emit E v Enter n ;;
          k <- match r with
               | Ok Continue => children n
               | _ => kcont
               end ;;
          match k with
          | Kid Continue => emit E v Exit n
          | Kid SkipChildren => ret Continue
          | Early t => ret t
          end
      | _ => standard (fun m => emit E v m n) (children n)
      end.
  End Children.

  (** [node.visit(emitter)] with recursion depth at most [fuel]. *)
  Fixpoint visit (fuel : nat) (n : anynode) : M S tr :=
    match fuel with
    | O => fun _ => Fuel
    | Datatypes.S f => visit_node (visit f) n
    end.
End Visit.
