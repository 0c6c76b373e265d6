(** Model of src/ast/nodes.rs: every node type, constructors in source order.
    [Box<T>] is modelled by [T], [Vec<T>] by [list T], [String] by [str]. *)
From Verif Require Import Chars Lexer.

(** nodes.rs:7-12 [WithMetaData<T>] *)
Record wm (A : Type) := mkwm { node : A; wm_start : source_position; wm_end : source_position }.
Arguments mkwm {A} _ _ _.
Arguments node {A} _.
Arguments wm_start {A} _.
Arguments wm_end {A} _.

(** nodes.rs:26-30 *)
Inductive NodeByteStr :=
| BSConstant (s : wm str)
| BSType (s : wm str).

(** nodes.rs:47-54 *)
Inductive NodeTypeNameIdentifier :=
| ByteStringType (b : NodeByteStr)
| EventType
| TypeOrEnumLikeIdentifier (s : wm str).

(** nodes.rs:74-86 *)
Inductive NodeImportedName :=
| RegularImport (n : wm NodeTypeNameIdentifier)
| AliasedImport (n alias : wm NodeTypeNameIdentifier).

(** nodes.rs:88-91 *)
Inductive NodeImportDeclarations :=
| mkImportDeclarations (import_list : list (wm NodeImportedName)).

(** nodes.rs:94-107 *)
Inductive NodeMetaIdentifier :=
| MetaName (n : wm NodeTypeNameIdentifier)
| MetaNameInNamespace (ns n : wm NodeTypeNameIdentifier)
| MetaNameInHexspace (hex : wm str) (n : wm NodeTypeNameIdentifier)
| MetaByteString.

(** nodes.rs:132-140 *)
Inductive NodeVariableIdentifier :=
| VariableName (s : wm str)
| VISpecialIdentifier (s : wm str)
| VariableInNamespace (ns : wm NodeTypeNameIdentifier) (s : wm str).

(** nodes.rs:159-162 *)
Inductive NodeBuiltinArguments :=
| mkBuiltinArguments (arguments : list (wm NodeVariableIdentifier)).

(** nodes.rs:165-270 and 799-824: the mutually recursive type nodes. *)
Inductive NodeTypeMapKey :=
| GenericMapKey (m : wm NodeMetaIdentifier)
| EnclosedGenericId (m : wm NodeMetaIdentifier)
| EnclosedAddressMapKeyType (a : wm NodeAddressType)
| AddressMapKeyType (a : wm NodeAddressType)
with NodeTypeMapValue :=
| MapValueTypeOrEnumLikeIdentifier (m : wm NodeMetaIdentifier)
| MapKeyValue (e : wm NodeTypeMapEntry)
| MapValueParenthesizedType (t : wm NodeTypeMapValueAllowingTypeArguments)
| MapValueAddressType (a : wm NodeAddressType)
with NodeTypeArgument :=
| EnclosedTypeArgument (t : wm NodeScillaType)
| GenericTypeArgument (m : wm NodeMetaIdentifier)
| TemplateTypeArgument (s : wm str)
| AddressTypeArgument (a : wm NodeAddressType)
| MapTypeArgument (k : wm NodeTypeMapKey) (v : wm NodeTypeMapValue)
with NodeScillaType :=
| GenericTypeWithArgs (m : wm NodeMetaIdentifier) (args : list (wm NodeTypeArgument))
| MapType (k : wm NodeTypeMapKey) (v : wm NodeTypeMapValue)
| FunctionType (a b : wm NodeScillaType)
| EnclosedType (t : wm NodeScillaType)
| ScillaAddresseType (a : wm NodeAddressType)
| PolyFunctionType (v : wm str) (t : wm NodeScillaType)
| TypeVarType (v : wm str)
with NodeTypeMapEntry :=
| mkTypeMapEntry (key : wm NodeTypeMapKey) (value : wm NodeTypeMapValue)
with NodeAddressTypeField :=
| mkAddressTypeField (identifier : wm NodeVariableIdentifier) (type_name : wm NodeScillaType)
with NodeAddressType :=
| mkAddressType (identifier : wm NodeTypeNameIdentifier) (type_name : wm str)
                (address_fields : list (wm NodeAddressTypeField))
with NodeTypeMapValueArguments :=
| EnclosedTypeMapValue (t : wm NodeTypeMapValueAllowingTypeArguments)
| GenericMapValueArgument (m : wm NodeMetaIdentifier)
| MapKeyValueType (k : wm NodeTypeMapKey) (v : wm NodeTypeMapValue)
with NodeTypeMapValueAllowingTypeArguments :=
| TypeMapValueNoArgs (t : wm NodeTypeMapValue)
| TypeMapValueWithArgs (m : wm NodeMetaIdentifier) (args : list (wm NodeTypeMapValueArguments)).

(** nodes.rs:661-664 *)
Inductive NodeTypeAnnotation :=
| mkTypeAnnotation (type_name : wm NodeScillaType).

(** nodes.rs:379-382 *)
Inductive NodeContractTypeArguments :=
| mkContractTypeArguments (type_arguments : list (wm NodeTypeArgument)).

(** nodes.rs:387-402 *)
Inductive NodeValueLiteral :=
| LiteralInt (n : wm NodeTypeNameIdentifier) (v : wm str)
| LiteralHex (s : wm str)
| LiteralString (s : wm str)
| LiteralEmptyMap (k : wm NodeTypeMapKey) (v : wm NodeTypeMapValue).

(** nodes.rs:367-376 *)
Inductive NodeAtomicExpression :=
| AtomicSid (v : wm NodeVariableIdentifier)
| AtomicLit (v : wm NodeValueLiteral).

(** nodes.rs:339-354 *)
Inductive NodeMessageEntry :=
| MessageLiteral (i : wm NodeVariableIdentifier) (v : wm NodeValueLiteral)
| MessageVariable (i v : wm NodeVariableIdentifier).

(** nodes.rs:405-410 *)
Inductive NodeMapAccess :=
| mkMapAccess (identifier_name : wm NodeVariableIdentifier).

(** nodes.rs:413-446 *)
Inductive NodePattern :=
| Wildcard
| Binder (s : wm str)
| PatConstructor (m : wm NodeMetaIdentifier) (args : list (wm NodeArgumentPattern))
with NodeArgumentPattern :=
| WildcardArgument
| BinderArgument (s : wm str)
| ConstructorArgument (m : wm NodeMetaIdentifier)
| PatternArgument (p : wm NodePattern).

(** nodes.rs:273-336, 357-364 *)
Inductive NodeFullExpression :=
| LocalVariableDeclaration (identifier_name : wm str) (expression : wm NodeFullExpression)
    (type_annotation : option (wm NodeTypeAnnotation)) (containing_expression : wm NodeFullExpression)
| FunctionDeclaration (identier_value : wm str) (type_annotation : wm NodeTypeAnnotation)
    (expression : wm NodeFullExpression)
| FunctionCall (function_name : wm NodeVariableIdentifier)
    (argument_list : list (wm NodeVariableIdentifier))
| ExpressionAtomic (a : wm NodeAtomicExpression)
| ExpressionBuiltin (b : wm str) (targs : option (wm NodeContractTypeArguments))
    (xs : wm NodeBuiltinArguments)
| Message (l : list (wm NodeMessageEntry))
| EMatch (match_expression : wm NodeVariableIdentifier)
    (clauses : list (wm NodePatternMatchExpressionClause))
| ConstructorCall (identifier_name : wm NodeMetaIdentifier)
    (contract_type_arguments : option (wm NodeContractTypeArguments))
    (argument_list : list (wm NodeVariableIdentifier))
| TemplateFunction (identifier_name : wm str) (expression : wm NodeFullExpression)
| TApp (identifier_name : wm NodeVariableIdentifier) (type_arguments : list (wm NodeTypeArgument))
with NodePatternMatchExpressionClause :=
| mkPatternMatchExpressionClause (pattern : wm NodePattern) (expression : wm NodeFullExpression).

(** nodes.rs:459-464 *)
Inductive NodeBlockchainFetchArguments :=
| mkBlockchainFetchArguments (arguments : list (wm NodeVariableIdentifier)).

(** nodes.rs:607-616 *)
Inductive NodeComponentId :=
| WithTypeLikeName (n : wm NodeTypeNameIdentifier)
| WithRegularId (s : wm str).

(** nodes.rs:564-604 *)
Inductive NodeRemoteFetchStatement :=
| ReadStateMutable (l a : wm str) (r : wm NodeVariableIdentifier)
| ReadStateMutableSpecialId (l a r : wm str)
| ReadStateMutableMapAccess (l a m : wm str) (keys : list (wm NodeMapAccess))
| ReadStateMutableMapAccessExists (l a m : wm str) (keys : list (wm NodeMapAccess))
| ReadStateMutableCastAddress (l : wm str) (a : wm NodeVariableIdentifier) (t : wm NodeAddressType).

(** nodes.rs:449-456, 467-561, 643-648 *)
Inductive NodeStatement :=
| Load (left_hand_side : wm str) (right_hand_side : wm NodeVariableIdentifier)
| RemoteFetch (r : NodeRemoteFetchStatement)
| Store (left_hand_side : wm str) (right_hand_side : wm NodeVariableIdentifier)
| Bind (left_hand_side : wm str) (right_hand_side : wm NodeFullExpression)
| ReadFromBC (left_hand_side : wm str) (type_name : wm NodeTypeNameIdentifier)
    (arguments : option NodeBlockchainFetchArguments)
| MapGet (left_hand_side : wm str) (keys : list (wm NodeMapAccess)) (right_hand_side : wm str)
| MapGetExists (left_hand_side : wm str) (keys : list (wm NodeMapAccess)) (right_hand_side : wm str)
| MapUpdate (left_hand_side : wm str) (keys : list (wm NodeMapAccess))
    (right_hand_side : wm NodeVariableIdentifier)
| MapUpdateDelete (left_hand_side : wm str) (keys : list (wm NodeMapAccess))
| Accept
| Send (identifier_name : wm NodeVariableIdentifier)
| CreateEvnt (identifier_name : wm NodeVariableIdentifier)
| Throw (error_variable : option (wm NodeVariableIdentifier))
| MatchStmt (variable : wm NodeVariableIdentifier) (clauses : list (wm NodePatternMatchClause))
| CallProc (component_id : wm NodeComponentId) (arguments : list (wm NodeVariableIdentifier))
| Iterate (identifier_name : wm NodeVariableIdentifier) (component_id : wm NodeComponentId)
with NodePatternMatchClause :=
| mkPatternMatchClause (pattern_expression : wm NodePattern)
    (statement_block : option (wm NodeStatementBlock))
with NodeStatementBlock :=
| mkStatementBlock (statements : list NodeStatement).

(** nodes.rs:651-658 *)
Inductive NodeTypedIdentifier :=
| mkTypedIdentifier (identifier_name : wm str) (annotation : wm NodeTypeAnnotation).

(** nodes.rs:627-632 *)
Inductive NodeParameterPair :=
| mkParameterPair (identifier_with_type : wm NodeTypedIdentifier).

(** nodes.rs:619-624 *)
Inductive NodeComponentParameters :=
| mkComponentParameters (parameters : list (wm NodeParameterPair)).

(** nodes.rs:635-640 *)
Inductive NodeComponentBody :=
| mkComponentBody (statement_block : option (wm NodeStatementBlock)).

(** nodes.rs:784-796 *)
Inductive NodeTypeAlternativeClause :=
| ClauseType (n : wm NodeTypeNameIdentifier)
| ClauseTypeWithArgs (n : wm NodeTypeNameIdentifier) (args : list (wm NodeTypeArgument)).

(** nodes.rs:693-710 *)
Inductive NodeLibrarySingleDefinition :=
| LetDefinition (variable_name : wm str) (type_annotation : option (wm NodeTypeAnnotation))
    (expression : wm NodeFullExpression)
| TypeDefinition (n : wm NodeTypeNameIdentifier)
    (clauses : option (list (wm NodeTypeAlternativeClause))).

(** nodes.rs:683-690 *)
Inductive NodeLibraryDefinition :=
| mkLibraryDefinition (name : wm NodeTypeNameIdentifier)
    (definitions : list (wm NodeLibrarySingleDefinition)).

(** nodes.rs:729-736 *)
Inductive NodeContractField :=
| mkContractField (typed_identifier : wm NodeTypedIdentifier)
    (right_hand_side : wm NodeFullExpression).

(** nodes.rs:739-744 *)
Inductive NodeWithConstraint :=
| mkWithConstraint (expression : wm NodeFullExpression).

(** nodes.rs:759-769 *)
Inductive NodeProcedureDefinition :=
| mkProcedureDefinition (name : wm NodeComponentId) (parameters : wm NodeComponentParameters)
    (body : wm NodeComponentBody).

(** nodes.rs:772-781 *)
Inductive NodeTransitionDefinition :=
| mkTransitionDefinition (name : wm NodeComponentId) (parameters : wm NodeComponentParameters)
    (body : wm NodeComponentBody).

(** nodes.rs:747-756 *)
Inductive NodeComponentDefinition :=
| TransitionComponent (t : wm NodeTransitionDefinition)
| ProcedureComponent (p : wm NodeProcedureDefinition).

(** nodes.rs:713-726 *)
Inductive NodeContractDefinition :=
| mkContractDefinition (contract_name : wm NodeTypeNameIdentifier)
    (parameters : wm NodeComponentParameters) (constraint : option (wm NodeWithConstraint))
    (fields : list (wm NodeContractField)) (components : list (wm NodeComponentDefinition)).

(** nodes.rs:669-680 *)
Inductive NodeProgram :=
| mkProgram (version : wm str) (import_declarations : option (wm NodeImportDeclarations))
    (library_definition : option (wm NodeLibraryDefinition))
    (contract_definition : wm NodeContractDefinition).

(** ** [Display] of the nodes that have one (nodes.rs:14-24, 32-42, 56-70, 109-129, 142-156) *)
Definition byte_str_display (b : NodeByteStr) : str :=
  match b with BSConstant s => node s | BSType t => node t end.

Definition type_name_identifier_display (n : NodeTypeNameIdentifier) : str :=
  match n with
  | ByteStringType b => byte_str_display b
  | EventType => lit "Event"
  | TypeOrEnumLikeIdentifier s => node s
  end.

Definition meta_identifier_display (m : NodeMetaIdentifier) : str :=
  match m with
  | MetaName n => type_name_identifier_display (node n)
  | MetaNameInNamespace ns n =>
      type_name_identifier_display (node ns) ++ lit "." ++ type_name_identifier_display (node n)
  | MetaNameInHexspace h n => node h ++ lit "." ++ type_name_identifier_display (node n)
  | MetaByteString => lit "ByStr"
  end.

Definition variable_identifier_display (v : NodeVariableIdentifier) : str :=
  match v with
  | VariableName s => node s
  | VISpecialIdentifier s => node s
  | VariableInNamespace ns s => type_name_identifier_display (node ns) ++ lit "." ++ node s
  end.
