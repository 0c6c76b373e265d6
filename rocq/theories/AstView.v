(** How the derived implementations see the nodes of src/ast/nodes.rs; the names
    and the order of variants and fields are those of the declarations.  Generated
    from Ast.v and /repo/src/ast/nodes.rs. *)
From Verif Require Import Chars Lexer Ast Visitor Derive View.

(** nodes.rs:6-14 *)
Definition view_wm {A} (f : A -> view) (w : wm A) : view :=
  match w with
  | mkwm n s e => VCon 0 (lit "WithMetaData") [lit "node"; lit "start"; lit "end"] [f n; view_pos s; view_pos e]
  end.

(** nodes.rs: NodeByteStr 25-33 *)
Definition view_NodeByteStr (n : NodeByteStr) : view :=
  match n with
  | BSConstant a => VCon 0 (lit "Constant") [] [view_wm VText a]
  | BSType a => VCon 1 (lit "Type") [] [view_wm VText a]
  end.

(** nodes.rs: NodeTypeNameIdentifier 46-57 *)
Definition view_NodeTypeNameIdentifier (n : NodeTypeNameIdentifier) : view :=
  match n with
  | ByteStringType a => VCon 0 (lit "ByteStringType") [] [view_NodeByteStr a]
  | EventType => VCon 1 (lit "EventType") [] []
  | TypeOrEnumLikeIdentifier a => VCon 2 (lit "TypeOrEnumLikeIdentifier") [] [view_wm VText a]
  end.

(** nodes.rs: NodeImportedName 73-84 *)
Definition view_NodeImportedName (n : NodeImportedName) : view :=
  match n with
  | RegularImport a => VCon 0 (lit "RegularImport") [] [view_wm view_NodeTypeNameIdentifier a]
  | AliasedImport a b => VCon 1 (lit "AliasedImport") [] [view_wm view_NodeTypeNameIdentifier a; view_wm view_NodeTypeNameIdentifier b]
  end.

(** nodes.rs: NodeImportDeclarations 87-90 *)
Definition view_NodeImportDeclarations (n : NodeImportDeclarations) : view :=
  match n with
  | mkImportDeclarations a => VCon 0 (lit "NodeImportDeclarations") [lit "import_list"] [view_list (view_wm view_NodeImportedName) a]
  end.

(** nodes.rs: NodeMetaIdentifier 93-110 *)
Definition view_NodeMetaIdentifier (n : NodeMetaIdentifier) : view :=
  match n with
  | MetaName a => VCon 0 (lit "MetaName") [] [view_wm view_NodeTypeNameIdentifier a]
  | MetaNameInNamespace a b => VCon 1 (lit "MetaNameInNamespace") [] [view_wm view_NodeTypeNameIdentifier a; view_wm view_NodeTypeNameIdentifier b]
  | MetaNameInHexspace a b => VCon 2 (lit "MetaNameInHexspace") [] [view_wm VText a; view_wm view_NodeTypeNameIdentifier b]
  | MetaByteString => VCon 3 (lit "ByteString") [] []
  end.

(** nodes.rs: NodeVariableIdentifier 131-142 *)
Definition view_NodeVariableIdentifier (n : NodeVariableIdentifier) : view :=
  match n with
  | VariableName a => VCon 0 (lit "VariableName") [] [view_wm VText a]
  | VISpecialIdentifier a => VCon 1 (lit "SpecialIdentifier") [] [view_wm VText a]
  | VariableInNamespace a b => VCon 2 (lit "VariableInNamespace") [] [view_wm view_NodeTypeNameIdentifier a; view_wm VText b]
  end.

(** nodes.rs: NodeBuiltinArguments 158-161 *)
Definition view_NodeBuiltinArguments (n : NodeBuiltinArguments) : view :=
  match n with
  | mkBuiltinArguments a => VCon 0 (lit "NodeBuiltinArguments") [lit "arguments"] [view_list (view_wm view_NodeVariableIdentifier) a]
  end.

(** nodes.rs: NodeTypeMapKey 164-178, NodeTypeMapValue 181-195, NodeTypeArgument 198-215, NodeScillaType 218-247, NodeTypeMapEntry 250-254, NodeAddressTypeField 257-261, NodeAddressType 264-269, NodeTypeMapValueArguments 798-809, NodeTypeMapValueAllowingTypeArguments 813-824 *)
Fixpoint view_NodeTypeMapKey (n : NodeTypeMapKey) : view :=
  match n with
  | GenericMapKey a => VCon 0 (lit "GenericMapKey") [] [view_wm view_NodeMetaIdentifier a]
  | EnclosedGenericId a => VCon 1 (lit "EnclosedGenericId") [] [view_wm view_NodeMetaIdentifier a]
  | EnclosedAddressMapKeyType a => VCon 2 (lit "EnclosedAddressMapKeyType") [] [view_wm view_NodeAddressType a]
  | AddressMapKeyType a => VCon 3 (lit "AddressMapKeyType") [] [view_wm view_NodeAddressType a]
  end
with view_NodeTypeMapValue (n : NodeTypeMapValue) : view :=
  match n with
  | MapValueTypeOrEnumLikeIdentifier a => VCon 0 (lit "MapValueTypeOrEnumLikeIdentifier") [] [view_wm view_NodeMetaIdentifier a]
  | MapKeyValue a => VCon 1 (lit "MapKeyValue") [] [view_wm view_NodeTypeMapEntry a]
  | MapValueParenthesizedType a => VCon 2 (lit "MapValueParenthesizedType") [] [view_wm view_NodeTypeMapValueAllowingTypeArguments a]
  | MapValueAddressType a => VCon 3 (lit "MapValueAddressType") [] [view_wm view_NodeAddressType a]
  end
with view_NodeTypeArgument (n : NodeTypeArgument) : view :=
  match n with
  | EnclosedTypeArgument a => VCon 0 (lit "EnclosedTypeArgument") [] [view_wm view_NodeScillaType a]
  | GenericTypeArgument a => VCon 1 (lit "GenericTypeArgument") [] [view_wm view_NodeMetaIdentifier a]
  | TemplateTypeArgument a => VCon 2 (lit "TemplateTypeArgument") [] [view_wm VText a]
  | AddressTypeArgument a => VCon 3 (lit "AddressTypeArgument") [] [view_wm view_NodeAddressType a]
  | MapTypeArgument a b => VCon 4 (lit "MapTypeArgument") [] [view_wm view_NodeTypeMapKey a; view_wm view_NodeTypeMapValue b]
  end
with view_NodeScillaType (n : NodeScillaType) : view :=
  match n with
  | GenericTypeWithArgs a b => VCon 0 (lit "GenericTypeWithArgs") [] [view_wm view_NodeMetaIdentifier a; view_list (view_wm view_NodeTypeArgument) b]
  | MapType a b => VCon 1 (lit "MapType") [] [view_wm view_NodeTypeMapKey a; view_wm view_NodeTypeMapValue b]
  | FunctionType a b => VCon 2 (lit "FunctionType") [] [view_wm view_NodeScillaType a; view_wm view_NodeScillaType b]
  | EnclosedType a => VCon 3 (lit "EnclosedType") [] [view_wm view_NodeScillaType a]
  | ScillaAddresseType a => VCon 4 (lit "ScillaAddresseType") [] [view_wm view_NodeAddressType a]
  | PolyFunctionType a b => VCon 5 (lit "PolyFunctionType") [] [view_wm VText a; view_wm view_NodeScillaType b]
  | TypeVarType a => VCon 6 (lit "TypeVarType") [] [view_wm VText a]
  end
with view_NodeTypeMapEntry (n : NodeTypeMapEntry) : view :=
  match n with
  | mkTypeMapEntry a b => VCon 0 (lit "NodeTypeMapEntry") [lit "key"; lit "value"] [view_wm view_NodeTypeMapKey a; view_wm view_NodeTypeMapValue b]
  end
with view_NodeAddressTypeField (n : NodeAddressTypeField) : view :=
  match n with
  | mkAddressTypeField a b => VCon 0 (lit "NodeAddressTypeField") [lit "identifier"; lit "type_name"] [view_wm view_NodeVariableIdentifier a; view_wm view_NodeScillaType b]
  end
with view_NodeAddressType (n : NodeAddressType) : view :=
  match n with
  | mkAddressType a b c => VCon 0 (lit "NodeAddressType") [lit "identifier"; lit "type_name"; lit "address_fields"] [view_wm view_NodeTypeNameIdentifier a; view_wm VText b; view_list (view_wm view_NodeAddressTypeField) c]
  end
with view_NodeTypeMapValueArguments (n : NodeTypeMapValueArguments) : view :=
  match n with
  | EnclosedTypeMapValue a => VCon 0 (lit "EnclosedTypeMapValue") [] [view_wm view_NodeTypeMapValueAllowingTypeArguments a]
  | GenericMapValueArgument a => VCon 1 (lit "GenericMapValueArgument") [] [view_wm view_NodeMetaIdentifier a]
  | MapKeyValueType a b => VCon 2 (lit "MapKeyValueType") [] [view_wm view_NodeTypeMapKey a; view_wm view_NodeTypeMapValue b]
  end
with view_NodeTypeMapValueAllowingTypeArguments (n : NodeTypeMapValueAllowingTypeArguments) : view :=
  match n with
  | TypeMapValueNoArgs a => VCon 0 (lit "TypeMapValueNoArgs") [] [view_wm view_NodeTypeMapValue a]
  | TypeMapValueWithArgs a b => VCon 1 (lit "TypeMapValueWithArgs") [] [view_wm view_NodeMetaIdentifier a; view_list (view_wm view_NodeTypeMapValueArguments) b]
  end.

(** nodes.rs: NodeTypeAnnotation 660-664 *)
Definition view_NodeTypeAnnotation (n : NodeTypeAnnotation) : view :=
  match n with
  | mkTypeAnnotation a => VCon 0 (lit "NodeTypeAnnotation") [lit "type_name"] [view_wm view_NodeScillaType a]
  end.

(** nodes.rs: NodeContractTypeArguments 378-382 *)
Definition view_NodeContractTypeArguments (n : NodeContractTypeArguments) : view :=
  match n with
  | mkContractTypeArguments a => VCon 0 (lit "NodeContractTypeArguments") [lit "type_arguments"] [view_list (view_wm view_NodeTypeArgument) a]
  end.

(** nodes.rs: NodeValueLiteral 386-400 *)
Definition view_NodeValueLiteral (n : NodeValueLiteral) : view :=
  match n with
  | LiteralInt a b => VCon 0 (lit "LiteralInt") [] [view_wm view_NodeTypeNameIdentifier a; view_wm VText b]
  | LiteralHex a => VCon 1 (lit "LiteralHex") [] [view_wm VText a]
  | LiteralString a => VCon 2 (lit "LiteralString") [] [view_wm VText a]
  | LiteralEmptyMap a b => VCon 3 (lit "LiteralEmptyMap") [] [view_wm view_NodeTypeMapKey a; view_wm view_NodeTypeMapValue b]
  end.

(** nodes.rs: NodeAtomicExpression 366-374 *)
Definition view_NodeAtomicExpression (n : NodeAtomicExpression) : view :=
  match n with
  | AtomicSid a => VCon 0 (lit "AtomicSid") [] [view_wm view_NodeVariableIdentifier a]
  | AtomicLit a => VCon 1 (lit "AtomicLit") [] [view_wm view_NodeValueLiteral a]
  end.

(** nodes.rs: NodeMessageEntry 338-352 *)
Definition view_NodeMessageEntry (n : NodeMessageEntry) : view :=
  match n with
  | MessageLiteral a b => VCon 0 (lit "MessageLiteral") [] [view_wm view_NodeVariableIdentifier a; view_wm view_NodeValueLiteral b]
  | MessageVariable a b => VCon 1 (lit "MessageVariable") [] [view_wm view_NodeVariableIdentifier a; view_wm view_NodeVariableIdentifier b]
  end.

(** nodes.rs: NodeMapAccess 404-408 *)
Definition view_NodeMapAccess (n : NodeMapAccess) : view :=
  match n with
  | mkMapAccess a => VCon 0 (lit "NodeMapAccess") [lit "identifier_name"] [view_wm view_NodeVariableIdentifier a]
  end.

(** nodes.rs: NodePattern 412-426, NodeArgumentPattern 430-444 *)
Fixpoint view_NodePattern (n : NodePattern) : view :=
  match n with
  | Wildcard => VCon 0 (lit "Wildcard") [] []
  | Binder a => VCon 1 (lit "Binder") [] [view_wm VText a]
  | PatConstructor a b => VCon 2 (lit "Constructor") [] [view_wm view_NodeMetaIdentifier a; view_list (view_wm view_NodeArgumentPattern) b]
  end
with view_NodeArgumentPattern (n : NodeArgumentPattern) : view :=
  match n with
  | WildcardArgument => VCon 0 (lit "WildcardArgument") [] []
  | BinderArgument a => VCon 1 (lit "BinderArgument") [] [view_wm VText a]
  | ConstructorArgument a => VCon 2 (lit "ConstructorArgument") [] [view_wm view_NodeMetaIdentifier a]
  | PatternArgument a => VCon 3 (lit "PatternArgument") [] [view_wm view_NodePattern a]
  end.

(** nodes.rs: NodeFullExpression 272-333, NodePatternMatchExpressionClause 356-362 *)
Fixpoint view_NodeFullExpression (n : NodeFullExpression) : view :=
  match n with
  | LocalVariableDeclaration a b c d => VCon 0 (lit "LocalVariableDeclaration") [lit "identifier_name"; lit "expression"; lit "type_annotation"; lit "containing_expression"] [view_wm VText a; view_wm view_NodeFullExpression b; view_opt (view_wm view_NodeTypeAnnotation) c; view_wm view_NodeFullExpression d]
  | FunctionDeclaration a b c => VCon 1 (lit "FunctionDeclaration") [lit "identier_value"; lit "type_annotation"; lit "expression"] [view_wm VText a; view_wm view_NodeTypeAnnotation b; view_wm view_NodeFullExpression c]
  | FunctionCall a b => VCon 2 (lit "FunctionCall") [lit "function_name"; lit "argument_list"] [view_wm view_NodeVariableIdentifier a; view_list (view_wm view_NodeVariableIdentifier) b]
  | ExpressionAtomic a => VCon 3 (lit "ExpressionAtomic") [] [view_wm view_NodeAtomicExpression a]
  | ExpressionBuiltin a b c => VCon 4 (lit "ExpressionBuiltin") [lit "b"; lit "targs"; lit "xs"] [view_wm VText a; view_opt (view_wm view_NodeContractTypeArguments) b; view_wm view_NodeBuiltinArguments c]
  | Message a => VCon 5 (lit "Message") [] [view_list (view_wm view_NodeMessageEntry) a]
  | EMatch a b => VCon 6 (lit "Match") [lit "match_expression"; lit "clauses"] [view_wm view_NodeVariableIdentifier a; view_list (view_wm view_NodePatternMatchExpressionClause) b]
  | ConstructorCall a b c => VCon 7 (lit "ConstructorCall") [lit "identifier_name"; lit "contract_type_arguments"; lit "argument_list"] [view_wm view_NodeMetaIdentifier a; view_opt (view_wm view_NodeContractTypeArguments) b; view_list (view_wm view_NodeVariableIdentifier) c]
  | TemplateFunction a b => VCon 8 (lit "TemplateFunction") [lit "identifier_name"; lit "expression"] [view_wm VText a; view_wm view_NodeFullExpression b]
  | TApp a b => VCon 9 (lit "TApp") [lit "identifier_name"; lit "type_arguments"] [view_wm view_NodeVariableIdentifier a; view_list (view_wm view_NodeTypeArgument) b]
  end
with view_NodePatternMatchExpressionClause (n : NodePatternMatchExpressionClause) : view :=
  match n with
  | mkPatternMatchExpressionClause a b => VCon 0 (lit "NodePatternMatchExpressionClause") [lit "pattern"; lit "expression"] [view_wm view_NodePattern a; view_wm view_NodeFullExpression b]
  end.

(** nodes.rs: NodeBlockchainFetchArguments 458-462 *)
Definition view_NodeBlockchainFetchArguments (n : NodeBlockchainFetchArguments) : view :=
  match n with
  | mkBlockchainFetchArguments a => VCon 0 (lit "NodeBlockchainFetchArguments") [lit "arguments"] [view_list (view_wm view_NodeVariableIdentifier) a]
  end.

(** nodes.rs: NodeComponentId 606-614 *)
Definition view_NodeComponentId (n : NodeComponentId) : view :=
  match n with
  | WithTypeLikeName a => VCon 0 (lit "WithTypeLikeName") [] [view_wm view_NodeTypeNameIdentifier a]
  | WithRegularId a => VCon 1 (lit "WithRegularId") [] [view_wm VText a]
  end.

(** nodes.rs: NodeRemoteFetchStatement 563-602 *)
Definition view_NodeRemoteFetchStatement (n : NodeRemoteFetchStatement) : view :=
  match n with
  | ReadStateMutable a b c => VCon 0 (lit "ReadStateMutable") [] [view_wm VText a; view_wm VText b; view_wm view_NodeVariableIdentifier c]
  | ReadStateMutableSpecialId a b c => VCon 1 (lit "ReadStateMutableSpecialId") [] [view_wm VText a; view_wm VText b; view_wm VText c]
  | ReadStateMutableMapAccess a b c d => VCon 2 (lit "ReadStateMutableMapAccess") [] [view_wm VText a; view_wm VText b; view_wm VText c; view_list (view_wm view_NodeMapAccess) d]
  | ReadStateMutableMapAccessExists a b c d => VCon 3 (lit "ReadStateMutableMapAccessExists") [] [view_wm VText a; view_wm VText b; view_wm VText c; view_list (view_wm view_NodeMapAccess) d]
  | ReadStateMutableCastAddress a b c => VCon 4 (lit "ReadStateMutableCastAddress") [] [view_wm VText a; view_wm view_NodeVariableIdentifier b; view_wm view_NodeAddressType c]
  end.

(** nodes.rs: NodeStatement 466-559, NodePatternMatchClause 448-454, NodeStatementBlock 642-646 *)
Fixpoint view_NodeStatement (n : NodeStatement) : view :=
  match n with
  | Load a b => VCon 0 (lit "Load") [lit "left_hand_side"; lit "right_hand_side"] [view_wm VText a; view_wm view_NodeVariableIdentifier b]
  | RemoteFetch a => VCon 1 (lit "RemoteFetch") [] [view_NodeRemoteFetchStatement a]
  | Store a b => VCon 2 (lit "Store") [lit "left_hand_side"; lit "right_hand_side"] [view_wm VText a; view_wm view_NodeVariableIdentifier b]
  | Bind a b => VCon 3 (lit "Bind") [lit "left_hand_side"; lit "right_hand_side"] [view_wm VText a; view_wm view_NodeFullExpression b]
  | ReadFromBC a b c => VCon 4 (lit "ReadFromBC") [lit "left_hand_side"; lit "type_name"; lit "arguments"] [view_wm VText a; view_wm view_NodeTypeNameIdentifier b; view_opt view_NodeBlockchainFetchArguments c]
  | MapGet a b c => VCon 5 (lit "MapGet") [lit "left_hand_side"; lit "keys"; lit "right_hand_side"] [view_wm VText a; view_list (view_wm view_NodeMapAccess) b; view_wm VText c]
  | MapGetExists a b c => VCon 6 (lit "MapGetExists") [lit "left_hand_side"; lit "keys"; lit "right_hand_side"] [view_wm VText a; view_list (view_wm view_NodeMapAccess) b; view_wm VText c]
  | MapUpdate a b c => VCon 7 (lit "MapUpdate") [lit "left_hand_side"; lit "keys"; lit "right_hand_side"] [view_wm VText a; view_list (view_wm view_NodeMapAccess) b; view_wm view_NodeVariableIdentifier c]
  | MapUpdateDelete a b => VCon 8 (lit "MapUpdateDelete") [lit "left_hand_side"; lit "keys"] [view_wm VText a; view_list (view_wm view_NodeMapAccess) b]
  | Accept => VCon 9 (lit "Accept") [] []
  | Send a => VCon 10 (lit "Send") [lit "identifier_name"] [view_wm view_NodeVariableIdentifier a]
  | CreateEvnt a => VCon 11 (lit "CreateEvnt") [lit "identifier_name"] [view_wm view_NodeVariableIdentifier a]
  | Throw a => VCon 12 (lit "Throw") [lit "error_variable"] [view_opt (view_wm view_NodeVariableIdentifier) a]
  | MatchStmt a b => VCon 13 (lit "MatchStmt") [lit "variable"; lit "clauses"] [view_wm view_NodeVariableIdentifier a; view_list (view_wm view_NodePatternMatchClause) b]
  | CallProc a b => VCon 14 (lit "CallProc") [lit "component_id"; lit "arguments"] [view_wm view_NodeComponentId a; view_list (view_wm view_NodeVariableIdentifier) b]
  | Iterate a b => VCon 15 (lit "Iterate") [lit "identifier_name"; lit "component_id"] [view_wm view_NodeVariableIdentifier a; view_wm view_NodeComponentId b]
  end
with view_NodePatternMatchClause (n : NodePatternMatchClause) : view :=
  match n with
  | mkPatternMatchClause a b => VCon 0 (lit "NodePatternMatchClause") [lit "pattern_expression"; lit "statement_block"] [view_wm view_NodePattern a; view_opt (view_wm view_NodeStatementBlock) b]
  end
with view_NodeStatementBlock (n : NodeStatementBlock) : view :=
  match n with
  | mkStatementBlock a => VCon 0 (lit "NodeStatementBlock") [lit "statements"] [view_list view_NodeStatement a]
  end.

(** nodes.rs: NodeTypedIdentifier 650-656 *)
Definition view_NodeTypedIdentifier (n : NodeTypedIdentifier) : view :=
  match n with
  | mkTypedIdentifier a b => VCon 0 (lit "NodeTypedIdentifier") [lit "identifier_name"; lit "annotation"] [view_wm VText a; view_wm view_NodeTypeAnnotation b]
  end.

(** nodes.rs: NodeParameterPair 626-630 *)
Definition view_NodeParameterPair (n : NodeParameterPair) : view :=
  match n with
  | mkParameterPair a => VCon 0 (lit "NodeParameterPair") [lit "identifier_with_type"] [view_wm view_NodeTypedIdentifier a]
  end.

(** nodes.rs: NodeComponentParameters 618-622 *)
Definition view_NodeComponentParameters (n : NodeComponentParameters) : view :=
  match n with
  | mkComponentParameters a => VCon 0 (lit "NodeComponentParameters") [lit "parameters"] [view_list (view_wm view_NodeParameterPair) a]
  end.

(** nodes.rs: NodeComponentBody 634-638 *)
Definition view_NodeComponentBody (n : NodeComponentBody) : view :=
  match n with
  | mkComponentBody a => VCon 0 (lit "NodeComponentBody") [lit "statement_block"] [view_opt (view_wm view_NodeStatementBlock) a]
  end.

(** nodes.rs: NodeTypeAlternativeClause 783-794 *)
Definition view_NodeTypeAlternativeClause (n : NodeTypeAlternativeClause) : view :=
  match n with
  | ClauseType a => VCon 0 (lit "ClauseType") [] [view_wm view_NodeTypeNameIdentifier a]
  | ClauseTypeWithArgs a b => VCon 1 (lit "ClauseTypeWithArgs") [] [view_wm view_NodeTypeNameIdentifier a; view_list (view_wm view_NodeTypeArgument) b]
  end.

(** nodes.rs: NodeLibrarySingleDefinition 692-708 *)
Definition view_NodeLibrarySingleDefinition (n : NodeLibrarySingleDefinition) : view :=
  match n with
  | LetDefinition a b c => VCon 0 (lit "LetDefinition") [lit "variable_name"; lit "type_annotation"; lit "expression"] [view_wm VText a; view_opt (view_wm view_NodeTypeAnnotation) b; view_wm view_NodeFullExpression c]
  | TypeDefinition a b => VCon 1 (lit "TypeDefinition") [] [view_wm view_NodeTypeNameIdentifier a; view_opt (view_list (view_wm view_NodeTypeAlternativeClause)) b]
  end.

(** nodes.rs: NodeLibraryDefinition 682-688 *)
Definition view_NodeLibraryDefinition (n : NodeLibraryDefinition) : view :=
  match n with
  | mkLibraryDefinition a b => VCon 0 (lit "NodeLibraryDefinition") [lit "name"; lit "definitions"] [view_wm view_NodeTypeNameIdentifier a; view_list (view_wm view_NodeLibrarySingleDefinition) b]
  end.

(** nodes.rs: NodeContractField 728-734 *)
Definition view_NodeContractField (n : NodeContractField) : view :=
  match n with
  | mkContractField a b => VCon 0 (lit "NodeContractField") [lit "typed_identifier"; lit "right_hand_side"] [view_wm view_NodeTypedIdentifier a; view_wm view_NodeFullExpression b]
  end.

(** nodes.rs: NodeWithConstraint 738-742 *)
Definition view_NodeWithConstraint (n : NodeWithConstraint) : view :=
  match n with
  | mkWithConstraint a => VCon 0 (lit "NodeWithConstraint") [lit "expression"] [view_wm view_NodeFullExpression a]
  end.

(** nodes.rs: NodeProcedureDefinition 758-766 *)
Definition view_NodeProcedureDefinition (n : NodeProcedureDefinition) : view :=
  match n with
  | mkProcedureDefinition a b c => VCon 0 (lit "NodeProcedureDefinition") [lit "name"; lit "parameters"; lit "body"] [view_wm view_NodeComponentId a; view_wm view_NodeComponentParameters b; view_wm view_NodeComponentBody c]
  end.

(** nodes.rs: NodeTransitionDefinition 771-779 *)
Definition view_NodeTransitionDefinition (n : NodeTransitionDefinition) : view :=
  match n with
  | mkTransitionDefinition a b c => VCon 0 (lit "NodeTransitionDefinition") [lit "name"; lit "parameters"; lit "body"] [view_wm view_NodeComponentId a; view_wm view_NodeComponentParameters b; view_wm view_NodeComponentBody c]
  end.

(** nodes.rs: NodeComponentDefinition 746-754 *)
Definition view_NodeComponentDefinition (n : NodeComponentDefinition) : view :=
  match n with
  | TransitionComponent a => VCon 0 (lit "TransitionComponent") [] [view_wm view_NodeTransitionDefinition a]
  | ProcedureComponent a => VCon 1 (lit "ProcedureComponent") [] [view_wm view_NodeProcedureDefinition a]
  end.

(** nodes.rs: NodeContractDefinition 712-724 *)
Definition view_NodeContractDefinition (n : NodeContractDefinition) : view :=
  match n with
  | mkContractDefinition a b c d e => VCon 0 (lit "NodeContractDefinition") [lit "contract_name"; lit "parameters"; lit "constraint"; lit "fields"; lit "components"] [view_wm view_NodeTypeNameIdentifier a; view_wm view_NodeComponentParameters b; view_opt (view_wm view_NodeWithConstraint) c; view_list (view_wm view_NodeContractField) d; view_list (view_wm view_NodeComponentDefinition) e]
  end.

(** nodes.rs: NodeProgram 668-678 *)
Definition view_NodeProgram (n : NodeProgram) : view :=
  match n with
  | mkProgram a b c d => VCon 0 (lit "NodeProgram") [lit "version"; lit "import_declarations"; lit "library_definition"; lit "contract_definition"] [view_wm VText a; view_opt (view_wm view_NodeImportDeclarations) b; view_opt (view_wm view_NodeLibraryDefinition) c; view_wm view_NodeContractDefinition d]
  end.

(** All nodes, and their types. *)
Definition view_node (a : anynode) : view :=
  match a with
  | AByteStr n => view_NodeByteStr n
  | ATypeNameIdentifier n => view_NodeTypeNameIdentifier n
  | AImportedName n => view_NodeImportedName n
  | AImportDeclarations n => view_NodeImportDeclarations n
  | AMetaIdentifier n => view_NodeMetaIdentifier n
  | AVariableIdentifier n => view_NodeVariableIdentifier n
  | ABuiltinArguments n => view_NodeBuiltinArguments n
  | ATypeMapKey n => view_NodeTypeMapKey n
  | ATypeMapValue n => view_NodeTypeMapValue n
  | ATypeArgument n => view_NodeTypeArgument n
  | AScillaType n => view_NodeScillaType n
  | ATypeMapEntry n => view_NodeTypeMapEntry n
  | AAddressTypeField n => view_NodeAddressTypeField n
  | AAddressType n => view_NodeAddressType n
  | AFullExpression n => view_NodeFullExpression n
  | AMessageEntry n => view_NodeMessageEntry n
  | APatternMatchExpressionClause n => view_NodePatternMatchExpressionClause n
  | AAtomicExpression n => view_NodeAtomicExpression n
  | AContractTypeArguments n => view_NodeContractTypeArguments n
  | AValueLiteral n => view_NodeValueLiteral n
  | AMapAccess n => view_NodeMapAccess n
  | APattern n => view_NodePattern n
  | AArgumentPattern n => view_NodeArgumentPattern n
  | APatternMatchClause n => view_NodePatternMatchClause n
  | ABlockchainFetchArguments n => view_NodeBlockchainFetchArguments n
  | AStatement n => view_NodeStatement n
  | ARemoteFetchStatement n => view_NodeRemoteFetchStatement n
  | AComponentId n => view_NodeComponentId n
  | AComponentParameters n => view_NodeComponentParameters n
  | AParameterPair n => view_NodeParameterPair n
  | AComponentBody n => view_NodeComponentBody n
  | AStatementBlock n => view_NodeStatementBlock n
  | ATypedIdentifier n => view_NodeTypedIdentifier n
  | ATypeAnnotation n => view_NodeTypeAnnotation n
  | AProgram n => view_NodeProgram n
  | ALibraryDefinition n => view_NodeLibraryDefinition n
  | ALibrarySingleDefinition n => view_NodeLibrarySingleDefinition n
  | AContractDefinition n => view_NodeContractDefinition n
  | AContractField n => view_NodeContractField n
  | AWithConstraint n => view_NodeWithConstraint n
  | AComponentDefinition n => view_NodeComponentDefinition n
  | AProcedureDefinition n => view_NodeProcedureDefinition n
  | ATransitionDefinition n => view_NodeTransitionDefinition n
  | ATypeAlternativeClause n => view_NodeTypeAlternativeClause n
  | ATypeMapValueArguments n => view_NodeTypeMapValueArguments n
  | ATypeMapValueAllowingTypeArguments n => view_NodeTypeMapValueAllowingTypeArguments n
  end.
Definition node_type (a : anynode) : str :=
  match a with
  | AByteStr _ => lit "NodeByteStr"
  | ATypeNameIdentifier _ => lit "NodeTypeNameIdentifier"
  | AImportedName _ => lit "NodeImportedName"
  | AImportDeclarations _ => lit "NodeImportDeclarations"
  | AMetaIdentifier _ => lit "NodeMetaIdentifier"
  | AVariableIdentifier _ => lit "NodeVariableIdentifier"
  | ABuiltinArguments _ => lit "NodeBuiltinArguments"
  | ATypeMapKey _ => lit "NodeTypeMapKey"
  | ATypeMapValue _ => lit "NodeTypeMapValue"
  | ATypeArgument _ => lit "NodeTypeArgument"
  | AScillaType _ => lit "NodeScillaType"
  | ATypeMapEntry _ => lit "NodeTypeMapEntry"
  | AAddressTypeField _ => lit "NodeAddressTypeField"
  | AAddressType _ => lit "NodeAddressType"
  | AFullExpression _ => lit "NodeFullExpression"
  | AMessageEntry _ => lit "NodeMessageEntry"
  | APatternMatchExpressionClause _ => lit "NodePatternMatchExpressionClause"
  | AAtomicExpression _ => lit "NodeAtomicExpression"
  | AContractTypeArguments _ => lit "NodeContractTypeArguments"
  | AValueLiteral _ => lit "NodeValueLiteral"
  | AMapAccess _ => lit "NodeMapAccess"
  | APattern _ => lit "NodePattern"
  | AArgumentPattern _ => lit "NodeArgumentPattern"
  | APatternMatchClause _ => lit "NodePatternMatchClause"
  | ABlockchainFetchArguments _ => lit "NodeBlockchainFetchArguments"
  | AStatement _ => lit "NodeStatement"
  | ARemoteFetchStatement _ => lit "NodeRemoteFetchStatement"
  | AComponentId _ => lit "NodeComponentId"
  | AComponentParameters _ => lit "NodeComponentParameters"
  | AParameterPair _ => lit "NodeParameterPair"
  | AComponentBody _ => lit "NodeComponentBody"
  | AStatementBlock _ => lit "NodeStatementBlock"
  | ATypedIdentifier _ => lit "NodeTypedIdentifier"
  | ATypeAnnotation _ => lit "NodeTypeAnnotation"
  | AProgram _ => lit "NodeProgram"
  | ALibraryDefinition _ => lit "NodeLibraryDefinition"
  | ALibrarySingleDefinition _ => lit "NodeLibrarySingleDefinition"
  | AContractDefinition _ => lit "NodeContractDefinition"
  | AContractField _ => lit "NodeContractField"
  | AWithConstraint _ => lit "NodeWithConstraint"
  | AComponentDefinition _ => lit "NodeComponentDefinition"
  | AProcedureDefinition _ => lit "NodeProcedureDefinition"
  | ATransitionDefinition _ => lit "NodeTransitionDefinition"
  | ATypeAlternativeClause _ => lit "NodeTypeAlternativeClause"
  | ATypeMapValueArguments _ => lit "NodeTypeMapValueArguments"
  | ATypeMapValueAllowingTypeArguments _ => lit "NodeTypeMapValueAllowingTypeArguments"
  end.
