(** The declarations of src/ast/nodes.rs: of each type its variants in order, of
    each variant its name, the names of its fields if they have names, and how many
    fields it has.  A struct is its only variant.  Printed by tools/declared.py. *)
From Verif Require Import Chars Lexer.

Definition declarations : list (str * list (str * list str * nat)) :=
  [
   (* nodes.rs:26-33 *)
   (lit "NodeByteStr", [(lit "Constant", [], 1%nat); (lit "Type", [], 1%nat)]);
   (* nodes.rs:47-57 *)
   (lit "NodeTypeNameIdentifier", [(lit "ByteStringType", [], 1%nat); (lit "EventType", [], 0%nat); (lit "TypeOrEnumLikeIdentifier", [], 1%nat)]);
   (* nodes.rs:74-84 *)
   (lit "NodeImportedName", [(lit "RegularImport", [], 1%nat); (lit "AliasedImport", [], 2%nat)]);
   (* nodes.rs:88-90 *)
   (lit "NodeImportDeclarations", [(lit "NodeImportDeclarations", [lit "import_list"], 1%nat)]);
   (* nodes.rs:94-110 *)
   (lit "NodeMetaIdentifier", [(lit "MetaName", [], 1%nat); (lit "MetaNameInNamespace", [], 2%nat); (lit "MetaNameInHexspace", [], 2%nat); (lit "ByteString", [], 0%nat)]);
   (* nodes.rs:132-142 *)
   (lit "NodeVariableIdentifier", [(lit "VariableName", [], 1%nat); (lit "SpecialIdentifier", [], 1%nat); (lit "VariableInNamespace", [], 2%nat)]);
   (* nodes.rs:159-161 *)
   (lit "NodeBuiltinArguments", [(lit "NodeBuiltinArguments", [lit "arguments"], 1%nat)]);
   (* nodes.rs:165-178 *)
   (lit "NodeTypeMapKey", [(lit "GenericMapKey", [], 1%nat); (lit "EnclosedGenericId", [], 1%nat); (lit "EnclosedAddressMapKeyType", [], 1%nat); (lit "AddressMapKeyType", [], 1%nat)]);
   (* nodes.rs:182-195 *)
   (lit "NodeTypeMapValue", [(lit "MapValueTypeOrEnumLikeIdentifier", [], 1%nat); (lit "MapKeyValue", [], 1%nat); (lit "MapValueParenthesizedType", [], 1%nat); (lit "MapValueAddressType", [], 1%nat)]);
   (* nodes.rs:199-215 *)
   (lit "NodeTypeArgument", [(lit "EnclosedTypeArgument", [], 1%nat); (lit "GenericTypeArgument", [], 1%nat); (lit "TemplateTypeArgument", [], 1%nat); (lit "AddressTypeArgument", [], 1%nat); (lit "MapTypeArgument", [], 2%nat)]);
   (* nodes.rs:219-247 *)
   (lit "NodeScillaType", [(lit "GenericTypeWithArgs", [], 2%nat); (lit "MapType", [], 2%nat); (lit "FunctionType", [], 2%nat); (lit "EnclosedType", [], 1%nat); (lit "ScillaAddresseType", [], 1%nat); (lit "PolyFunctionType", [], 2%nat); (lit "TypeVarType", [], 1%nat)]);
   (* nodes.rs:251-254 *)
   (lit "NodeTypeMapEntry", [(lit "NodeTypeMapEntry", [lit "key"; lit "value"], 2%nat)]);
   (* nodes.rs:258-261 *)
   (lit "NodeAddressTypeField", [(lit "NodeAddressTypeField", [lit "identifier"; lit "type_name"], 2%nat)]);
   (* nodes.rs:265-269 *)
   (lit "NodeAddressType", [(lit "NodeAddressType", [lit "identifier"; lit "type_name"; lit "address_fields"], 3%nat)]);
   (* nodes.rs:273-333 *)
   (lit "NodeFullExpression", [(lit "LocalVariableDeclaration", [lit "identifier_name"; lit "expression"; lit "type_annotation"; lit "containing_expression"], 4%nat); (lit "FunctionDeclaration", [lit "identier_value"; lit "type_annotation"; lit "expression"], 3%nat); (lit "FunctionCall", [lit "function_name"; lit "argument_list"], 2%nat); (lit "ExpressionAtomic", [], 1%nat); (lit "ExpressionBuiltin", [lit "b"; lit "targs"; lit "xs"], 3%nat); (lit "Message", [], 1%nat); (lit "Match", [lit "match_expression"; lit "clauses"], 2%nat); (lit "ConstructorCall", [lit "identifier_name"; lit "contract_type_arguments"; lit "argument_list"], 3%nat); (lit "TemplateFunction", [lit "identifier_name"; lit "expression"], 2%nat); (lit "TApp", [lit "identifier_name"; lit "type_arguments"], 2%nat)]);
   (* nodes.rs:339-352 *)
   (lit "NodeMessageEntry", [(lit "MessageLiteral", [], 2%nat); (lit "MessageVariable", [], 2%nat)]);
   (* nodes.rs:357-362 *)
   (lit "NodePatternMatchExpressionClause", [(lit "NodePatternMatchExpressionClause", [lit "pattern"; lit "expression"], 2%nat)]);
   (* nodes.rs:367-374 *)
   (lit "NodeAtomicExpression", [(lit "AtomicSid", [], 1%nat); (lit "AtomicLit", [], 1%nat)]);
   (* nodes.rs:379-382 *)
   (lit "NodeContractTypeArguments", [(lit "NodeContractTypeArguments", [lit "type_arguments"], 1%nat)]);
   (* nodes.rs:387-400 *)
   (lit "NodeValueLiteral", [(lit "LiteralInt", [], 2%nat); (lit "LiteralHex", [], 1%nat); (lit "LiteralString", [], 1%nat); (lit "LiteralEmptyMap", [], 2%nat)]);
   (* nodes.rs:405-408 *)
   (lit "NodeMapAccess", [(lit "NodeMapAccess", [lit "identifier_name"], 1%nat)]);
   (* nodes.rs:413-426 *)
   (lit "NodePattern", [(lit "Wildcard", [], 0%nat); (lit "Binder", [], 1%nat); (lit "Constructor", [], 2%nat)]);
   (* nodes.rs:431-444 *)
   (lit "NodeArgumentPattern", [(lit "WildcardArgument", [], 0%nat); (lit "BinderArgument", [], 1%nat); (lit "ConstructorArgument", [], 1%nat); (lit "PatternArgument", [], 1%nat)]);
   (* nodes.rs:449-454 *)
   (lit "NodePatternMatchClause", [(lit "NodePatternMatchClause", [lit "pattern_expression"; lit "statement_block"], 2%nat)]);
   (* nodes.rs:459-462 *)
   (lit "NodeBlockchainFetchArguments", [(lit "NodeBlockchainFetchArguments", [lit "arguments"], 1%nat)]);
   (* nodes.rs:467-559 *)
   (lit "NodeStatement", [(lit "Load", [lit "left_hand_side"; lit "right_hand_side"], 2%nat); (lit "RemoteFetch", [], 1%nat); (lit "Store", [lit "left_hand_side"; lit "right_hand_side"], 2%nat); (lit "Bind", [lit "left_hand_side"; lit "right_hand_side"], 2%nat); (lit "ReadFromBC", [lit "left_hand_side"; lit "type_name"; lit "arguments"], 3%nat); (lit "MapGet", [lit "left_hand_side"; lit "keys"; lit "right_hand_side"], 3%nat); (lit "MapGetExists", [lit "left_hand_side"; lit "keys"; lit "right_hand_side"], 3%nat); (lit "MapUpdate", [lit "left_hand_side"; lit "keys"; lit "right_hand_side"], 3%nat); (lit "MapUpdateDelete", [lit "left_hand_side"; lit "keys"], 2%nat); (lit "Accept", [], 0%nat); (lit "Send", [lit "identifier_name"], 1%nat); (lit "CreateEvnt", [lit "identifier_name"], 1%nat); (lit "Throw", [lit "error_variable"], 1%nat); (lit "MatchStmt", [lit "variable"; lit "clauses"], 2%nat); (lit "CallProc", [lit "component_id"; lit "arguments"], 2%nat); (lit "Iterate", [lit "identifier_name"; lit "component_id"], 2%nat)]);
   (* nodes.rs:564-602 *)
   (lit "NodeRemoteFetchStatement", [(lit "ReadStateMutable", [], 3%nat); (lit "ReadStateMutableSpecialId", [], 3%nat); (lit "ReadStateMutableMapAccess", [], 4%nat); (lit "ReadStateMutableMapAccessExists", [], 4%nat); (lit "ReadStateMutableCastAddress", [], 3%nat)]);
   (* nodes.rs:607-614 *)
   (lit "NodeComponentId", [(lit "WithTypeLikeName", [], 1%nat); (lit "WithRegularId", [], 1%nat)]);
   (* nodes.rs:619-622 *)
   (lit "NodeComponentParameters", [(lit "NodeComponentParameters", [lit "parameters"], 1%nat)]);
   (* nodes.rs:627-630 *)
   (lit "NodeParameterPair", [(lit "NodeParameterPair", [lit "identifier_with_type"], 1%nat)]);
   (* nodes.rs:635-638 *)
   (lit "NodeComponentBody", [(lit "NodeComponentBody", [lit "statement_block"], 1%nat)]);
   (* nodes.rs:643-646 *)
   (lit "NodeStatementBlock", [(lit "NodeStatementBlock", [lit "statements"], 1%nat)]);
   (* nodes.rs:651-656 *)
   (lit "NodeTypedIdentifier", [(lit "NodeTypedIdentifier", [lit "identifier_name"; lit "annotation"], 2%nat)]);
   (* nodes.rs:661-664 *)
   (lit "NodeTypeAnnotation", [(lit "NodeTypeAnnotation", [lit "type_name"], 1%nat)]);
   (* nodes.rs:669-678 *)
   (lit "NodeProgram", [(lit "NodeProgram", [lit "version"; lit "import_declarations"; lit "library_definition"; lit "contract_definition"], 4%nat)]);
   (* nodes.rs:683-688 *)
   (lit "NodeLibraryDefinition", [(lit "NodeLibraryDefinition", [lit "name"; lit "definitions"], 2%nat)]);
   (* nodes.rs:693-708 *)
   (lit "NodeLibrarySingleDefinition", [(lit "LetDefinition", [lit "variable_name"; lit "type_annotation"; lit "expression"], 3%nat); (lit "TypeDefinition", [], 2%nat)]);
   (* nodes.rs:713-724 *)
   (lit "NodeContractDefinition", [(lit "NodeContractDefinition", [lit "contract_name"; lit "parameters"; lit "constraint"; lit "fields"; lit "components"], 5%nat)]);
   (* nodes.rs:729-734 *)
   (lit "NodeContractField", [(lit "NodeContractField", [lit "typed_identifier"; lit "right_hand_side"], 2%nat)]);
   (* nodes.rs:739-742 *)
   (lit "NodeWithConstraint", [(lit "NodeWithConstraint", [lit "expression"], 1%nat)]);
   (* nodes.rs:747-754 *)
   (lit "NodeComponentDefinition", [(lit "TransitionComponent", [], 1%nat); (lit "ProcedureComponent", [], 1%nat)]);
   (* nodes.rs:759-766 *)
   (lit "NodeProcedureDefinition", [(lit "NodeProcedureDefinition", [lit "name"; lit "parameters"; lit "body"], 3%nat)]);
   (* nodes.rs:772-779 *)
   (lit "NodeTransitionDefinition", [(lit "NodeTransitionDefinition", [lit "name"; lit "parameters"; lit "body"], 3%nat)]);
   (* nodes.rs:784-794 *)
   (lit "NodeTypeAlternativeClause", [(lit "ClauseType", [], 1%nat); (lit "ClauseTypeWithArgs", [], 2%nat)]);
   (* nodes.rs:799-809 *)
   (lit "NodeTypeMapValueArguments", [(lit "EnclosedTypeMapValue", [], 1%nat); (lit "GenericMapValueArgument", [], 1%nat); (lit "MapKeyValueType", [], 2%nat)]);
   (* nodes.rs:814-824 *)
   (lit "NodeTypeMapValueAllowingTypeArguments", [(lit "TypeMapValueNoArgs", [], 1%nat); (lit "TypeMapValueWithArgs", [], 2%nat)])
  ].
