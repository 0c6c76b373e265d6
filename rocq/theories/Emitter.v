(** Model of src/simplified_representation/emitter.rs. *)
From Verif Require Import Chars Lexer Ast Types Visitor.

(** emitter.rs:10-15 *)
Inductive stack_object :=
| IrIdentifier (i : sr_identifier)
| VariableDeclaration (f : field)
| SoTypeDefinition (t : sr_type).

(** emitter.rs:19-23.  The stack's top is the head of the list. *)
Record sr_state := mkst { es_stack : list stack_object; es_contract : contract }.

(** [SrEmitter::default()] *)
Definition sr_default : sr_state := mkst [] contract_default.

Definition EM := M sr_state.

(** [self.stack.push(o)] *)
Definition push (o : stack_object) : EM unit :=
  fun s => Ret (Ok tt) (mkst (o :: es_stack s) (es_contract s)).

(** [self.contract....] updates *)
Definition upd (f : contract -> contract) : EM unit :=
  fun s => Ret (Ok tt) (mkst (es_stack s) (f (es_contract s))).

Section Emitter.
  (** [format!("{:?}", candidate)]: the text of error messages is not modelled;
      theorems quantify over this oracle. *)
  Context (debug : stack_object -> str).

  (** emitter.rs:26-39; on a mismatch the popped object is lost. *)
  Definition pop_ir_identifier : EM sr_identifier :=
    fun s => match es_stack s with
             | IrIdentifier n :: r => Ret (Ok n) (mkst r (es_contract s))
             | c :: r => Ret (Err (lit "Expected symbol name, but found " ++ debug c ++ lit "."))
                             (mkst r (es_contract s))
             | [] => Ret (Err (lit "Expected symbol name, but found nothing.")) s
             end.

  (** emitter.rs:41-57 *)
  Definition pop_variable_declaration : EM field :=
    fun s => match es_stack s with
             | VariableDeclaration n :: r => Ret (Ok n) (mkst r (es_contract s))
             | c :: r => Ret (Err (lit "Expected variable declaration, but found " ++ debug c ++ lit "."))
                             (mkst r (es_contract s))
             | [] => Ret (Err (lit "Expected variable declaration, but found nothing.")) s
             end.

  (** emitter.rs:59-75 *)
  Definition pop_type_definition : EM sr_type :=
    fun s => match es_stack s with
             | SoTypeDefinition n :: r => Ret (Ok n) (mkst r (es_contract s))
             | c :: r => Ret (Err (lit "Expected type definition, but found " ++ debug c ++ lit "."))
                             (mkst r (es_contract s))
             | [] => Ret (Err (lit "Expected type definition, but found nothing.")) s
             end.

  (** [let identifier = self.pop_ir_identifier()?;
       self.stack.push(StackObject::TypeDefinition(identifier.into()));] *)
  Definition ident_to_type : EM unit :=
    i <- pop_ir_identifier ;; push (SoTypeDefinition (sr_of_id i)).

  (** [let value = self.pop_type_definition()?; let key = self.pop_type_definition()?;
       .. push SrType { main_type: "Map", sub_types: vec![key, value] }] *)
  Definition pops_to_map : EM unit :=
    value <- pop_type_definition ;;
    key <- pop_type_definition ;;
    push (SoTypeDefinition (mkSr (lit "Map") [key; value] None)).

  (** [Field::new(name, typename.into())]: [Type::from] may panic. *)
  Definition field_of (name : str) (t : sr_type) : EM field :=
    match type_from t with
    | Some ty => ret (mkField name ty)
    | None => panic
    end.

  Definition add_init_param (f : field) (c : contract) : contract :=
    mkContract (c_name c) (c_init_params c ++ [f]) (c_fields c) (c_transitions c).
  Definition add_field (f : field) (c : contract) : contract :=
    mkContract (c_name c) (c_init_params c) (c_fields c ++ [f]) (c_transitions c).
  Definition add_transition (t : transition) (c : contract) : contract :=
    mkContract (c_name c) (c_init_params c) (c_fields c) (c_transitions c ++ [t]).
  Definition set_name (n : str) (c : contract) : contract :=
    mkContract n (c_init_params c) (c_fields c) (c_transitions c).

  (** Emitters whose [push_source_position]/[pop_source_position] do nothing
      (emitter.rs:83-85). *)
  Definition no_push (_ _ : source_position) (s : sr_state) : sr_state := s.
  Definition no_pop (s : sr_state) : sr_state := s.

  Section Callbacks.
    Context (v : anynode -> EM tr).

    (** [node.visit(self)] on a [WithMetaData] node, given that
        [push_source_position]/[pop_source_position] do nothing. *)
    Definition wvisit {A} (inj : A -> anynode) (w : wm A) : EM tr :=
      fun s => match v (inj (node w)) (no_push (wm_start w) (wm_end w) s) with
               | Ret r s' => Ret r (no_pop s')
               | Panic => Panic
               | Fuel => Fuel
               end.

    (** emitter.rs:261-265, 710-714 *)
    Fixpoint collect_sub_types {A} (inj : A -> anynode) (l : list (wm A)) (main : sr_type) : EM sr_type :=
      match l with
      | [] => ret main
      | a :: r => wvisit inj a ;;;
                  sub <- pop_type_definition ;;
                  collect_sub_types inj r (push_sub_type main sub)
      end.

    (** emitter.rs:255-267, 704-716 *)
    Definition generic_type {A} (inj : A -> anynode) (lead : wm NodeMetaIdentifier)
        (args : list (wm A)) : EM unit :=
      wvisit AMetaIdentifier lead ;;;
      ident_to_type ;;;
      match args with
      | [] => ret tt
      | _ => main <- pop_type_definition ;;
             main' <- collect_sub_types inj args main ;;
             push (SoTypeDefinition main')
      end.

    (** emitter.rs:338-343 *)
    Fixpoint collect_address_fields (l : list (wm NodeAddressTypeField)) : EM (list field) :=
      match l with
      | [] => ret []
      | f :: r => wvisit AAddressTypeField f ;;;
                  d <- pop_variable_declaration ;;
                  ds <- collect_address_fields r ;;
                  ret (d :: ds)
      end.

    (** emitter.rs:485-489 *)
    Fixpoint emit_init_params (l : list (wm NodeParameterPair)) : EM unit :=
      match l with
      | [] => ret tt
      | p :: r => wvisit AParameterPair p ;;;
                  d <- pop_variable_declaration ;;
                  upd (add_init_param d) ;;;
                  emit_init_params r
      end.

    (** emitter.rs:637-646 (collecting into [Result] stops at the first error) *)
    Fixpoint collect_params (l : list (wm NodeParameterPair)) : EM (list field) :=
      match l with
      | [] => ret []
      | p :: r => wvisit AParameterPair p ;;;
                  d <- pop_variable_declaration ;;
                  ds <- collect_params r ;;
                  ret (d :: ds)
      end.

    Fixpoint wvisit_all {A} (inj : A -> anynode) (l : list (wm A)) : EM unit :=
      match l with
      | [] => ret tt
      | w :: r => wvisit inj w ;;; wvisit_all inj r
      end.

    (** emitter.rs:82-724 [impl AstConverting for SrEmitter] *)
    Definition sr_emit (m : mode) (n : anynode) : EM tr :=
      match n with
      | AByteStr _ => ret Continue (* 87-93 *)
      | ATypeNameIdentifier n => (* 94-116 *)
          match m, n with
          | Enter, ByteStringType b => push (IrIdentifier (mkId (byte_str_display b) KUnknown))
          | Enter, EventType => ret tt
          | Enter, TypeOrEnumLikeIdentifier s => push (IrIdentifier (mkId (node s) KUnknown))
          | Exit, _ => ret tt
          end ;;; ret Continue
      | AImportedName _ => panic (* 117-123 *)
      | AImportDeclarations _ => panic (* 124-130 *)
      | AMetaIdentifier MetaByteString => (* 131-144 *)
          push (IrIdentifier (mkId (lit "ByStr") KUnknown)) ;;; ret SkipChildren
      | AMetaIdentifier _ => ret Continue
      | AVariableIdentifier _ => ret SkipChildren (* 145-151 *)
      | ABuiltinArguments _ => panic (* 152-158 *)
      | ATypeMapKey k => (* 159-174 *)
          match k with
          | GenericMapKey x => wvisit AMetaIdentifier x
          | EnclosedGenericId x => wvisit AMetaIdentifier x
          | EnclosedAddressMapKeyType x => wvisit AAddressType x
          | AddressMapKeyType x => wvisit AAddressType x
          end ;;; ident_to_type ;;; ret SkipChildren
      | ATypeMapValue x => (* 175-211 *)
          match m with
          | Enter =>
              match x with
              | MapValueTypeOrEnumLikeIdentifier x => wvisit AMetaIdentifier x ;;; ident_to_type
              | MapKeyValue x => wvisit ATypeMapEntry x ;;; pops_to_map
              | MapValueParenthesizedType x =>
                  wvisit ATypeMapValueAllowingTypeArguments x ;;; ret tt
              | MapValueAddressType x => wvisit AAddressType x ;;; ret tt
              end
          | Exit => ret tt
          end ;;; ret SkipChildren
      | ATypeArgument x => (* 212-247 *)
          match x with
          | EnclosedTypeArgument t => wvisit AScillaType t ;;; ret tt
          | GenericTypeArgument x => wvisit AMetaIdentifier x ;;; ident_to_type
          | TemplateTypeArgument _ => panic
          | AddressTypeArgument a => wvisit AAddressType a ;;; ret tt
          | MapTypeArgument k x => wvisit ATypeMapKey k ;;; wvisit ATypeMapValue x ;;; pops_to_map
          end ;;; ret SkipChildren
      | AScillaType x => (* 248-299 *)
          match x with
          | GenericTypeWithArgs lead args => generic_type ATypeArgument lead args
          | MapType k x => wvisit ATypeMapKey k ;;; wvisit ATypeMapValue x ;;; pops_to_map
          | FunctionType _ _ => panic
          | PolyFunctionType _ _ => panic
          | EnclosedType a => wvisit AScillaType a ;;; ret tt
          | ScillaAddresseType a => wvisit AAddressType a ;;; ret tt
          | TypeVarType _ => panic
          end ;;; ret SkipChildren
      | ATypeMapEntry _ => ret Continue (* 301-307 *)
      | AAddressTypeField (mkAddressTypeField i t) => (* 308-325 *)
          match m with
          | Enter =>
              match node i with
              | VariableName name =>
                  wvisit AScillaType t ;;;
                  typename <- pop_type_definition ;;
                  f <- field_of (node name) typename ;;
                  push (VariableDeclaration f)
              | _ => ret tt
              end
          | Exit => ret tt
          end ;;; ret SkipChildren
      | AAddressType (mkAddressType i tn fs) => (* 326-353 *)
          match m with
          | Enter =>
              wvisit ATypeNameIdentifier i ;;;
              ident_to_type ;;;
              main <- pop_type_definition ;;
              fields <- collect_address_fields fs ;;
              let '(mkSr mt subs _) := main in
              push (SoTypeDefinition (mkSr mt subs (Some (mkAddr (node tn) fields))))
          | Exit => ret tt
          end ;;; ret SkipChildren
      | AFullExpression _ => ret SkipChildren (* 355-361 *)
      | AMessageEntry _ => panic (* 363-369 *)
      | APatternMatchExpressionClause _ => panic (* 370-376 *)
      | AAtomicExpression _ => panic (* 377-383 *)
      | AContractTypeArguments _ => panic (* 384-390 *)
      | AValueLiteral _ => ret SkipChildren (* 391-397 *)
      | AMapAccess _ => panic (* 398-404 *)
      | APattern _ => ret SkipChildren (* 405-411 *)
      | AArgumentPattern _ => panic (* 412-418 *)
      | APatternMatchClause _ => panic (* 419-425 *)
      | ABlockchainFetchArguments _ => panic (* 426-432 *)
      | AStatement _ => ret SkipChildren (* 434-440 *)
      | ARemoteFetchStatement _ => panic (* 442-448 *)
      | AComponentId c => (* 449-476 *)
          push (IrIdentifier (mkId match c with
                                   | WithRegularId name => node name
                                   | WithTypeLikeName name => type_name_identifier_display (node name)
                                   end KComponentName)) ;;;
          ret SkipChildren
      | AComponentParameters (mkComponentParameters l) => (* 478-494 *)
          match m with Enter => emit_init_params l | Exit => ret tt end ;;; ret Continue
      | AParameterPair _ => ret Continue (* 496-503 *)
      | AComponentBody _ => ret SkipChildren (* 505-511 *)
      | AStatementBlock _ => ret Continue (* 513-519 *)
      | ATypedIdentifier (mkTypedIdentifier name a) => (* 520-534 *)
          wvisit ATypeAnnotation a ;;;
          typename <- pop_type_definition ;;
          f <- field_of (node name) typename ;;
          push (VariableDeclaration f) ;;;
          ret SkipChildren
      | ATypeAnnotation _ => ret Continue (* 535-542 *)
      | AProgram _ => ret Continue (* 544-550 *)
      | ALibraryDefinition _ => panic (* 552-558 *)
      | ALibrarySingleDefinition _ => panic (* 560-566 *)
      | AContractDefinition (mkContractDefinition name ps con fs cs) => (* 568-591 *)
          wvisit ATypeNameIdentifier name ;;;
          upd (set_name (type_name_identifier_display (node name))) ;;;
          wvisit AComponentParameters ps ;;;
          match con with Some w => wvisit AWithConstraint w ;;; ret tt | None => ret tt end ;;;
          wvisit_all AContractField fs ;;;
          wvisit_all AComponentDefinition cs ;;;
          ret SkipChildren
      | AContractField (mkContractField i e) => (* 593-606 *)
          wvisit ATypedIdentifier i ;;;
          f <- pop_variable_declaration ;;
          wvisit AFullExpression e ;;;
          upd (add_field f) ;;;
          ret SkipChildren
      | AWithConstraint _ => ret Continue (* 607-613 *)
      | AComponentDefinition _ => ret Continue (* 614-620 *)
      | AProcedureDefinition _ => ret SkipChildren (* 621-627 *)
      | ATransitionDefinition (mkTransitionDefinition name ps _) => (* 629-659 *)
          wvisit AComponentId name ;;;
          arguments <- collect_params (let '(mkComponentParameters l) := node ps in l) ;;
          function_name <- pop_ir_identifier ;;
          match kind function_name with
          | KComponentName =>
              upd (add_transition (mkTransition (unresolved function_name) arguments)) ;;;
              ret SkipChildren
          | _ => panic (* line 649 [assert!] *)
          end
      | ATypeAlternativeClause _ => ret SkipChildren (* 661-667 *)
      | ATypeMapValueArguments x => (* 668-691 *)
          match m with
          | Enter =>
              match x with
              | EnclosedTypeMapValue x => wvisit ATypeMapValueAllowingTypeArguments x ;;; ret tt
              | GenericMapValueArgument g => wvisit AMetaIdentifier g ;;; ident_to_type
              | MapKeyValueType _ _ => panic
              end
          | Exit => ret tt
          end ;;; ret SkipChildren
      | ATypeMapValueAllowingTypeArguments x => (* 692-723 *)
          match m with
          | Enter =>
              match x with
              | TypeMapValueNoArgs x => wvisit ATypeMapValue x ;;; ret tt
              | TypeMapValueWithArgs lead args => generic_type ATypeMapValueArguments lead args
              end
          | Exit => ret tt
          end ;;; ret SkipChildren
      end.
  End Callbacks.

  (** [SrEmitter] as an [AstConverting] instance. *)
  Definition sr_emitter : emitter sr_state := mkEmitter sr_state no_push no_pop sr_emit.
End Emitter.

(** ** Depth of the types in a program: bounds the recursion depth of the
    emitter (everything that is not a type is skipped or at constant depth).
    Not in /repo; EmitInv.v shows that [Fuel] is never the outcome. *)
Definition list_max (l : list nat) : nat := fold_right Nat.max O l.

Fixpoint depth_key (k : NodeTypeMapKey) : nat :=
  match k with
  | GenericMapKey _ | EnclosedGenericId _ => 4
  | EnclosedAddressMapKeyType a | AddressMapKeyType a => 1 + depth_addr (node a)
  end
with depth_value (x : NodeTypeMapValue) : nat :=
  match x with
  | MapValueTypeOrEnumLikeIdentifier _ => 4
  | MapKeyValue e => 1 + depth_entry (node e)
  | MapValueParenthesizedType t => 1 + depth_tva (node t)
  | MapValueAddressType a => 1 + depth_addr (node a)
  end
with depth_arg (x : NodeTypeArgument) : nat :=
  match x with
  | EnclosedTypeArgument t => 1 + depth_type (node t)
  | GenericTypeArgument _ | TemplateTypeArgument _ => 4
  | AddressTypeArgument a => 1 + depth_addr (node a)
  | MapTypeArgument k x => 1 + Nat.max (depth_key (node k)) (depth_value (node x))
  end
with depth_type (t : NodeScillaType) : nat :=
  match t with
  | GenericTypeWithArgs _ args => 4 + list_max (map (fun a => depth_arg (node a)) args)
  | MapType k x => 1 + Nat.max (depth_key (node k)) (depth_value (node x))
  | FunctionType _ _ | PolyFunctionType _ _ | TypeVarType _ => 1
  | EnclosedType t => 1 + depth_type (node t)
  | ScillaAddresseType a => 1 + depth_addr (node a)
  end
with depth_entry (e : NodeTypeMapEntry) : nat :=
  match e with
  | mkTypeMapEntry k x => 1 + Nat.max (depth_key (node k)) (depth_value (node x))
  end
with depth_afield (f : NodeAddressTypeField) : nat :=
  match f with mkAddressTypeField _ t => 1 + depth_type (node t) end
with depth_addr (a : NodeAddressType) : nat :=
  match a with
  | mkAddressType _ _ fs => 3 + list_max (map (fun f => depth_afield (node f)) fs)
  end
with depth_tvarg (x : NodeTypeMapValueArguments) : nat :=
  match x with
  | EnclosedTypeMapValue t => 1 + depth_tva (node t)
  | GenericMapValueArgument _ => 4
  | MapKeyValueType _ _ => 1
  end
with depth_tva (x : NodeTypeMapValueAllowingTypeArguments) : nat :=
  match x with
  | TypeMapValueNoArgs x => 1 + depth_value (node x)
  | TypeMapValueWithArgs _ args => 4 + list_max (map (fun a => depth_tvarg (node a)) args)
  end.

(** typed identifier: itself, its annotation, its type *)
Definition depth_typed (t : NodeTypedIdentifier) : nat :=
  match t with
  | mkTypedIdentifier _ a => 2 + depth_type (node (let '(mkTypeAnnotation t) := node a in t))
  end.
Definition depth_pair (p : NodeParameterPair) : nat :=
  match p with mkParameterPair t => 1 + depth_typed (node t) end.
Definition depth_params (ps : NodeComponentParameters) : nat :=
  match ps with mkComponentParameters l => 3 + list_max (map (fun p => depth_pair (node p)) l) end.
Definition depth_field (f : NodeContractField) : nat :=
  match f with mkContractField t _ => 1 + depth_typed (node t) end.
Definition depth_component (c : NodeComponentDefinition) : nat :=
  match c with
  | TransitionComponent t =>
      2 + match node t with mkTransitionDefinition _ ps _ => depth_params (node ps) end
  | ProcedureComponent _ => 3
  end.
Definition depth_contract (c : NodeContractDefinition) : nat :=
  match c with
  | mkContractDefinition _ ps _ fs cs =>
      4 + depth_params (node ps)
      + list_max (map (fun f => depth_field (node f)) fs)
      + list_max (map (fun c => depth_component (node c)) cs)
  end.

(** Result of [SrEmitter::emit]. *)
Inductive emit_out := EOk (c : contract) | EErr (msg : str) | EPanic | EFuel.

(** emitter.rs:76-79 [SrEmitter::default().emit(&program)]: only the contract
    definition is visited. *)
Definition emit_program (debug : stack_object -> str) (p : NodeProgram) : emit_out :=
  match p with
  | mkProgram _ _ _ c =>
      let E := sr_emitter debug in
      match visit_wm E (visit E (depth_contract (node c))) AContractDefinition c sr_default with
      | Ret (Ok _) s => EOk (es_contract s)
      | Ret (Err m) _ => EErr m
      | Panic => EPanic
      | Fuel => EFuel
      end
  end.
