(** C58, instrumentation: the emitter of src/simplified_representation/emitter.rs
    with a budget of node visits.

    [lsr_emit] is [Emitter.sr_emit] word for word, over any state [T] into which
    the operations on the emitter's own state can be lifted; with [T] that state
    itself it is [sr_emit] ([lifted_same] in BudgetFacts.v).  [budgeted] is the
    emitter whose state also holds the number of visits it may still make: each
    visit takes one, and the run ends with [Fuel] when there is none left. *)
From Verif Require Import Chars Lexer Ast Types Visitor Emitter.

Section Lifted.
  Context (debug : stack_object -> str) {T : Type} (lift : forall A, EM A -> M T A).
  Context (v : anynode -> M T tr).
  Notation "'L' m" := (lift _ m) (at level 9, m at level 9).
  Notation MT := (M T).

  (** emitter.rs, as in Emitter.v *)
  Definition lwvisit {A} (inj : A -> anynode) (w : wm A) : MT tr := v (inj (node w)).
  Fixpoint lcollect_sub_types {A} (inj : A -> anynode) (l : list (wm A)) (main : sr_type) : MT sr_type :=
    match l with
    | [] => ret main
    | a :: r => lwvisit inj a ;;;
                sub <- L (pop_type_definition debug) ;;
                lcollect_sub_types inj r (push_sub_type main sub)
    end.
  Definition lgeneric_type {A} (inj : A -> anynode) (lead : wm NodeMetaIdentifier) (args : list (wm A)) : MT unit :=
    lwvisit AMetaIdentifier lead ;;;
    L (ident_to_type debug) ;;;
    match args with
    | [] => ret tt
    | _ => main <- L (pop_type_definition debug) ;;
           main' <- lcollect_sub_types inj args main ;;
           L (push (SoTypeDefinition main'))
    end.
  Fixpoint lcollect_address_fields (l : list (wm NodeAddressTypeField)) : MT (list field) :=
    match l with
    | [] => ret []
    | f :: r => lwvisit AAddressTypeField f ;;;
                d <- L (pop_variable_declaration debug) ;;
                ds <- lcollect_address_fields r ;;
                ret (d :: ds)
    end.
  Fixpoint lemit_init_params (l : list (wm NodeParameterPair)) : MT unit :=
    match l with
    | [] => ret tt
    | p :: r => lwvisit AParameterPair p ;;;
                d <- L (pop_variable_declaration debug) ;;
                L (upd (add_init_param d)) ;;;
                lemit_init_params r
    end.
  Fixpoint lcollect_params (l : list (wm NodeParameterPair)) : MT (list field) :=
    match l with
    | [] => ret []
    | p :: r => lwvisit AParameterPair p ;;;
                d <- L (pop_variable_declaration debug) ;;
                ds <- lcollect_params r ;;
                ret (d :: ds)
    end.
  Fixpoint lwvisit_all {A} (inj : A -> anynode) (l : list (wm A)) : MT unit :=
    match l with
    | [] => ret tt
    | w :: r => lwvisit inj w ;;; lwvisit_all inj r
    end.

  (** emitter.rs:82-724 *)
  Definition lsr_emit (m : mode) (n : anynode) : MT tr :=
    match n with
    | AByteStr _ => ret Continue
    | ATypeNameIdentifier n =>
        match m, n with
        | Enter, ByteStringType b => L (push (IrIdentifier (mkId (byte_str_display b) KUnknown)))
        | Enter, EventType => ret tt
        | Enter, TypeOrEnumLikeIdentifier s => L (push (IrIdentifier (mkId (node s) KUnknown)))
        | Exit, _ => ret tt
        end ;;; ret Continue
    | AImportedName _ => panic
    | AImportDeclarations _ => panic
    | AMetaIdentifier MetaByteString =>
        L (push (IrIdentifier (mkId (lit "ByStr") KUnknown))) ;;; ret SkipChildren
    | AMetaIdentifier _ => ret Continue
    | AVariableIdentifier _ => ret SkipChildren
    | ABuiltinArguments _ => panic
    | ATypeMapKey k =>
        match k with
        | GenericMapKey x => lwvisit AMetaIdentifier x
        | EnclosedGenericId x => lwvisit AMetaIdentifier x
        | EnclosedAddressMapKeyType x => lwvisit AAddressType x
        | AddressMapKeyType x => lwvisit AAddressType x
        end ;;; L (ident_to_type debug) ;;; ret SkipChildren
    | ATypeMapValue x =>
        match m with
        | Enter =>
            match x with
            | MapValueTypeOrEnumLikeIdentifier x => lwvisit AMetaIdentifier x ;;; L (ident_to_type debug)
            | MapKeyValue x => lwvisit ATypeMapEntry x ;;; L (pops_to_map debug)
            | MapValueParenthesizedType x => lwvisit ATypeMapValueAllowingTypeArguments x ;;; ret tt
            | MapValueAddressType x => lwvisit AAddressType x ;;; ret tt
            end
        | Exit => ret tt
        end ;;; ret SkipChildren
    | ATypeArgument x =>
        match x with
        | EnclosedTypeArgument t => lwvisit AScillaType t ;;; ret tt
        | GenericTypeArgument x => lwvisit AMetaIdentifier x ;;; L (ident_to_type debug)
        | TemplateTypeArgument _ => panic
        | AddressTypeArgument a => lwvisit AAddressType a ;;; ret tt
        | MapTypeArgument k x => lwvisit ATypeMapKey k ;;; lwvisit ATypeMapValue x ;;; L (pops_to_map debug)
        end ;;; ret SkipChildren
    | AScillaType x =>
        match x with
        | GenericTypeWithArgs lead args => lgeneric_type ATypeArgument lead args
        | MapType k x => lwvisit ATypeMapKey k ;;; lwvisit ATypeMapValue x ;;; L (pops_to_map debug)
        | FunctionType _ _ => panic
        | PolyFunctionType _ _ => panic
        | EnclosedType a => lwvisit AScillaType a ;;; ret tt
        | ScillaAddresseType a => lwvisit AAddressType a ;;; ret tt
        | TypeVarType _ => panic
        end ;;; ret SkipChildren
    | ATypeMapEntry _ => ret Continue
    | AAddressTypeField (mkAddressTypeField i t) =>
        match m with
        | Enter =>
            match node i with
            | VariableName name =>
                lwvisit AScillaType t ;;;
                typename <- L (pop_type_definition debug) ;;
                f <- L (field_of (node name) typename) ;;
                L (push (VariableDeclaration f))
            | _ => ret tt
            end
        | Exit => ret tt
        end ;;; ret SkipChildren
    | AAddressType (mkAddressType i tn fs) =>
        match m with
        | Enter =>
            lwvisit ATypeNameIdentifier i ;;;
            L (ident_to_type debug) ;;;
            main <- L (pop_type_definition debug) ;;
            fields <- lcollect_address_fields fs ;;
            let '(mkSr mt subs _) := main in
            L (push (SoTypeDefinition (mkSr mt subs (Some (mkAddr (node tn) fields)))))
        | Exit => ret tt
        end ;;; ret SkipChildren
    | AFullExpression _ => ret SkipChildren
    | AMessageEntry _ => panic
    | APatternMatchExpressionClause _ => panic
    | AAtomicExpression _ => panic
    | AContractTypeArguments _ => panic
    | AValueLiteral _ => ret SkipChildren
    | AMapAccess _ => panic
    | APattern _ => ret SkipChildren
    | AArgumentPattern _ => panic
    | APatternMatchClause _ => panic
    | ABlockchainFetchArguments _ => panic
    | AStatement _ => ret SkipChildren
    | ARemoteFetchStatement _ => panic
    | AComponentId c =>
        L (push (IrIdentifier (mkId match c with
                                   | WithRegularId name => node name
                                   | WithTypeLikeName name => type_name_identifier_display (node name)
                                   end KComponentName))) ;;;
        ret SkipChildren
    | AComponentParameters (mkComponentParameters l) =>
        match m with Enter => lemit_init_params l | Exit => ret tt end ;;; ret Continue
    | AParameterPair _ => ret Continue
    | AComponentBody _ => ret SkipChildren
    | AStatementBlock _ => ret Continue
    | ATypedIdentifier (mkTypedIdentifier name a) =>
        lwvisit ATypeAnnotation a ;;;
        typename <- L (pop_type_definition debug) ;;
        f <- L (field_of (node name) typename) ;;
        L (push (VariableDeclaration f)) ;;;
        ret SkipChildren
    | ATypeAnnotation _ => ret Continue
    | AProgram _ => ret Continue
    | ALibraryDefinition _ => panic
    | ALibrarySingleDefinition _ => panic
    | AContractDefinition (mkContractDefinition name ps con fs cs) =>
        lwvisit ATypeNameIdentifier name ;;;
        L (upd (set_name (type_name_identifier_display (node name)))) ;;;
        lwvisit AComponentParameters ps ;;;
        match con with Some w => lwvisit AWithConstraint w ;;; ret tt | None => ret tt end ;;;
        lwvisit_all AContractField fs ;;;
        lwvisit_all AComponentDefinition cs ;;;
        ret SkipChildren
    | AContractField (mkContractField i e) =>
        lwvisit ATypedIdentifier i ;;;
        f <- L (pop_variable_declaration debug) ;;
        lwvisit AFullExpression e ;;;
        L (upd (add_field f)) ;;;
        ret SkipChildren
    | AWithConstraint _ => ret Continue
    | AComponentDefinition _ => ret Continue
    | AProcedureDefinition _ => ret SkipChildren
    | ATransitionDefinition (mkTransitionDefinition name ps _) =>
        lwvisit AComponentId name ;;;
        arguments <- lcollect_params (let '(mkComponentParameters l) := node ps in l) ;;
        function_name <- L (pop_ir_identifier debug) ;;
        match kind function_name with
        | KComponentName =>
            L (upd (add_transition (mkTransition (unresolved function_name) arguments))) ;;;
            ret SkipChildren
        | _ => panic
        end
    | ATypeAlternativeClause _ => ret SkipChildren
    | ATypeMapValueArguments x =>
        match m with
        | Enter =>
            match x with
            | EnclosedTypeMapValue x => lwvisit ATypeMapValueAllowingTypeArguments x ;;; ret tt
            | GenericMapValueArgument g => lwvisit AMetaIdentifier g ;;; L (ident_to_type debug)
            | MapKeyValueType _ _ => panic
            end
        | Exit => ret tt
        end ;;; ret SkipChildren
    | ATypeMapValueAllowingTypeArguments x =>
        match m with
        | Enter =>
            match x with
            | TypeMapValueNoArgs x => lwvisit ATypeMapValue x ;;; ret tt
            | TypeMapValueWithArgs lead args => lgeneric_type ATypeMapValueArguments lead args
            end
        | Exit => ret tt
        end ;;; ret SkipChildren
    end.
End Lifted.

(** The emitter's state with the number of visits left. *)
Definition bstate := (nat * sr_state)%type.
Definition blift (A : Type) (m : EM A) : M bstate A :=
  fun ks => match m (snd ks) with
            | Ret r s => Ret r (fst ks, s)
            | Panic => Panic
            | Fuel => Fuel
            end.
(** every visit begins with one callback in mode [Enter] *)
Definition spend : M bstate unit :=
  fun ks => match fst ks with
            | O => Fuel
            | S k => Ret (Ok tt) (k, snd ks)
            end.
Definition budgeted (debug : stack_object -> str) : emitter bstate :=
  mkEmitter bstate (fun _ _ s => s) (fun s => s)
    (fun v m n => match m with
                  | Enter => spend ;;; lsr_emit debug blift v Enter n
                  | Exit => lsr_emit debug blift v Exit n
                  end).
(** The emission of a program with [k] visits, nested at most [d] deep. *)
Definition emit_within (debug : stack_object -> str) (d k : nat) (p : NodeProgram) : outcome bstate tr :=
  match p with
  | mkProgram _ _ _ c => visit (budgeted debug) d (AContractDefinition (node c)) (k, sr_default)
  end.
