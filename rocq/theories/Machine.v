(** A specification of what reading a contract does, for every program: the
    declarations are translated, from left to right, into commands for a machine
    with one stack; executing the commands gives the contract, the error or the
    panic.  Nothing here refers to the visitor or to the emitter's callbacks; the
    things on the stack are those of src/simplified_representation/emitter.rs:10-15. *)
From Verif Require Import Chars Lexer Ast Types Emitter EmitSpec.

(** ** Commands *)
Inductive cmd :=
| Name (s : str) (k : id_kind)          (* push a name *)
| ToType                                (* a name becomes a type *)
| ToMap                                 (* two types become a map *)
| Args (args : list (list cmd))         (* take a type; each argument in turn is made and taken; push the type with its arguments *)
| Record (tn : str) (fs : list (list cmd)) (* the same with declarations: push the address type *)
| Attempt (body : list cmd)             (* an error inside is forgotten *)
| Declare (n : str)                     (* a type becomes a declaration *)
| Stop                                  (* unimplemented *)
| SetName (n : str)
| AddParam | AddField                   (* a declaration moves to the contract *)
| AddTransition (ps : list (list cmd)). (* so do the declarations of a transition, and its name *)

(** ** Execution *)
Notation state := (list stack_object * contract)%type.
Inductive out := Done (s : state) | Fail (msg : str) (s : state) | Abort.

Section Exec.
  (** how a thing is shown in a message *)
  Context (debug : stack_object -> str).

  (** Take the top of the stack, which should be [what]. *)
  Definition take {A} (what : str) (is : stack_object -> option A) (k : A -> state -> out) (s : state) : out :=
    match fst s with
    | [] => Fail (lit "Expected " ++ what ++ lit ", but found nothing.") s
    | o :: r => match is o with
                | Some a => k a (r, snd s)
                | None => Fail (lit "Expected " ++ what ++ lit ", but found " ++ debug o ++ lit ".") (r, snd s)
                end
    end.
  Definition take_name := take (lit "symbol name") (fun o => match o with IrIdentifier i => Some i | _ => None end).
  Definition take_type := take (lit "type definition") (fun o => match o with SoTypeDefinition t => Some t | _ => None end).
  Definition take_decl := take (lit "variable declaration") (fun o => match o with VariableDeclaration f => Some f | _ => None end).
  Definition put (o : stack_object) (s : state) : out := Done (o :: fst s, snd s).
  Definition andthen (o : out) (k : state -> out) : out := match o with Done s => k s | x => x end.

  Fixpoint exec (c : cmd) (s : state) {struct c} : out :=
    let execs := fix execs (l : list cmd) (s : state) {struct l} : out :=
      match l with [] => Done s | c :: r => andthen (exec c s) (execs r) end in
    match c with
    | Name n k => put (IrIdentifier (mkId n k)) s
    | ToType => take_name (fun i => put (SoTypeDefinition (mkSr (unresolved i) [] None))) s
    | ToMap => take_type (fun v => take_type (fun k => put (SoTypeDefinition (mkSr (lit "Map") [k; v] None)))) s
    | Args l =>
        take_type (fun '(mkSr m subs a) =>
          (fix each l subs s {struct l} := match l with
            | [] => put (SoTypeDefinition (mkSr m subs a)) s
            | b :: r => andthen (execs b s) (take_type (fun t => each r (subs ++ [t])))
            end) l subs) s
    | Record tn l =>
        take_type (fun '(mkSr m subs _) =>
          (fix each l fs s {struct l} := match l with
            | [] => put (SoTypeDefinition (mkSr m subs (Some (mkAddr tn fs)))) s
            | b :: r => andthen (execs b s) (take_decl (fun f => each r (fs ++ [f])))
            end) l []) s
    | Attempt b => match execs b s with Fail _ s' => Done s' | x => x end
    | Declare n => take_type (fun t s => match type_from t with Some ty => put (VariableDeclaration (mkField n ty)) s | None => Abort end) s
    | Stop => Abort
    | SetName n => let c := snd s in Done (fst s, mkContract n (c_init_params c) (c_fields c) (c_transitions c))
    | AddParam => take_decl (fun f '(st, c) => Done (st, mkContract (c_name c) (c_init_params c ++ [f]) (c_fields c) (c_transitions c))) s
    | AddField => take_decl (fun f '(st, c) => Done (st, mkContract (c_name c) (c_init_params c) (c_fields c ++ [f]) (c_transitions c))) s
    | AddTransition l =>
        (fix each l fs s {struct l} := match l with
          | [] => take_name (fun i '(st, c) =>
                    match kind i with
                    | KComponentName => Done (st, mkContract (c_name c) (c_init_params c) (c_fields c) (c_transitions c ++ [mkTransition (unresolved i) fs]))
                    | _ => Abort
                    end) s
          | b :: r => andthen (execs b s) (take_decl (fun f => each r (fs ++ [f])))
          end) l [] s
    end.
  Fixpoint execs (l : list cmd) (s : state) : out :=
    match l with [] => Done s | c :: r => andthen (exec c s) (execs r) end.
End Exec.

(** ** Translation *)
(** The type [Event] leaves nothing on the stack. *)
Definition code_name (n : NodeTypeNameIdentifier) : list cmd :=
  match n with
  | ByteStringType b => [Name (byte_str_display b) KUnknown]
  | EventType => []
  | TypeOrEnumLikeIdentifier s => [Name (node s) KUnknown]
  end.
Definition code_meta (m : NodeMetaIdentifier) : list cmd :=
  match m with
  | MetaName n => code_name (node n)
  | MetaNameInNamespace ns n => code_name (node ns) ++ code_name (node n)
  | MetaNameInHexspace _ n => code_name (node n)
  | MetaByteString => [Name (lit "ByStr") KUnknown]
  end.
Definition with_args (head : list cmd) (args : list (list cmd)) : list cmd :=
  head ++ [ToType] ++ match args with [] => [] | _ => [Args args] end.

Fixpoint code_key (k : NodeTypeMapKey) : list cmd :=
  match k with
  | GenericMapKey m | EnclosedGenericId m => code_meta (node m) ++ [ToType]
  | EnclosedAddressMapKeyType a | AddressMapKeyType a => code_addr (node a) ++ [ToType]
  end
with code_value (x : NodeTypeMapValue) : list cmd :=
  match x with
  | MapValueTypeOrEnumLikeIdentifier m => code_meta (node m) ++ [ToType]
  | MapKeyValue e => code_entry (node e) ++ [ToMap]
  | MapValueParenthesizedType t => code_tva (node t)
  | MapValueAddressType a => code_addr (node a)
  end
with code_arg (x : NodeTypeArgument) : list cmd :=
  match x with
  | EnclosedTypeArgument t => code_type (node t)
  | GenericTypeArgument m => code_meta (node m) ++ [ToType]
  | TemplateTypeArgument _ => [Stop]
  | AddressTypeArgument a => code_addr (node a)
  | MapTypeArgument k x => code_key (node k) ++ code_value (node x) ++ [ToMap]
  end
with code_type (t : NodeScillaType) : list cmd :=
  match t with
  | GenericTypeWithArgs m args => with_args (code_meta (node m)) (map (fun a => code_arg (node a)) args)
  | MapType k x => code_key (node k) ++ code_value (node x) ++ [ToMap]
  | FunctionType _ _ | PolyFunctionType _ _ | TypeVarType _ => [Stop]
  | EnclosedType t => code_type (node t)
  | ScillaAddresseType a => code_addr (node a)
  end
with code_entry (e : NodeTypeMapEntry) : list cmd :=
  match e with mkTypeMapEntry k x => code_key (node k) ++ code_value (node x) end
with code_afield (f : NodeAddressTypeField) : list cmd :=
  match f with
  | mkAddressTypeField i t =>
      match node i with
      | VariableName n => code_type (node t) ++ [Declare (node n)]
      | _ => []
      end
  end
with code_addr (a : NodeAddressType) : list cmd :=
  match a with
  | mkAddressType i tn fs => [Attempt (code_name (node i) ++ [ToType; Record (node tn) (map (fun f => code_afield (node f)) fs)])]
  end
with code_tvarg (x : NodeTypeMapValueArguments) : list cmd :=
  match x with
  | EnclosedTypeMapValue t => code_tva (node t)
  | GenericMapValueArgument m => code_meta (node m) ++ [ToType]
  | MapKeyValueType _ _ => [Stop]
  end
with code_tva (x : NodeTypeMapValueAllowingTypeArguments) : list cmd :=
  match x with
  | TypeMapValueNoArgs x => code_value (node x)
  | TypeMapValueWithArgs m args => with_args (code_meta (node m)) (map (fun a => code_tvarg (node a)) args)
  end.

(** A declaration [name : type] ends up on the stack. *)
Definition code_decl (d : NodeTypedIdentifier) : list cmd := code_type (typed_type d) ++ [Declare (typed_name d)].
(** The parameters of the contract are read twice; the second time they stay on
    the stack.  Procedures, initialisers, bodies and the constraint have no code. *)
Definition code_contract (c : NodeContractDefinition) : list cmd :=
  match c with mkContractDefinition n _ _ _ _ => code_name (node n) end
  ++ [SetName (declared_name c)]
  ++ flat_map (fun d => code_decl d ++ [AddParam]) (contract_param_decls c)
  ++ flat_map code_decl (contract_param_decls c)
  ++ flat_map (fun d => code_decl d ++ [AddField]) (field_decls c)
  ++ flat_map (fun t => [Name (fst t) KComponentName; AddTransition (map code_decl (snd t))]) (transition_decls c).
Definition code_program (p : NodeProgram) : list cmd :=
  match p with mkProgram _ _ _ c => code_contract (node c) end.
