(** Specification side of the emitter properties: what a type annotation says,
    which [Type] it denotes, and what a contract declares.  Nothing here refers
    to the visitor, to the emitter's stack or to [SrType]. *)
From Verif Require Import Chars Lexer Ast Types.

(** ** Type expressions *)

(** A type as the user reads it, parentheses removed: a name applied to
    arguments ([Map k v] is the name [Map] applied to [k] and [v]), an address
    type [n with kind f1 : t1, ... end], or something the crate does not
    support (function types, [forall], type variables, and a [Map] written
    without parentheses as an argument inside a map value type). *)
Inductive texp :=
| TName (n : str) (args : list texp)
| TAddr (n kind : str) (fields : list (str * texp))
| TUnsupported.

(** The twelve types without arguments, by name. *)
Inductive base_name : str -> ty -> Prop :=
| bn_i32 : base_name (lit "Int32") Int32 | bn_i64 : base_name (lit "Int64") Int64
| bn_i128 : base_name (lit "Int128") Int128 | bn_i256 : base_name (lit "Int256") Int256
| bn_u32 : base_name (lit "Uint32") Uint32 | bn_u64 : base_name (lit "Uint64") Uint64
| bn_u128 : base_name (lit "Uint128") Uint128 | bn_u256 : base_name (lit "Uint256") Uint256
| bn_string : base_name (lit "String") TyString | bn_bystr : base_name (lit "ByStr") ByStr
| bn_bnum : base_name (lit "BNum") BNum | bn_bool : base_name (lit "Bool") TyBool.

(** Decimal value of a string of digits, most significant first. *)
Definition decimal (ds : str) : N := fold_left (fun a c => a * 10 + (c - 48)) ds 0.

(** [n] is [ByStr] followed by a decimal number below 2^64 (Rust's number syntax
    also allows a [+] before it, which no token of Scilla contains), and is not
    [ByStr20]. *)
Definition sized_bystr (n : str) (size : N) : Prop :=
  exists plus ds, n = lit "ByStr" ++ plus ++ ds /\ (plus = [] \/ plus = lit "+")
    /\ ds <> [] /\ Forall (fun c => is_digit c = true) ds
    /\ decimal ds = size /\ size < 2 ^ 64 /\ n <> lit "ByStr20".

Definition constructor_name (n : str) : Prop :=
  n = lit "Option" \/ n = lit "List" \/ n = lit "Pair" \/ n = lit "Map" \/ n = lit "ByStr20".

(** [denotes x t]: the type expression [x] denotes the [Type] [t].  Surplus
    arguments are ignored from the left ([Option A B] is [Option B]), arguments
    of names that take none are dropped.
    [sound x]: every field of every address type in [x] denotes a type. *)
Inductive denotes : texp -> ty -> Prop :=
| d_base n args t : base_name n t -> sounds args -> denotes (TName n args) t
| d_option args a t : sounds args -> denotes a t ->
    denotes (TName (lit "Option") (args ++ [a])) (TyOption t)
| d_list args a t : sounds args -> denotes a t ->
    denotes (TName (lit "List") (args ++ [a])) (TyList t)
| d_pair args a b ta tb : sounds args -> denotes a ta -> denotes b tb ->
    denotes (TName (lit "Pair") (args ++ [a; b])) (TyPair ta tb)
| d_map args k v tk tv : sounds args -> denotes k tk -> denotes v tv ->
    denotes (TName (lit "Map") (args ++ [k; v])) (TyMap tk tv)
| d_bystr20 args : sounds args -> denotes (TName (lit "ByStr20") args) ByStr20
| d_bystrx n size args : sized_bystr n size -> sounds args -> denotes (TName n args) (ByStrX size)
| d_other n args : (forall t, ~ base_name n t) -> ~ constructor_name n ->
    (forall size, ~ sized_bystr n size) -> sounds args -> denotes (TName n args) (Other n)
| d_address kind fs fs' : denote_fields fs fs' ->
    denotes (TAddr (lit "ByStr20") kind fs) (ByStr20With kind fs')
| d_address_other n kind fs fs' t : n <> lit "ByStr20" -> denote_fields fs fs' ->
    denotes (TName n []) t -> denotes (TAddr n kind fs) t
with denote_fields : list (str * texp) -> list field -> Prop :=
| df_nil : denote_fields [] []
| df_cons n x t l l' : denotes x t -> denote_fields l l' ->
    denote_fields ((n, x) :: l) (mkField n t :: l')
with sound : texp -> Prop :=
| s_name n args : sounds args -> sound (TName n args)
| s_addr n kind fs fs' : denote_fields fs fs' -> sound (TAddr n kind fs)
with sounds : list texp -> Prop :=
| ss_nil : sounds []
| ss_cons x l : sound x -> sounds l -> sounds (x :: l).

(** ** What a type node of the AST says *)

(** A type name other than [Event]. *)
Inductive plain_name : NodeTypeNameIdentifier -> str -> Prop :=
| pn_bystr_type s : plain_name (ByteStringType (BSType s)) (node s)
| pn_bystr_const s : plain_name (ByteStringType (BSConstant s)) (node s)
| pn_type s : plain_name (TypeOrEnumLikeIdentifier s) (node s).

(** A name without namespace ([0x12.T] is read as [T]: the crate drops the hex
    namespace). *)
Inductive plain_head : NodeMetaIdentifier -> str -> Prop :=
| ph_name n s : plain_name (node n) s -> plain_head (MetaName n) s
| ph_hex h n s : plain_name (node n) s -> plain_head (MetaNameInHexspace h n) s
| ph_bystr : plain_head MetaByteString (lit "ByStr").

(** [says_type t x]: the type node [t] says [x].  Not covered, because the
    crate treats them in surprising ways (C26-C29): the type [Event],
    namespaced names [Ns.T], address types as map keys, and address fields
    whose name is not a plain identifier. *)
Inductive says_type : NodeScillaType -> texp -> Prop :=
| st_generic m n args xs : plain_head (node m) n -> says_args args xs ->
    says_type (GenericTypeWithArgs m args) (TName n xs)
| st_map k v xk xv : says_key (node k) xk -> says_value (node v) xv ->
    says_type (MapType k v) (TName (lit "Map") [xk; xv])
| st_enclosed t x : says_type (node t) x -> says_type (EnclosedType t) x
| st_address a x : says_address (node a) x -> says_type (ScillaAddresseType a) x
| st_function a b : says_type (FunctionType a b) TUnsupported
| st_poly v t : says_type (PolyFunctionType v t) TUnsupported
| st_var v : says_type (TypeVarType v) TUnsupported
with says_key : NodeTypeMapKey -> texp -> Prop :=
| sk_plain m n : plain_head (node m) n -> says_key (GenericMapKey m) (TName n [])
| sk_enclosed m n : plain_head (node m) n -> says_key (EnclosedGenericId m) (TName n [])
with says_value : NodeTypeMapValue -> texp -> Prop :=
| sv_plain m n : plain_head (node m) n ->
    says_value (MapValueTypeOrEnumLikeIdentifier m) (TName n [])
| sv_map e k v xk xv : node e = mkTypeMapEntry k v -> says_key (node k) xk ->
    says_value (node v) xv -> says_value (MapKeyValue e) (TName (lit "Map") [xk; xv])
| sv_enclosed t x : says_tva (node t) x -> says_value (MapValueParenthesizedType t) x
| sv_address a x : says_address (node a) x -> says_value (MapValueAddressType a) x
with says_arg : NodeTypeArgument -> texp -> Prop :=
| sa_enclosed t x : says_type (node t) x -> says_arg (EnclosedTypeArgument t) x
| sa_plain m n : plain_head (node m) n -> says_arg (GenericTypeArgument m) (TName n [])
| sa_template s : says_arg (TemplateTypeArgument s) TUnsupported
| sa_address a x : says_address (node a) x -> says_arg (AddressTypeArgument a) x
| sa_map k v xk xv : says_key (node k) xk -> says_value (node v) xv ->
    says_arg (MapTypeArgument k v) (TName (lit "Map") [xk; xv])
with says_args : list (wm NodeTypeArgument) -> list texp -> Prop :=
| sas_nil : says_args [] []
| sas_cons a x l xs : says_arg (node a) x -> says_args l xs -> says_args (a :: l) (x :: xs)
with says_address : NodeAddressType -> texp -> Prop :=
| sd_address i n tn fs xs : plain_name (node i) n -> says_fields fs xs ->
    says_address (mkAddressType i tn fs) (TAddr n (node tn) xs)
with says_fields : list (wm NodeAddressTypeField) -> list (str * texp) -> Prop :=
| sf_nil : says_fields [] []
| sf_cons f i n t x l xs : node f = mkAddressTypeField i t -> node i = VariableName n ->
    says_type (node t) x -> says_fields l xs -> says_fields (f :: l) ((node n, x) :: xs)
with says_tvarg : NodeTypeMapValueArguments -> texp -> Prop :=
| sg_enclosed t x : says_tva (node t) x -> says_tvarg (EnclosedTypeMapValue t) x
| sg_plain m n : plain_head (node m) n -> says_tvarg (GenericMapValueArgument m) (TName n [])
| sg_map k v : says_tvarg (MapKeyValueType k v) TUnsupported
with says_tvargs : list (wm NodeTypeMapValueArguments) -> list texp -> Prop :=
| sgs_nil : says_tvargs [] []
| sgs_cons a x l xs : says_tvarg (node a) x -> says_tvargs l xs -> says_tvargs (a :: l) (x :: xs)
with says_tva : NodeTypeMapValueAllowingTypeArguments -> texp -> Prop :=
| sw_noargs t x : says_value (node t) x -> says_tva (TypeMapValueNoArgs t) x
| sw_args m n args xs : plain_head (node m) n -> says_tvargs args xs ->
    says_tva (TypeMapValueWithArgs m args) (TName n xs).

(** ** What a contract declares *)

(** the type of a [name : type] pair *)
Definition typed_type (t : NodeTypedIdentifier) : NodeScillaType :=
  match t with mkTypedIdentifier _ a => match node a with mkTypeAnnotation ty => node ty end end.
Definition typed_name (t : NodeTypedIdentifier) : str :=
  match t with mkTypedIdentifier n _ => node n end.

(** the declarations of a contract, as nodes *)
Definition param_decls (ps : NodeComponentParameters) : list NodeTypedIdentifier :=
  match ps with
  | mkComponentParameters l =>
      map (fun p => match node p with mkParameterPair i => node i end) l
  end.
Definition contract_param_decls (c : NodeContractDefinition) : list NodeTypedIdentifier :=
  match c with mkContractDefinition _ ps _ _ _ => param_decls (node ps) end.
Definition field_decls (c : NodeContractDefinition) : list NodeTypedIdentifier :=
  match c with
  | mkContractDefinition _ _ _ fs _ =>
      map (fun f => match node f with mkContractField i _ => node i end) fs
  end.
Definition component_name (c : NodeComponentId) : str :=
  match c with
  | WithTypeLikeName n => type_name_identifier_display (node n)
  | WithRegularId s => node s
  end.
(** name and parameters of the transitions, procedures left out *)
Definition transition_decls (c : NodeContractDefinition) : list (str * list NodeTypedIdentifier) :=
  match c with
  | mkContractDefinition _ _ _ _ cs =>
      flat_map (fun d => match node d with
                         | TransitionComponent t =>
                             match node t with
                             | mkTransitionDefinition n ps _ =>
                                 [(component_name (node n), param_decls (node ps))]
                             end
                         | ProcedureComponent _ => []
                         end) cs
  end.
Definition declared_name (c : NodeContractDefinition) : str :=
  match c with mkContractDefinition n _ _ _ _ => type_name_identifier_display (node n) end.

(** A declaration says a name and a type expression. *)
Definition says_decl (d : NodeTypedIdentifier) (nx : str * texp) : Prop :=
  fst nx = typed_name d /\ says_type (typed_type d) (snd nx).

(** A contract as the user describes it. *)
Record description := mkDescription
  { d_name : str; d_params : list (str * texp); d_fields : list (str * texp);
    d_transitions : list (str * list (str * texp)) }.

(** The contract node [c] is described by [d]. *)
Definition described (c : NodeContractDefinition) (d : description) : Prop :=
  d_name d = declared_name c
  /\ Forall2 says_decl (contract_param_decls c) (d_params d)
  /\ Forall2 says_decl (field_decls c) (d_fields d)
  /\ Forall2 (fun t dt => fst dt = fst t /\ Forall2 says_decl (snd t) (snd dt))
             (transition_decls c) (d_transitions d).

(** The [Contract] value a description denotes. *)
Definition description_denotes (d : description) (c : contract) : Prop :=
  c_name c = d_name d
  /\ denote_fields (d_params d) (c_init_params c)
  /\ denote_fields (d_fields d) (c_fields c)
  /\ Forall2 (fun dt t => t_name t = fst dt /\ denote_fields (snd dt) (t_params t))
             (d_transitions d) (c_transitions c).
