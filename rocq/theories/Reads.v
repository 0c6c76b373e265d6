(** C26: types with namespaced names.  [reads_type t x ks]: the type node [t]
    says [x] once the namespaces are left out, and [ks] are the namespaces left
    out, the last one first.  Extends [says_type] of EmitSpec by names [Ns.T];
    the value of a [Map] must not contain any (see [C26_map_value]). *)
From Verif Require Import Chars Lexer Ast Types EmitSpec.

Inductive reads_head : NodeMetaIdentifier -> str -> list str -> Prop :=
| rh_plain m n : plain_head m n -> reads_head m n []
| rh_namespace a b ns n : plain_name (node a) ns -> plain_name (node b) n ->
    reads_head (MetaNameInNamespace a b) n [ns].

Inductive reads_type : NodeScillaType -> texp -> list str -> Prop :=
| rt_generic m n k args xs ks : reads_head (node m) n k -> reads_args args xs ks ->
    reads_type (GenericTypeWithArgs m args) (TName n xs) (ks ++ k)
| rt_map k v xk xv ks : reads_key (node k) xk ks -> reads_value (node v) xv [] ->
    reads_type (MapType k v) (TName (lit "Map") [xk; xv]) ks
| rt_enclosed t x ks : reads_type (node t) x ks -> reads_type (EnclosedType t) x ks
| rt_address a x ks : reads_address (node a) x ks -> reads_type (ScillaAddresseType a) x ks
| rt_function a b : reads_type (FunctionType a b) TUnsupported []
| rt_poly v t : reads_type (PolyFunctionType v t) TUnsupported []
| rt_var v : reads_type (TypeVarType v) TUnsupported []
with reads_key : NodeTypeMapKey -> texp -> list str -> Prop :=
| rk_plain m n k : reads_head (node m) n k -> reads_key (GenericMapKey m) (TName n []) k
| rk_enclosed m n k : reads_head (node m) n k -> reads_key (EnclosedGenericId m) (TName n []) k
with reads_value : NodeTypeMapValue -> texp -> list str -> Prop :=
| rv_plain m n k : reads_head (node m) n k ->
    reads_value (MapValueTypeOrEnumLikeIdentifier m) (TName n []) k
| rv_map e k v xk xv ks : node e = mkTypeMapEntry k v -> reads_key (node k) xk ks ->
    reads_value (node v) xv [] -> reads_value (MapKeyValue e) (TName (lit "Map") [xk; xv]) ks
| rv_enclosed t x ks : reads_tva (node t) x ks -> reads_value (MapValueParenthesizedType t) x ks
| rv_address a x ks : reads_address (node a) x ks -> reads_value (MapValueAddressType a) x ks
with reads_arg : NodeTypeArgument -> texp -> list str -> Prop :=
| ra_enclosed t x ks : reads_type (node t) x ks -> reads_arg (EnclosedTypeArgument t) x ks
| ra_plain m n k : reads_head (node m) n k -> reads_arg (GenericTypeArgument m) (TName n []) k
| ra_template s : reads_arg (TemplateTypeArgument s) TUnsupported []
| ra_address a x ks : reads_address (node a) x ks -> reads_arg (AddressTypeArgument a) x ks
| ra_map k v xk xv ks : reads_key (node k) xk ks -> reads_value (node v) xv [] ->
    reads_arg (MapTypeArgument k v) (TName (lit "Map") [xk; xv]) ks
with reads_args : list (wm NodeTypeArgument) -> list texp -> list str -> Prop :=
| ras_nil : reads_args [] [] []
| ras_cons a x k l xs ks : reads_arg (node a) x k -> reads_args l xs ks ->
    reads_args (a :: l) (x :: xs) (ks ++ k)
with reads_address : NodeAddressType -> texp -> list str -> Prop :=
| rd_address i n tn fs xs ks : plain_name (node i) n -> reads_fields fs xs ks ->
    reads_address (mkAddressType i tn fs) (TAddr n (node tn) xs) ks
with reads_fields : list (wm NodeAddressTypeField) -> list (str * texp) -> list str -> Prop :=
| rf_nil : reads_fields [] [] []
| rf_cons f i n t x k l xs ks : node f = mkAddressTypeField i t -> node i = VariableName n ->
    reads_type (node t) x k -> reads_fields l xs ks -> reads_fields (f :: l) ((node n, x) :: xs) (ks ++ k)
with reads_tvarg : NodeTypeMapValueArguments -> texp -> list str -> Prop :=
| rg_enclosed t x ks : reads_tva (node t) x ks -> reads_tvarg (EnclosedTypeMapValue t) x ks
| rg_plain m n k : reads_head (node m) n k -> reads_tvarg (GenericMapValueArgument m) (TName n []) k
| rg_map k v : reads_tvarg (MapKeyValueType k v) TUnsupported []
with reads_tvargs : list (wm NodeTypeMapValueArguments) -> list texp -> list str -> Prop :=
| rgs_nil : reads_tvargs [] [] []
| rgs_cons a x k l xs ks : reads_tvarg (node a) x k -> reads_tvargs l xs ks ->
    reads_tvargs (a :: l) (x :: xs) (ks ++ k)
with reads_tva : NodeTypeMapValueAllowingTypeArguments -> texp -> list str -> Prop :=
| rw_noargs t x ks : reads_value (node t) x ks -> reads_tva (TypeMapValueNoArgs t) x ks
| rw_args m n k args xs ks : reads_head (node m) n k -> reads_tvargs args xs ks ->
    reads_tva (TypeMapValueWithArgs m args) (TName n xs) (ks ++ k).

(** A declaration, its namespaces left out. *)
Definition reads_decl (d : NodeTypedIdentifier) (nx : str * texp) (ks : list str) : Prop :=
  fst nx = typed_name d /\ reads_type (typed_type d) (snd nx) ks.
