(** C56, specification: address types with a field whose name is not a plain
    identifier ([_x] or [Ns.x]).  Such a field does not appear in the result.
    Inside the declaration of a contract field it takes up a parameter of the
    contract instead: the last one that has not been taken yet.

    [takes_type av t x av']: with the parameters [av] available (the next one to
    take first), the type node [t] is read as [x] and leaves [av'].  Extends
    [says_type] of EmitSpec. *)
From Verif Require Import Chars Lexer Ast Types EmitSpec.

Definition unnamed (i : NodeVariableIdentifier) : Prop := forall n, i <> VariableName n.

Notation avail := (list (str * texp)) (only parsing).
Inductive takes_type : avail -> NodeScillaType -> texp -> avail -> Prop :=
| tt_says av t x : says_type t x -> takes_type av t x av
| tt_generic av m n args xs av' : plain_head (node m) n -> takes_args av args xs av' ->
    takes_type av (GenericTypeWithArgs m args) (TName n xs) av'
| tt_enclosed av t x av' : takes_type av (node t) x av' -> takes_type av (EnclosedType t) x av'
| tt_address av a x av' : takes_address av (node a) x av' -> takes_type av (ScillaAddresseType a) x av'
with takes_arg : avail -> NodeTypeArgument -> texp -> avail -> Prop :=
| ta_says av a x : says_arg a x -> takes_arg av a x av
| ta_enclosed av t x av' : takes_type av (node t) x av' -> takes_arg av (EnclosedTypeArgument t) x av'
| ta_address av a x av' : takes_address av (node a) x av' -> takes_arg av (AddressTypeArgument a) x av'
with takes_args : avail -> list (wm NodeTypeArgument) -> list texp -> avail -> Prop :=
| tas_nil av : takes_args av [] [] av
| tas_cons av a x av1 l xs av2 : takes_arg av (node a) x av1 -> takes_args av1 l xs av2 ->
    takes_args av (a :: l) (x :: xs) av2
with takes_address : avail -> NodeAddressType -> texp -> avail -> Prop :=
| td_address av i n tn fs xs av' : plain_name (node i) n -> takes_fields av fs xs av' ->
    takes_address av (mkAddressType i tn fs) (TAddr n (node tn) xs) av'
with takes_fields : avail -> list (wm NodeAddressTypeField) -> list (str * texp) -> avail -> Prop :=
| tf_nil av : takes_fields av [] [] av
| tf_named av f i n t x av1 l xs av2 : node f = mkAddressTypeField i t -> node i = VariableName n ->
    takes_type av (node t) x av1 -> takes_fields av1 l xs av2 ->
    takes_fields av (f :: l) ((node n, x) :: xs) av2
| tf_unnamed av f i t p l xs av' : node f = mkAddressTypeField i t -> unnamed (node i) ->
    takes_fields av l xs av' -> takes_fields (p :: av) (f :: l) (p :: xs) av'.

(** The declarations of a contract's fields, in order. *)
Inductive takes_decls : avail -> list NodeTypedIdentifier -> list (str * texp) -> avail -> Prop :=
| tc_nil av : takes_decls av [] [] av
| tc_cons av d x av1 ds xs av2 : takes_type av (typed_type d) x av1 -> takes_decls av1 ds xs av2 ->
    takes_decls av (d :: ds) ((typed_name d, x) :: xs) av2.

(** [lacks_type av t]: reading [t] from left to right, there is a field without
    a plain name for which no parameter is left. *)
Inductive lacks_type : avail -> NodeScillaType -> Prop :=
| lt_generic av m n args : plain_head (node m) n -> lacks_args av args -> lacks_type av (GenericTypeWithArgs m args)
| lt_enclosed av t : lacks_type av (node t) -> lacks_type av (EnclosedType t)
| lt_address av a : lacks_address av (node a) -> lacks_type av (ScillaAddresseType a)
with lacks_arg : avail -> NodeTypeArgument -> Prop :=
| lr_enclosed av t : lacks_type av (node t) -> lacks_arg av (EnclosedTypeArgument t)
| lr_address av a : lacks_address av (node a) -> lacks_arg av (AddressTypeArgument a)
with lacks_args : avail -> list (wm NodeTypeArgument) -> Prop :=
| las_here av a l : lacks_arg av (node a) -> lacks_args av (a :: l)
| las_later av a x av1 l : takes_arg av (node a) x av1 -> sound x -> lacks_args av1 l -> lacks_args av (a :: l)
with lacks_address : avail -> NodeAddressType -> Prop :=
| ld_address av i n tn fs : plain_name (node i) n -> lacks_fields av fs -> lacks_address av (mkAddressType i tn fs)
with lacks_fields : avail -> list (wm NodeAddressTypeField) -> Prop :=
| lf_none f i t l : node f = mkAddressTypeField i t -> unnamed (node i) -> lacks_fields [] (f :: l)
| lf_inside av f i n t l : node f = mkAddressTypeField i t -> node i = VariableName n ->
    lacks_type av (node t) -> lacks_fields av (f :: l)
| lf_later_named av f i n t x ty av1 l : node f = mkAddressTypeField i t -> node i = VariableName n ->
    takes_type av (node t) x av1 -> denotes x ty -> lacks_fields av1 l -> lacks_fields av (f :: l)
| lf_later_unnamed av f i t p l : node f = mkAddressTypeField i t -> unnamed (node i) ->
    lacks_fields av l -> lacks_fields (p :: av) (f :: l).
