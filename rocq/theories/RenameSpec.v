(** Specification of property C61: what it means to rename the words of a text
    and the names in a contract. *)
From Verif Require Import Chars Lexer Types.

(** The type names that mean something to [Type::from] (type.rs:73-116). *)
Definition type_names : list str :=
  [ lit "Int32"; lit "Int64"; lit "Int128"; lit "Int256"; lit "Uint32"; lit "Uint64"; lit "Uint128"; lit "Uint256";
    lit "String"; lit "ByStr"; lit "BNum"; lit "Bool"; lit "Option"; lit "List"; lit "Pair"; lit "Map" ].
Definition reserved (s : str) : Prop :=
  In s type_names \/ exists size n, s = lit "ByStr" ++ size /\ parse_usize size = Some n.

(** A renaming replaces texts; it keeps the names that mean something, gives no
    other text such a meaning, and keeps the four words that appear in results
    without being the text of a token.  It need not be injective. *)
Record renaming (r : str -> str) : Prop := mkRenaming
  { keeps_reserved : forall s, reserved s -> r s = s;
    adds_none : forall s, ~ reserved s -> ~ reserved (r s);
    keeps_empty : r (lit "") = lit "";
    keeps_contract : r (lit "contract") = lit "contract";
    keeps_library : r (lit "library") = lit "library";
    keeps_event : r (lit "Event") = lit "Event" }.

Section Names.
Context (r : str -> str).

(** A contract with other names. *)
Fixpoint r_ty (t : ty) : ty :=
  match t with
  | TyMap k v => TyMap (r_ty k) (r_ty v)
  | TyOption t => TyOption (r_ty t)
  | TyPair a b => TyPair (r_ty a) (r_ty b)
  | TyList t => TyList (r_ty t)
  | ByStr20With kind fields =>
      ByStr20With (r kind) (map (fun f => match f with mkField n t => mkField (r n) (r_ty t) end) fields)
  | Other s => Other (r s)
  | t => t
  end.
Definition r_field (f : field) : field := match f with mkField n t => mkField (r n) (r_ty t) end.
Definition r_transition (t : transition) : transition :=
  mkTransition (r (t_name t)) (map r_field (t_params t)).
Definition r_result (c : contract) : contract :=
  mkContract (r (c_name c)) (map r_field (c_init_params c)) (map r_field (c_fields c))
    (map r_transition (c_transitions c)).
End Names.
