(** Specification for C50: which [Contract] values [from_str] can return. *)
From Verif Require Import Chars Lexer LexSpec Types EmitSpec.

(** Names.  [wf_token] (LexSpec.v): an identifier is a word that starts with a
    lower-case letter, a custom identifier one that starts with an upper-case
    letter but not with [ByStr]; neither is a keyword. *)
Definition lower_id (n : str) : Prop := wf_token (TIdentifier n).
Definition upper_id (n : str) : Prop := wf_token (TCustomIdentifier n).
Definition sized_id (n : str) : Prop := exists ds, ds <> [] /\ all_digits ds /\ n = lit "ByStr" ++ ds.
(** names of contracts (transitions may also have a lower-case one) *)
Definition head_id (n : str) : Prop := upper_id n \/ sized_id n \/ n = lit "Event".

(** Types written as a name: the base types, [ByStr20], [ByStrX] with a size
    that fits in 64 bits, user-defined types, and [ByStr] with a larger size. *)
Inductive name_type : ty -> Prop :=
| nt_base n t : base_name n t -> name_type t
| nt_bystr20 : name_type ByStr20
| nt_sized n : n < 2 ^ 64 -> name_type (ByStrX n)
| nt_user s : upper_id s -> (forall t, ~ base_name s t) -> ~ constructor_name s -> name_type (Other s)
| nt_big ds : ds <> [] -> all_digits ds -> 2 ^ 64 <= decimal ds -> name_type (Other (lit "ByStr" ++ ds)).

(** What stands between [with] and the fields of an address type. *)
Definition address_kind (kind : str) (no_fields : Prop) : Prop :=
  kind = lit "contract" \/ (no_fields /\ (kind = [] \/ kind = lit "library" \/ wf_token (TSpecialIdentifier kind))).

Inductive producible_type : ty -> Prop :=
| pt_plain t : name_type t -> producible_type t
| pt_option t : producible_type t -> producible_type (TyOption t)
| pt_list t : producible_type t -> producible_type (TyList t)
| pt_pair a b : producible_type a -> producible_type b -> producible_type (TyPair a b)
| pt_map k v : name_type k -> producible_type v -> producible_type (TyMap k v)
| pt_address kind fs : address_kind kind (fs = []) -> producible_fields fs -> producible_type (ByStr20With kind fs)
with producible_fields : list field -> Prop :=
| pf_nil : producible_fields []
| pf_cons n t l : lower_id n -> producible_type t -> producible_fields l -> producible_fields (mkField n t :: l).

Definition producible (c : contract) : Prop :=
  head_id (c_name c) /\ producible_fields (c_init_params c) /\ producible_fields (c_fields c)
  /\ Forall (fun t => (lower_id (t_name t) \/ head_id (t_name t)) /\ producible_fields (t_params t)) (c_transitions c).

Scheme prod_type_mut := Induction for producible_type Sort Prop
  with prod_fields_mut := Induction for producible_fields Sort Prop.
Combined Scheme producible_mutind from prod_type_mut, prod_fields_mut.
