(** Model of the constructors, defaults, list operations and copies of the
    values a user compares a parsed contract with. *)
From Verif Require Import Chars Lexer Types.

(** src/field.rs:23-30 [Field::new] *)
Definition field_new (n : str) (t : ty) : field := mkField n t.
(** src/field.rs:9-16 [Field::default] *)
Definition field_default : field := mkField [] (Other []).
(** src/field.rs:33-34 [FieldList::default] (derived) *)
Definition field_list_default : list field := [].
(** src/field.rs:44-48 [FieldList::push]: the list after the call ([Vec::push]) *)
Definition field_list_push (l : list field) (f : field) : list field := l ++ [f].
(** src/field.rs:36-42 [FieldList::deref]; simplification: [FieldList] is
    modelled as the [Vec] it wraps *)
Definition field_list_deref (l : list field) : list field := l.
(** src/transition.rs:10-15 [Transition::new] *)
Definition transition_new (n : str) (ps : list field) : transition := mkTransition n ps.
(** src/transition.rs:17-22 [Transition::new_without_param] *)
Definition transition_new_without_param (n : str) : transition := mkTransition n field_list_default.
(** src/transition.rs:26-27 [TransitionList::default] (derived) *)
Definition transition_list_default : list transition := [].
(** src/transition.rs:28-34 [TransitionList::deref]; the same simplification *)
Definition transition_list_deref (l : list transition) : list transition := l.
(** src/transition.rs:29-42: [Vec::push] through [TransitionList::deref_mut] *)
Definition transition_list_push (l : list transition) (t : transition) : list transition := l ++ [t].

(** The derived [Clone] of [Type] (src/type.rs:6), [Field] and [FieldList]
    (src/field.rs:3, 33): every part is copied. *)
Fixpoint clone_ty (t : ty) : ty :=
  match t with
  | Int32 => Int32 | Int64 => Int64 | Int128 => Int128 | Int256 => Int256
  | Uint32 => Uint32 | Uint64 => Uint64 | Uint128 => Uint128 | Uint256 => Uint256
  | TyString => TyString | BNum => BNum | ByStr => ByStr | ByStr20 => ByStr20 | TyBool => TyBool
  | TyMap k v => TyMap (clone_ty k) (clone_ty v)
  | ByStrX n => ByStrX n
  | ByStr20With n fs => ByStr20With n (map (fun f => let '(mkField m x) := f in mkField m (clone_ty x)) fs)
  | TyOption a => TyOption (clone_ty a)
  | TyPair a b => TyPair (clone_ty a) (clone_ty b)
  | TyList a => TyList (clone_ty a)
  | Other s => Other s
  end.
Definition clone_field (f : field) : field := let '(mkField m x) := f in mkField m (clone_ty x).
Definition clone_field_list (l : list field) : list field := map clone_field l.
