(** Vocabulary of property C62. *)
From Coq Require Import List.
From Verif Require Import Chars Lexer Types.
Import ListNotations.

(** The contract [c] with the transitions [ts] after its own. *)
Definition with_more (c : contract) (ts : list transition) : contract :=
  mkContract (c_name c) (c_init_params c) (c_fields c) (c_transitions c ++ ts).

(** The words [toks] start with [transition] or [procedure], or there are none. *)
Definition from_component (toks : list token) : Prop :=
  match toks with
  | [] => True
  | t :: _ => t = TTransition \/ t = TProcedure
  end.

(** The elements of [l] at the places [sel], in that order, repetitions
    included; a place beyond the end contributes nothing. *)
Definition select {A} (sel : list nat) (l : list (list A)) : list A := List.concat (map (fun i => nth i l []) sel).
