(** The actions of parser.lalrpop commute with replacing positions. *)
From Coq Require Import List.
From Verif Require Import Chars Lexer Ast Grammar Cfg Parser GrammarLink Remap.
Import ListNotations.

Section Move.
Context (fs fe : source_position -> source_position).
Definition r_atom (a : atom) : atom_type a -> atom_type a :=
  match a return atom_type a -> atom_type a with Tm _ => (move fs fe) | Nt A => remap fs fe A end.
Definition r_sym (s : sym) : sym_type s -> sym_type s :=
  match s return sym_type s -> sym_type s with
  | One a => r_atom a
  | Opt a => option_map (r_atom a)
  | Star a => map (r_atom a)
  | Plus a => map (r_atom a)
  end.
Fixpoint r_tuple (l : list sym) : tuple l -> tuple l :=
  match l return tuple l -> tuple l with
  | [] => fun v => v
  | s :: r => fun '(x, y) => (r_sym s x, r_tuple r y)
  end.

Lemma act_remap A p : In p (prods A) -> forall s e vs,
  remap fs fe A (p_act p s e vs) = p_act p (fs s) (fe e) (r_tuple (p_rhs p) vs).
Proof.
  destruct A; cbn [prods]; intro H;
    repeat (destruct H as [<- | H]; [intros s e vs; cbn in vs;
      repeat match goal with x : (_ * _)%type |- _ => destruct x end; try reflexivity|]); try destruct H.
  all: cbn; repeat match goal with
         | |- context [match ?x with _ => _ end] => is_var x; destruct x
         | |- context [node ?x] => is_var x; destruct x; cbn
         | |- context [option_map _ ?x] => is_var x; destruct x; cbn
         end; cbn; unfold atf; cbn; rewrite ?map_app; try reflexivity.
Qed.

Lemma move_first l : l <> [] -> first_start (map (move fs fe) l) = fs (first_start l).
Proof. destruct l; [congruence|reflexivity]. Qed.
Lemma move_last l : l <> [] -> last_end (map (move fs fe) l) = fe (last_end l).
Proof. induction l as [|i [|j l] IH]; [congruence|reflexivity|]. intros _. apply IH. discriminate. Qed.

(** A derivation of a token list is a derivation of the tokens with other positions. *)
Lemma der_move :
  (forall a toks v, der_atom a toks v -> der_atom a (map (move fs fe) toks) (r_atom a v)) /\
  (forall s toks v, der_sym s toks v -> der_sym s (map (move fs fe) toks) (r_sym s v)) /\
  (forall a toks vs, der_list a toks vs -> der_list a (map (move fs fe) toks) (map (r_atom a) vs)) /\
  (forall l toks vs, der_rhs l toks vs -> der_rhs l (map (move fs fe) toks) (r_tuple l vs)).
Proof.
  apply (der_mutind
    (fun a toks v _ => der_atom a (map (move fs fe) toks) (r_atom a v))
    (fun s toks v _ => der_sym s (map (move fs fe) toks) (r_sym s v))
    (fun a toks vs _ => der_list a (map (move fs fe) toks) (map (r_atom a) vs))
    (fun l toks vs _ => der_rhs l (map (move fs fe) toks) (r_tuple l vs))).
  - intros k i Hk. apply der_Tm. exact Hk.
  - intros A p toks vs Hin Hd IH. cbn [r_atom]. rewrite (act_remap A p Hin).
    assert (Hne : toks <> []) by exact (derives_nonempty A _ _ (der_Nt _ _ _ _ Hin Hd)).
    rewrite <- (move_first toks Hne), <- (move_last toks Hne). apply der_Nt; assumption.
  - intros. apply der_One. assumption.
  - intros. apply der_None.
  - intros. apply (der_Some a _ (r_atom a v)). assumption.
  - intros. apply der_Star. assumption.
  - intros a toks vs _ IH Hne. apply der_Plus; [assumption|]. destruct vs; [congruence|discriminate].
  - intros. apply der_nil.
  - intros. rewrite map_app. apply der_cons; assumption.
  - apply der_rhs_nil.
  - intros. rewrite map_app. apply der_rhs_cons; assumption.
Qed.

Lemma derives_move A toks v : derives A toks v -> derives A (map (move fs fe) toks) (remap fs fe A v).
Proof. apply (proj1 der_move (Nt A) toks v). Qed.

End Move.
