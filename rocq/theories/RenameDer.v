(** Derivations commute with renaming texts: the grammar looks at the kinds of
    tokens only, and the actions of parser.lalrpop copy the texts. *)
From Coq Require Import List.
From Verif Require Import Chars Lexer Ast Grammar Cfg Parser GrammarLink Rename.
Import ListNotations.

Section Rename.
Context (r : str -> str).
(** The kinds of address types that are not texts of tokens (parser.lalrpop:446-484). *)
Context (Hempty : r (lit "") = lit "") (Hcontract : r (lit "contract") = lit "contract")
  (Hlibrary : r (lit "library") = lit "library").

Definition r_atom (a : atom) : atom_type a -> atom_type a :=
  match a return atom_type a -> atom_type a with Tm _ => r_item r | Nt A => rename r A end.
Definition r_sym (s : sym) : sym_type s -> sym_type s :=
  match s return sym_type s -> sym_type s with
  | One a => r_atom a
  | Opt a => option_map (r_atom a)
  | Star a => map (r_atom a)
  | Plus a => map (r_atom a)
  end.
Fixpoint r_tuple (l : list sym) : tuple l -> tuple l :=
  match l return tuple l -> tuple l with
  | [] => fun v => v
  | s :: l' => fun '(x, y) => (r_sym s x, r_tuple l' y)
  end.

(** The tokens among the values have the kinds of the symbols. *)
Definition k_sym (s : sym) : sym_type s -> Prop :=
  match s return sym_type s -> Prop with
  | One (Tm k) => fun i => kind_of (item_token i) = Some k
  | _ => fun _ => True
  end.
Fixpoint k_tuple (l : list sym) : tuple l -> Prop :=
  match l return tuple l -> Prop with
  | [] => fun _ => True
  | s :: l' => fun '(x, y) => k_sym s x /\ k_tuple l' y
  end.

Lemma der_rhs_kinds l toks vs : der_rhs l toks vs -> k_tuple l vs.
Proof.
  induction 1 as [|s l toks1 v toks2 vs Hs Hr IH]; [exact I|]. split; [|exact IH].
  destruct Hs as [a toks v Ha| | | |]; try exact I. destruct Ha; [assumption|exact I].
Qed.

Lemma r_kind t : kind_of (r_token r t) = kind_of t.
Proof. destruct t; reflexivity. Qed.

Definition has_text (k : tk) : Prop :=
  match k with
  | KByStrWithSize | KNumber | KHexNumber | KStringLiteral | KIdentifier | KSpecialIdentifier
  | KCustomIdentifier | KTemplateIdentifier => True
  | _ => False
  end.
Lemma r_tok_str i k : kind_of (item_token i) = Some k -> has_text k -> tok_str (r_item r i) = r (tok_str i).
Proof.
  destruct i as [[a t] b]. unfold tok_str, r_item. cbn [item_token fst snd]. intros Hk Hx.
  destruct t; try discriminate Hk; injection Hk as <-; cbn in Hx; try contradiction; reflexivity.
Qed.

Lemma act_rename A p : In p (prods A) -> forall s e vs, k_tuple (p_rhs p) vs ->
  rename r A (p_act p s e vs) = p_act p s e (r_tuple (p_rhs p) vs).
Proof.
  destruct A; cbn [prods]; intro H;
    repeat (destruct H as [<- | H]; [intros s e vs Hk; cbn in vs, Hk;
      repeat match goal with x : (_ * _)%type |- _ => destruct x end; try reflexivity|]); try destruct H.
  all: repeat match goal with x : (_ /\ _)%type |- _ => destruct x end.
  all: cbn -[tok_str r_item lit]; unfold on; cbn -[tok_str r_item lit].
  all: try (erewrite r_tok_str by (try eassumption; exact I); reflexivity).
  all: repeat match goal with
         | |- context [match ?x with _ => _ end] => is_var x; destruct x
         | |- context [node ?x] => is_var x; destruct x; cbn -[tok_str r_item lit]
         | |- context [option_map _ ?x] => is_var x; destruct x; cbn -[tok_str r_item lit]
         end; cbn -[tok_str r_item lit]; unfold on; cbn -[tok_str r_item lit];
       rewrite ?Hempty, ?Hcontract, ?Hlibrary, ?map_app; try reflexivity.
Qed.

Lemma r_first l : first_start (map (r_item r) l) = first_start l.
Proof. destruct l; reflexivity. Qed.
Lemma r_last l : last_end (map (r_item r) l) = last_end l.
Proof. induction l as [|i [|j l] IH]; [reflexivity..|]. exact IH. Qed.

Lemma der_rename :
  (forall a toks v, der_atom a toks v -> der_atom a (map (r_item r) toks) (r_atom a v)) /\
  (forall s toks v, der_sym s toks v -> der_sym s (map (r_item r) toks) (r_sym s v)) /\
  (forall a toks vs, der_list a toks vs -> der_list a (map (r_item r) toks) (map (r_atom a) vs)) /\
  (forall l toks vs, der_rhs l toks vs -> der_rhs l (map (r_item r) toks) (r_tuple l vs)).
Proof.
  apply (der_mutind
    (fun a toks v _ => der_atom a (map (r_item r) toks) (r_atom a v))
    (fun s toks v _ => der_sym s (map (r_item r) toks) (r_sym s v))
    (fun a toks vs _ => der_list a (map (r_item r) toks) (map (r_atom a) vs))
    (fun l toks vs _ => der_rhs l (map (r_item r) toks) (r_tuple l vs))).
  - intros k i Hk. apply der_Tm. cbn. rewrite r_kind. exact Hk.
  - intros A p toks vs Hin Hd IH. cbn [r_atom]. rewrite (act_rename A p Hin) by (eapply der_rhs_kinds, Hd).
    rewrite <- (r_first toks) at 1. rewrite <- (r_last toks). apply der_Nt; assumption.
  - intros. apply der_One. assumption.
  - intros. apply der_None.
  - intros. apply (der_Some a _ (r_atom a v)). assumption.
  - intros. apply der_Star. assumption.
  - intros a toks vs _ IH Hne. apply der_Plus; [assumption|]. destruct vs; [congruence|discriminate].
  - intros. apply der_nil.
  - intros. rewrite map_app. apply der_cons; assumption.
  - apply der_rhs_nil.
  - intros. rewrite map_app. apply der_rhs_cons; assumption.
Qed.

Lemma derives_rename A toks v : derives A toks v -> derives A (map (r_item r) toks) (rename r A v).
Proof. apply (proj1 der_rename (Nt A) toks v). Qed.
End Rename.
