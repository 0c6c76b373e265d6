(** Derivations do not depend on positions: the actions of parser.lalrpop
    commute with erasing positions. *)
From Coq Require Import List.
From Verif Require Import Chars Lexer Ast Grammar Cfg Parser GrammarLink Erase.
Import ListNotations.

Definition e_atom (a : atom) : atom_type a -> atom_type a :=
  match a return atom_type a -> atom_type a with Tm _ => strip | Nt A => erase A end.
Definition e_sym (s : sym) : sym_type s -> sym_type s :=
  match s return sym_type s -> sym_type s with
  | One a => e_atom a
  | Opt a => option_map (e_atom a)
  | Star a => map (e_atom a)
  | Plus a => map (e_atom a)
  end.
Fixpoint e_tuple (l : list sym) : tuple l -> tuple l :=
  match l return tuple l -> tuple l with
  | [] => fun v => v
  | s :: r => fun '(x, y) => (e_sym s x, e_tuple r y)
  end.

Lemma act_erase A p : In p (prods A) -> forall s e vs,
  erase A (p_act p s e vs) = p_act p start_position start_position (e_tuple (p_rhs p) vs).
Proof.
  destruct A; cbn [prods]; intro H;
    repeat (destruct H as [<- | H]; [intros s e vs; cbn in vs;
      repeat match goal with x : (_ * _)%type |- _ => destruct x end; try reflexivity|]); try destruct H.
  all: cbn; repeat match goal with
         | |- context [match ?x with _ => _ end] => is_var x; destruct x
         | |- context [node ?x] => is_var x; destruct x; cbn
         | |- context [option_map _ ?x] => is_var x; destruct x; cbn
         end; cbn; unfold at0; cbn; rewrite ?map_app; try reflexivity.
Qed.

Lemma strip_first l : first_start (map strip l) = start_position.
Proof. destruct l; reflexivity. Qed.
Lemma strip_last l : last_end (map strip l) = start_position.
Proof. induction l as [|i [|j l] IH]; [reflexivity..|]. exact IH. Qed.

(** A derivation of a token list is a derivation of the tokens without positions. *)
Lemma der_strip :
  (forall a toks v, der_atom a toks v -> der_atom a (map strip toks) (e_atom a v)) /\
  (forall s toks v, der_sym s toks v -> der_sym s (map strip toks) (e_sym s v)) /\
  (forall a toks vs, der_list a toks vs -> der_list a (map strip toks) (map (e_atom a) vs)) /\
  (forall l toks vs, der_rhs l toks vs -> der_rhs l (map strip toks) (e_tuple l vs)).
Proof.
  apply (der_mutind
    (fun a toks v _ => der_atom a (map strip toks) (e_atom a v))
    (fun s toks v _ => der_sym s (map strip toks) (e_sym s v))
    (fun a toks vs _ => der_list a (map strip toks) (map (e_atom a) vs))
    (fun l toks vs _ => der_rhs l (map strip toks) (e_tuple l vs))).
  - intros k i Hk. apply der_Tm. exact Hk.
  - intros A p toks vs Hin _ IH. cbn [e_atom]. rewrite (act_erase A p Hin).
    rewrite <- (strip_first toks) at 1. rewrite <- (strip_last toks). apply der_Nt; assumption.
  - intros. apply der_One. assumption.
  - intros. apply der_None.
  - intros. apply (der_Some a _ (e_atom a v)). assumption.
  - intros. apply der_Star. assumption.
  - intros a toks vs _ IH Hne. apply der_Plus; [assumption|]. destruct vs; [congruence|discriminate].
  - intros. apply der_nil.
  - intros. rewrite map_app. apply der_cons; assumption.
  - apply der_rhs_nil.
  - intros. rewrite map_app. apply der_rhs_cons; assumption.
Qed.

Lemma derives_strip A toks v : derives A toks v -> derives A (map strip toks) (erase A v).
Proof. apply (proj1 der_strip (Nt A) toks v). Qed.

(** Only the tokens matter for derivability. *)
Lemma map_app_split {X Y} (f : X -> Y) : forall l1 l2 l, map f (l1 ++ l2) = map f l ->
  exists m1 m2, l = m1 ++ m2 /\ map f l1 = map f m1 /\ map f l2 = map f m2.
Proof.
  induction l1 as [|x l1 IH]; intros l2 l H.
  - exists [], l. auto.
  - destruct l as [|y l]; [discriminate|]. cbn in H. injection H as Hx Hl.
    destruct (IH _ _ Hl) as (m1 & m2 & -> & H1 & H2). exists (y :: m1), m2. cbn. rewrite Hx, H1. auto.
Qed.

Lemma der_reposition :
  (forall a toks v, der_atom a toks v -> forall toks', map item_token toks = map item_token toks' -> exists v', der_atom a toks' v') /\
  (forall s toks v, der_sym s toks v -> forall toks', map item_token toks = map item_token toks' -> exists v', der_sym s toks' v') /\
  (forall a toks vs, der_list a toks vs -> forall toks', map item_token toks = map item_token toks' ->
     exists vs', der_list a toks' vs' /\ List.length vs = List.length vs') /\
  (forall l toks vs, der_rhs l toks vs -> forall toks', map item_token toks = map item_token toks' -> exists vs', der_rhs l toks' vs').
Proof.
  apply (der_mutind
    (fun a toks v _ => forall toks', map item_token toks = map item_token toks' -> exists v', der_atom a toks' v')
    (fun s toks v _ => forall toks', map item_token toks = map item_token toks' -> exists v', der_sym s toks' v')
    (fun a toks vs _ => forall toks', map item_token toks = map item_token toks' ->
        exists vs', der_list a toks' vs' /\ List.length vs = List.length vs')
    (fun l toks vs _ => forall toks', map item_token toks = map item_token toks' -> exists vs', der_rhs l toks' vs')).
  - intros k i Hk toks' H. destruct toks' as [|j [|? ?]]; try discriminate. injection H as H.
    exists j. apply der_Tm. congruence.
  - intros A p toks vs Hin _ IH toks' H. destruct (IH _ H) as (vs' & H').
    eexists. apply der_Nt; eassumption.
  - intros a toks v _ IH toks' H. destruct (IH _ H) as (v' & H'). exists v'. apply der_One, H'.
  - intros a toks' H. destruct toks'; [|discriminate]. exists None. apply der_None.
  - intros a toks v _ IH toks' H. destruct (IH _ H) as (v' & H'). exists (Some v'). apply der_Some, H'.
  - intros a toks vs _ IH toks' H. destruct (IH _ H) as (v' & H' & _). exists v'. apply der_Star, H'.
  - intros a toks vs _ IH Hne toks' H. destruct (IH _ H) as (v' & H' & Hl). exists v'. apply der_Plus; [exact H'|].
    intros ->. destruct vs; [congruence|discriminate].
  - intros a toks' H. destruct toks'; [|discriminate]. exists []. split; [apply der_nil|reflexivity].
  - intros a toks1 v toks2 vs _ IH1 _ IH2 toks' H.
    destruct (map_app_split _ _ _ _ H) as (m1 & m2 & -> & H1 & H2).
    destruct (IH1 _ H1) as (v' & Hv). destruct (IH2 _ H2) as (vs' & Hvs & Hl).
    exists (v' :: vs'). split; [apply der_cons; assumption|cbn; congruence].
  - intros toks' H. destruct toks'; [|discriminate]. exists tt. apply der_rhs_nil.
  - intros s l toks1 v toks2 vs _ IH1 _ IH2 toks' H.
    destruct (map_app_split _ _ _ _ H) as (m1 & m2 & -> & H1 & H2).
    destruct (IH1 _ H1) as (v' & Hv). destruct (IH2 _ H2) as (vs' & Hvs).
    exists (v', vs'). apply der_rhs_cons; assumption.
Qed.

Lemma strip_tokens l l' : map item_token l = map item_token l' -> map strip l = map strip l'.
Proof.
  revert l'. induction l as [|i l IH]; intros [|j l'] H; try discriminate; [reflexivity|].
  cbn in H. injection H as Hi Hl. cbn. unfold strip at 1 3. rewrite Hi, (IH _ Hl). reflexivity.
Qed.

Theorem derives_tokens A toks toks' v : map item_token toks = map item_token toks' ->
  derives A toks v -> exists v', derives A toks' v' /\ erase A v' = erase A v.
Proof.
  intros H Hd. destruct (proj1 der_reposition (Nt A) toks v Hd toks' H) as (v' & Hd').
  exists v'. split; [exact Hd'|].
  apply (derives_unique A (map strip toks')).
  - apply derives_strip, Hd'.
  - rewrite <- (strip_tokens _ _ H). apply derives_strip, Hd.
Qed.
