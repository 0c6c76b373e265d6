(** Every position in an AST is the extent of the tokens it was parsed from. *)
From Coq Require Import List.
From Verif Require Import Chars Lexer LexerProofs LexSpec LexFacts Ast Grammar Cfg Parser GrammarLink Marks DerInv.
Import ListNotations.

(** The nodes of a forest are phrases of the token list, one after the other,
    and so are the nodes inside them; each starts where its first token starts
    and ends where its last token ends. *)
Inductive spanned : list item -> list mark -> Prop :=
| sp_nil : forall toks, spanned toks []
| sp_skip : forall i toks ms, spanned toks ms -> spanned (i :: toks) ms
| sp_node : forall toks rest (phrase : list item -> Prop) inner ms,
    toks <> [] -> phrase toks -> spanned toks inner -> spanned rest ms ->
    spanned (toks ++ rest) (Mark (first_start toks) (last_end toks) phrase inner :: ms).

Lemma span_left t ms : forall t0, spanned t ms -> spanned (t0 ++ t) ms.
Proof. intros t0 H. induction t0 as [|i t0 IH]; cbn; [exact H|apply sp_skip, IH]. Qed.
Lemma span_app t1 t2 m1 m2 : spanned t1 m1 -> spanned t2 m2 -> spanned (t1 ++ t2) (m1 ++ m2).
Proof.
  intros H H2. induction H as [t|i t ms _ IH|t r ph inner ms Hne Hp Hi _ Hr IH].
  - apply span_left, H2.
  - cbn [app]. apply sp_skip, IH.
  - cbn [app]. rewrite <- app_assoc. apply sp_node; assumption.
Qed.
Lemma span_right t1 t2 ms : spanned t1 ms -> spanned (t1 ++ t2) ms.
Proof. intro H. rewrite <- (app_nil_r ms). apply span_app; [exact H|apply sp_nil]. Qed.
Lemma span_loc {A} (ph : wm A -> list item -> Prop) f (w : wm A) t : t <> [] ->
  wm_start w = first_start t -> wm_end w = last_end t -> ph w t -> spanned t (f (node w)) -> spanned t (loc ph f w).
Proof.
  intros Hne Hs He Hp Hi. unfold loc. rewrite Hs, He. rewrite <- (app_nil_r t) at 1.
  apply sp_node; [exact Hne|exact Hp|exact Hi|apply sp_nil].
Qed.
Lemma span_inner s e ph inner t : spanned t [Mark s e ph inner] -> spanned t inner.
Proof.
  remember [Mark s e ph inner] as l eqn:E. induction 1 as [t|i t ms _ IH|t r ph' inner' ms Hne Hp Hi _ Hr _]; [discriminate|apply sp_skip, IH, E|].
  injection E as _ _ _ <- _. apply span_right, Hi.
Qed.

(** the value of a symbol *)
Definition m_atom (a : atom) : atom_type a -> list mark := match a return atom_type a -> list mark with Tm _ => fun _ => [] | Nt A => marks A end.
Definition m_sym (s : sym) : sym_type s -> list mark :=
  match s return sym_type s -> list mark with
  | One a => m_atom a
  | Opt a => opt (m_atom a)
  | Star a | Plus a => flat_map (m_atom a)
  end.
Definition token_of (s : sym) (t : list item) : sym_type s -> Prop :=
  match s return sym_type s -> Prop with One (Tm k) => fun i => t = [i] | _ => fun _ => True end.
Fixpoint parts (l : list sym) (toks : list item) : tuple l -> Prop :=
  match l return tuple l -> Prop with
  | [] => fun _ => toks = []
  | s :: r => fun x => exists t1 t2, toks = t1 ++ t2 /\ token_of s t1 (fst x) /\ spanned t1 (m_sym s (fst x)) /\ parts r t2 (snd x)
  end.

(** a type is a phrase of [ScillaType] whatever production made it *)
Lemma remaining_type t v : derives RemainingTypes t v -> derives ScillaType t v.
Proof.
  intro H. set (p := mkprod ScillaType [One (Nt RemainingTypes)] (fun s e '(x, _) => x)).
  change (der_atom (Nt ScillaType) t (p_act p (first_start t) (last_end t) (v, tt))). apply der_Nt; [right; left; reflexivity|].
  rewrite <- (app_nil_r t). apply (der_rhs_cons (One (Nt RemainingTypes)) [] t v [] tt); [apply der_One, H|apply der_rhs_nil].
Qed.
Lemma function_type t v : derives FunctionSignature t v -> derives ScillaType t v.
Proof.
  intro H. set (p := mkprod ScillaType [One (Nt FunctionSignature)] (fun s e '(x, _) => x)).
  change (der_atom (Nt ScillaType) t (p_act p (first_start t) (last_end t) (v, tt))). apply der_Nt; [left; reflexivity|].
  rewrite <- (app_nil_r t). apply (der_rhs_cons (One (Nt FunctionSignature)) [] t v [] tt); [apply der_One, H|apply der_rhs_nil].
Qed.

Ltac span :=
  repeat rewrite <- app_assoc; repeat rewrite app_nil_r;
  lazymatch goal with
  | |- spanned _ [] => apply sp_nil
  | H : spanned ?t ?m |- spanned ?t ?m => exact H
  | |- spanned (?t ++ _) (_ ++ _) => first [apply span_app; [solve [span]|span] | apply span_left; span]
  | |- spanned (?t ++ _) _ => first [apply span_right; solve [span] | apply span_left; span]
  | |- spanned (_ :: _) _ => apply sp_skip; span
  end.
Ltac open_parts H :=
  cbn [parts fst snd] in H;
  lazymatch type of H with
  | exists _ _, _ =>
      let t1 := fresh "t" in let t2 := fresh "t" in let E := fresh "E" in let K := fresh "K" in let S := fresh "S" in
      destruct H as (t1 & t2 & E & K & S & H); cbn [token_of m_sym m_atom marks] in K, S; open_parts H
  | _ = [] => idtac
  end.
Lemma act_span A p : In p (prods A) -> forall toks vs,
  parts (p_rhs p) toks vs -> derives A toks (p_act p (first_start toks) (last_end toks) vs) -> toks <> [] ->
  spanned toks (marks A (p_act p (first_start toks) (last_end toks) vs)).
Proof.
  destruct A; cbn [prods]; intro Hin;
    repeat (destruct Hin as [<- | Hin]; [intros toks vs Hp Hd Hne; cbn [p_rhs] in vs, Hp; cbn in vs;
      repeat match goal with x : (_ * _)%type |- _ => destruct x end; open_parts Hp; cbn [p_act] in *; cbn [marks]|]); try destruct Hin.
  all: try (apply span_loc; [exact Hne|reflexivity|reflexivity|
              first [exact Hd|apply remaining_type; exact Hd|apply function_type; exact Hd|eexists; split; [rewrite E, K, Hp; reflexivity|reflexivity]]|]).
  all: cbn -[loc first_start last_end synthetic lit].
  all: repeat match goal with E : _ = _ ++ _ |- _ => subst end; subst.
  all: try solve [span].
  - destruct (node w) as [l]. cbn [m_imports] in *. rewrite flat_map_app. cbn [flat_map]. span.
  - apply span_inner in S. destruct (node w) as [l]. cbn [m_bargs] in *. rewrite flat_map_app. cbn [flat_map]. span.
  - change (synthetic (lit "contract")) with true. cbn [app]. destruct o as [l|]; cbn [opt flat_map] in *; span.
  - destruct (synthetic (node w0)); cbn [app]; span.
  - apply span_loc; [exact Hne|reflexivity|reflexivity|exact Hd|]. cbn [node m_entry]. span.
  - destruct o as [x|]; cbn [opt flat_map] in *; span.
Qed.

Lemma der_spans :
  (forall a toks v, der_atom a toks v -> spanned toks (m_atom a v)) /\
  (forall s toks v, der_sym s toks v -> token_of s toks v /\ spanned toks (m_sym s v)) /\
  (forall a toks vs, der_list a toks vs -> spanned toks (flat_map (m_atom a) vs)) /\
  (forall l toks vs, der_rhs l toks vs -> parts l toks vs).
Proof.
  apply (der_mutind
    (fun a toks v _ => spanned toks (m_atom a v))
    (fun s toks v _ => token_of s toks v /\ spanned toks (m_sym s v))
    (fun a toks vs _ => spanned toks (flat_map (m_atom a) vs))
    (fun l toks vs _ => parts l toks vs)).
  - intros k i Hk. apply sp_nil.
  - intros A p toks vs Hin Hd IH. cbn [m_atom]. pose proof (der_Nt A p toks vs Hin Hd) as HD.
    apply act_span; [exact Hin|exact IH|exact HD|exact (derives_nonempty A toks _ HD)].
  - intros [k|A] toks v Hd IH; (split; [|exact IH]); [|exact I]. cbn [token_of]. exact (proj2 (sym_tm_inv k toks v Hd)).
  - intros a. split; [exact I|apply sp_nil].
  - intros a toks v _ IH. split; [exact I|exact IH].
  - intros a toks vs _ IH. split; [exact I|exact IH].
  - intros a toks vs _ IH _. split; [exact I|exact IH].
  - intros a. apply sp_nil.
  - intros a t1 v t2 vs _ IH1 _ IH2. cbn [flat_map]. apply span_app; assumption.
  - reflexivity.
  - intros s l t1 v t2 vs _ [IH1 IH1'] _ IH2. cbn [parts fst snd]. exists t1, t2. auto.
Qed.
Theorem derives_spanned A toks v : derives A toks v -> spanned toks (marks A v).
Proof. exact (proj1 der_spans (Nt A) toks v). Qed.
