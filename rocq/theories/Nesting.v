(** C55, continued: brackets and blocks closed by [end] nest together. *)
From Verif Require Import Chars Lexer Ast Grammar Cfg Parser GrammarLink Types Emitter Contract PropParse2 DerInv Brackets.

(** ** Specification *)
(** What is opened and what closes it: brackets, and the blocks of [match ...
    with], transitions and procedures, which [end] closes. *)
Definition block_pair (o c : token) : Prop :=
  bracket_pair o c \/ ((o = TWith \/ o = TTransition \/ o = TProcedure) /\ c = TEnd).
Definition no_block (t : token) : Prop := forall o c, block_pair o c -> t <> o /\ t <> c.
Inductive nested : list token -> Prop :=
| nest_nil : nested []
| nest_other t l : no_block t -> nested l -> nested (t :: l)
| nest_pair o c l l' : block_pair o c -> nested l -> nested l' -> nested (o :: l ++ c :: l').

(** ** Proof *)
Lemma nested_app l l' : nested l -> nested l' -> nested (l ++ l').
Proof.
  intros H H'. induction H as [|t l Ht _ IH|o c l l2 Hp Hl _ _ IH2]; [exact H'|apply nest_other; assumption|].
  cbn [app]. rewrite <- app_assoc. cbn [app]. apply nest_pair; assumption.
Qed.

(** [Some st]: the phrases of the non terminal are nested pieces separated by
    the closing tokens [st]; [None]: nothing is claimed. *)
Definition nt_stack (A : nt) : option (list tk) :=
  match A with ComponentBody => Some [KEnd] | WithConstraint | ContractDefinition | Program => None | _ => Some [] end.
Definition is_blank (k : tk) : bool :=
  match k with
  | KOpenParen | KCloseParen | KOpenBracket | KCloseBracket | KOpenBrace | KCloseBrace
  | KWith | KTransition | KProcedure | KEnd => false | _ => true
  end.
Definition atom_blank (a : atom) : bool :=
  match a with Tm k => is_blank k | Nt A => match nt_stack A with Some [] => true | _ => false end end.
Definition opens (k : tk) : option tk :=
  match k with
  | KOpenParen => Some KCloseParen | KOpenBracket => Some KCloseBracket | KOpenBrace => Some KCloseBrace
  | KWith | KTransition | KProcedure => Some KEnd | _ => None
  end.
Fixpoint nests (l : list sym) (stack : list tk) : bool :=
  match l with
  | [] => match stack with [] => true | _ => false end
  | s :: r =>
      let a := match s with One a | Opt a | Star a | Plus a => a end in
      if atom_blank a then nests r stack
      else match s with
           | One (Tm k) =>
               match opens k with
               | Some k' => nests r (k' :: stack)
               | None => match stack with k' :: st => tk_code_eqb k k' && nests r st | [] => false end
               end
           | One (Nt A) =>
               match nt_stack A, stack with
               | Some [k], k' :: st => tk_code_eqb k k' && nests r st
               | _, _ => false
               end
           | _ => false
           end
  end.
Lemma all_nest : forallb (fun A => match nt_stack A with
    | None => true | Some st => forallb (fun p => nests (p_rhs p) st) (prods A) end) all_nts = true.
Proof. vm_compute. reflexivity. Qed.
Lemma prod_nests A st p : nt_stack A = Some st -> In p (prods A) -> nests (p_rhs p) st = true.
Proof.
  intros Hs H. pose proof all_nest as E. rewrite forallb_forall in E. specialize (E A (in_all_nts A)). rewrite Hs in E.
  rewrite forallb_forall in E. exact (E p H).
Qed.

Inductive shuts : list tk -> list token -> Prop :=
| sh_end l : nested l -> shuts [] l
| sh_next k st l t l' : nested l -> kind_of t = Some k -> shuts st l' -> shuts (k :: st) (l ++ t :: l').
Lemma shuts_pre st l l' : nested l -> shuts st l' -> shuts st (l ++ l').
Proof.
  intros H H'. destruct H' as [l' Hl|k st l1 t l2 H1 Hk H2]; [constructor; apply nested_app; assumption|].
  rewrite app_assoc. constructor; [apply nested_app; assumption|exact Hk|exact H2].
Qed.
Lemma opens_pair o t k k' : kind_of o = Some k -> opens k = Some k' -> kind_of t = Some k' -> block_pair o t.
Proof.
  intros Ho Hk Ht. unfold block_pair, bracket_pair.
  destruct k; try discriminate Hk; injection Hk as <-; destruct o; try discriminate Ho; destruct t; try discriminate Ht; tauto.
Qed.
Lemma shuts_open k k' st o l : kind_of o = Some k -> opens k = Some k' -> shuts (k' :: st) l -> shuts st (o :: l).
Proof.
  intros Ho Hk H. inversion H as [|? ? l1 t l2 H1 Ht H2]; subst. pose proof (opens_pair o t k k' Ho Hk Ht) as Hp.
  replace (o :: l1 ++ t :: l2) with ((o :: l1 ++ t :: []) ++ l2) by (cbn; rewrite <- app_assoc; reflexivity).
  apply shuts_pre; [apply nest_pair; [exact Hp|exact H1|constructor]|exact H2].
Qed.
Lemma blank_kind k t : is_blank k = true -> kind_of t = Some k -> nested [t].
Proof.
  intros Hp Hk. apply nest_other; [|constructor]. intros o c H. unfold block_pair, bracket_pair in H.
  assert (forall b, t = b -> kind_of b = Some k) as Hb by (intros b <-; exact Hk).
  split; intro E; apply Hb in E; destruct H as [[[-> ->]|[[-> ->]|[-> ->]]]|[[->|[->| ->]] ->]]; injection E as <-; discriminate Hp.
Qed.

Definition atom_fit (a : atom) (l : list token) : Prop :=
  match a with Nt A => forall st, nt_stack A = Some st -> shuts st l | Tm k => exists t, l = [t] /\ kind_of t = Some k end.
Lemma atom_blank_fit a l : atom_blank a = true -> atom_fit a l -> nested l.
Proof.
  destruct a as [k|A]; cbn.
  - intros Hp (t & -> & Hk). exact (blank_kind k t Hp Hk).
  - intros Hp H. destruct (nt_stack A) as [[|? ?]|] eqn:E; try discriminate Hp. specialize (H _ eq_refl). inversion H. assumption.
Qed.

Lemma der_nested :
  (forall a toks v, der_atom a toks v -> atom_fit a (toks_of toks)) /\
  (forall s toks v, der_sym s toks v -> match s with One a => atom_fit a (toks_of toks)
     | Opt a | Star a | Plus a => atom_blank a = true -> nested (toks_of toks) end) /\
  (forall a toks vs, der_list a toks vs -> atom_blank a = true -> nested (toks_of toks)) /\
  (forall l toks vs, der_rhs l toks vs -> forall st, nests l st = true -> shuts st (toks_of toks)).
Proof.
  apply (der_mutind
    (fun a toks v _ => atom_fit a (toks_of toks))
    (fun s toks v _ => match s with One a => atom_fit a (toks_of toks)
     | Opt a | Star a | Plus a => atom_blank a = true -> nested (toks_of toks) end)
    (fun a toks vs _ => atom_blank a = true -> nested (toks_of toks))
    (fun l toks vs _ => forall st, nests l st = true -> shuts st (toks_of toks))).
  - intros k i Hk. exists (item_token i). auto.
  - intros A p toks vs Hin _ IH st Hs. exact (IH st (prod_nests A st p Hs Hin)).
  - auto.
  - intros a _. constructor.
  - intros a toks v _ IH Hp. exact (atom_blank_fit a _ Hp IH).
  - auto.
  - auto.
  - intros a _. constructor.
  - intros a t1 v t2 vs _ IH1 _ IH2 Hp. unfold toks_of in *. rewrite map_app. apply nested_app; [exact (atom_blank_fit a _ Hp IH1)|exact (IH2 Hp)].
  - intros st H. destruct st; [constructor; constructor|discriminate H].
  - intros s l t1 v t2 vs _ IH1 _ IH2 st H. cbn [nests] in H. unfold toks_of in *. rewrite map_app.
    destruct (atom_blank _) eqn:Hp in H.
    + apply shuts_pre; [|apply IH2, H]. destruct s as [a|a|a|a]; [exact (atom_blank_fit a _ Hp IH1)|exact (IH1 Hp)..].
    + destruct s as [[k|A]|a|a|a]; try discriminate H.
      * destruct IH1 as (t & -> & Hk). cbn [app]. destruct (opens k) as [k'|] eqn:Hc.
        -- exact (shuts_open k k' st t _ Hk Hc (IH2 _ H)).
        -- destruct st as [|k' st]; [discriminate H|]. rewrite Bool.andb_true_iff in H. destruct H as [Ek H].
           apply N.eqb_eq, tk_code_inj in Ek. subst k'. apply (sh_next k st []); [constructor|exact Hk|exact (IH2 _ H)].
      * cbn [atom_fit] in IH1. destruct (nt_stack A) as [[|k [|? ?]]|]; try discriminate H. destruct st as [|k' st]; [discriminate H|].
        rewrite Bool.andb_true_iff in H. destruct H as [Ek H]. apply N.eqb_eq, tk_code_inj in Ek. subst k'.
        specialize (IH1 _ eq_refl). inversion IH1 as [|? ? l1 t l2 H1 Ht H2]; subst. inversion H2; subst.
        rewrite <- app_assoc. cbn [app]. apply sh_next; [exact H1|exact Ht|]. apply shuts_pre; [assumption|exact (IH2 _ H)].
Qed.

Lemma derives_nested A toks v : derives A toks v -> nt_stack A = Some [] -> nested (toks_of toks).
Proof. intros H Hs. pose proof (proj1 der_nested (Nt A) toks v H [] Hs) as F. inversion F. assumption. Qed.
Lemma opt_nested A toks o : der_opt A toks o -> nt_stack A = Some [] -> nested (toks_of toks).
Proof. destruct o as [x|]; cbn; [apply derives_nested|intros -> _; constructor]. Qed.
Lemma list_nested A toks vs : der_list (Nt A) toks vs -> nt_stack A = Some [] -> nested (toks_of toks).
Proof. intros H Hw. apply (proj1 (proj2 (proj2 der_nested)) (Nt A) toks vs H). cbn. rewrite Hw. reflexivity. Qed.

Lemma program_nested items p : derives Program items p ->
  match constraint_of p with
  | None => nested (toks_of items)
  | Some _ => exists a b, toks_of items = a ++ TWith :: b /\ nested a /\ nested b
  end.
Proof.
  intro H. apply program_inv in H.
  destruct H as (i0 & t1 & t2 & t3 & t4 & v & oi & ol & c & -> & Hk0 & D1 & D2 & D3 & D4 & ->).
  apply contract_inv in D4.
  destruct D4 as (ic & tn & tp & tw & tf & tc & n & ps & con & fs & cs & -> & Hkc & Dn & Dp & Dw & Df & Dc & Hc).
  unfold constraint_of. rewrite Hc.
  assert (W : forall i k, kind_of (item_token i) = Some k -> is_blank k = true -> nested (toks_of [i]))
    by (intros i k E B; exact (blank_kind k _ B E)).
  pose proof (W _ _ Hk0 eq_refl) as N0. pose proof (W _ _ Hkc eq_refl) as Nc.
  pose proof (derives_nested _ _ _ D1 eq_refl) as N1. pose proof (opt_nested _ _ _ D2 eq_refl) as N2.
  pose proof (opt_nested _ _ _ D3 eq_refl) as N3. pose proof (derives_nested _ _ _ Dn eq_refl) as N4.
  pose proof (derives_nested _ _ _ Dp eq_refl) as N5. pose proof (list_nested _ _ _ Df eq_refl) as N6.
  pose proof (list_nested _ _ _ Dc eq_refl) as N7.
  destruct con as [w|]; cbn [der_opt] in Dw.
  - apply derives_inv in Dw. destruct Dw as (q & vs & Hin & Hd & _). destruct Hin as [<- |[]]. cbn [p_rhs] in Hd.
    apply rhs_inv in Hd. destruct Hd as (u1 & u2 & -> & Du & Hd). apply sym_inv in Du. apply atom_inv in Du. destruct Du as [Hw ->].
    assert (Nw : nested (toks_of u2)).
    { pose proof (proj2 (proj2 (proj2 der_nested)) _ _ _ Hd [] eq_refl) as F. inversion F. assumption. }
    exists (toks_of ([i0] ++ t1 ++ t2 ++ t3 ++ [ic] ++ tn ++ tp)), (toks_of (u2 ++ tf ++ tc)).
    unfold toks_of in *. split; [|split].
    + assert (Ew : item_token (fst vs) = TWith) by (destruct (item_token (fst vs)); try discriminate Hw; reflexivity).
      rewrite !map_app. cbn [map]. rewrite Ew. rewrite <- ?app_assoc. cbn [app]. rewrite <- ?app_assoc. reflexivity.
    + rewrite !map_app. repeat apply nested_app; assumption.
    + rewrite !map_app. repeat apply nested_app; assumption.
  - subst tw. unfold toks_of in *. rewrite !map_app. repeat apply nested_app; try assumption. constructor.
Qed.

(** ** Theorems *)
(** The brackets and the blocks of an accepted text nest together: an [end]
    closes the last [with], [transition] or [procedure] still open, and no
    bracket is open across it.  The one exception is the [with] of the contract's
    constraint, which nothing closes: the text before it and the text after it
    are nested. *)
Theorem C55_nesting : forall U debug text c,
  from_str U debug text = RValue c -> exists items p, lex U text = (items, LEof) /\ derives Program items p /\
    match constraint_of p with
    | None => nested (map item_token items)
    | Some _ => exists a b, map item_token items = a ++ TWith :: b /\ nested a /\ nested b
    end.
Proof.
  intros U debug text c H. apply C37_ok in H. destruct H as (items & p & E & Hd & _). exists items, p.
  split; [exact E|]. split; [exact Hd|]. exact (program_nested items p Hd).
Qed.

(** Every phrase of a statement, an expression, a type, ... is nested by itself. *)
Theorem C55_phrases_nested : forall A items v, derives A items v ->
  A <> Program -> A <> ContractDefinition -> A <> WithConstraint -> A <> ComponentBody ->
  nested (map item_token items).
Proof.
  intros A items v H H1 H2 H3 H4. apply (derives_nested A items v H). destruct A; try reflexivity; congruence.
Qed.

(** With a constraint and without. *)
Example C55_nesting_witness :
  (exists c, from_str U_none no_debug bracket_text = RValue c) /\
  (exists c, from_str U_none no_debug (lit "scilla_version 0 contract C(a: ByStr20 with contract field b: Uint32 end) procedure P() match a with | True => end end"%string) = RValue c).
Proof. split; eexists; vm_compute; reflexivity. Qed.

(** A text whose counts are right but whose nesting is wrong is not accepted. *)
Example not_nested : ~ nested [TTransition; TOpenParen; TEnd; TCloseParen].
Proof.
  intro H. remember [TTransition; TOpenParen; TEnd; TCloseParen] as k eqn:E.
  destruct H as [|t l Hn Hl|o c l l' Hp Hl Hl']; [discriminate E| |].
  - injection E as -> _. destruct (Hn TTransition TEnd) as [F _]; [right; tauto|congruence].
  - injection E as -> E. assert (c = TEnd) as -> by (destruct Hp as [[[? ?]|[[? ?]|[? ?]]]|[_ ?]]; congruence).
    destruct l as [|x l]; [discriminate E|]. injection E as -> E. destruct l as [|x l].
    + remember [TOpenParen] as k eqn:Ek. destruct Hl as [|t l Hn _|o c k1 k2 _ _ _]; [discriminate Ek| |].
      * injection Ek as -> _. destruct (Hn TOpenParen TCloseParen) as [F _]; [left; left; tauto|congruence].
      * injection Ek as _ Ek. destruct k1; discriminate Ek.
    + injection E as _ E. destruct l as [|y l]; [discriminate E|]. injection E as _ E. destruct l; discriminate E.
Qed.
