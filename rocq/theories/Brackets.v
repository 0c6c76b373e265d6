(** C55: brackets and [end] in accepted texts. *)
From Coq Require Import ZArith.
From Verif Require Import Chars Lexer Ast Grammar Cfg Parser GrammarLink Types Emitter Contract PropParse2 DerInv.

(** ** Specification *)
(** Brackets closed in the right order; other tokens do not count. *)
Definition bracket_pair (o c : token) : Prop :=
  (o = TOpenParen /\ c = TCloseParen) \/ (o = TOpenBracket /\ c = TCloseBracket) \/ (o = TOpenBrace /\ c = TCloseBrace).
Definition no_bracket (t : token) : Prop := forall o c, bracket_pair o c -> t <> o /\ t <> c.
Inductive balanced : list token -> Prop :=
| bal_nil : balanced []
| bal_other t l : no_bracket t -> balanced l -> balanced (t :: l)
| bal_pair o c l l' : bracket_pair o c -> balanced l -> balanced l' -> balanced (o :: l ++ c :: l').

Definition count (p : token -> bool) (l : list token) : nat := List.length (filter p l).
Definition is_end (t : token) : bool := match t with TEnd => true | _ => false end.
Definition is_with (t : token) : bool := match t with TWith => true | _ => false end.
Definition is_match (t : token) : bool := match t with TMatch => true | _ => false end.
Definition is_component (t : token) : bool := match t with TTransition | TProcedure => true | _ => false end.

(** ** Proof: brackets *)
Lemma balanced_app l l' : balanced l -> balanced l' -> balanced (l ++ l').
Proof.
  intros H H'. induction H as [|t l Ht _ IH|o c l l2 Hp Hl _ _ IH2]; [exact H'|apply bal_other; assumption|].
  cbn [app]. rewrite <- app_assoc. cbn [app]. apply bal_pair; assumption.
Qed.

(** A production is bracketed if its brackets match; everything else in it is
    balanced by itself. *)
Definition sym_plain (s : sym) : bool :=
  match s with
  | One (Nt _) | Opt (Nt _) | Star (Nt _) | Plus (Nt _) => true
  | One (Tm k) | Opt (Tm k) | Star (Tm k) | Plus (Tm k) =>
      match k with KOpenParen | KCloseParen | KOpenBracket | KCloseBracket | KOpenBrace | KCloseBrace => false | _ => true end
  end.
Definition closer (s : sym) : option tk :=
  match s with One (Tm KOpenParen) => Some KCloseParen | One (Tm KOpenBracket) => Some KCloseBracket | One (Tm KOpenBrace) => Some KCloseBrace | _ => None end.
Definition tk_code_eqb (a b : tk) : bool := (tk_code a =? tk_code b)%N.
(** [stack]: the closing brackets still to come. *)
Fixpoint bracketed (l : list sym) (stack : list tk) : bool :=
  match l with
  | [] => match stack with [] => true | _ => false end
  | s :: r =>
      if sym_plain s then bracketed r stack
      else match closer s with
           | Some k => bracketed r (k :: stack)
           | None => match s, stack with
                     | One (Tm k), k' :: st => tk_code_eqb k k' && bracketed r st
                     | _, _ => false
                     end
           end
  end.
Lemma all_bracketed : forallb (fun A => forallb (fun p => bracketed (p_rhs p) []) (prods A)) all_nts = true.
Proof. vm_compute. reflexivity. Qed.
Lemma prod_bracketed A p : In p (prods A) -> bracketed (p_rhs p) [] = true.
Proof.
  intro H. pose proof all_bracketed as E. rewrite forallb_forall in E. specialize (E A (in_all_nts A)).
  rewrite forallb_forall in E. exact (E p H).
Qed.

Definition toks_of (l : list item) : list token := map item_token l.
(** [closes stack l]: [l] is balanced pieces separated by the brackets of
    [stack]. *)
Inductive closes : list tk -> list token -> Prop :=
| cl_end l : balanced l -> closes [] l
| cl_next k st l t l' : balanced l -> kind_of t = Some k -> closes st l' -> closes (k :: st) (l ++ t :: l').
Lemma closes_pre st l l' : balanced l -> closes st l' -> closes st (l ++ l').
Proof.
  intros H H'. destruct H' as [l' Hl|k st l1 t l2 H1 Hk H2]; [constructor; apply balanced_app; assumption|].
  rewrite app_assoc. constructor; [apply balanced_app; assumption|exact Hk|exact H2].
Qed.
Lemma pair_kinds o t k : kind_of o = Some k -> forall k', closer (One (Tm k)) = Some k' -> kind_of t = Some k' -> bracket_pair o t.
Proof.
  intros Ho k' Hk Ht. unfold bracket_pair.
  destruct k; try discriminate Hk; injection Hk as <-; destruct o; try discriminate Ho; destruct t; try discriminate Ht; tauto.
Qed.
Lemma closes_open k k' st o l : kind_of o = Some k -> closer (One (Tm k)) = Some k' -> closes (k' :: st) l -> closes st (o :: l).
Proof.
  intros Ho Hk H. inversion H as [|? ? l1 t l2 H1 Ht H2]; subst. pose proof (pair_kinds o t k Ho k' Hk Ht) as Hp.
  replace (o :: l1 ++ t :: l2) with ((o :: l1 ++ t :: []) ++ l2) by (cbn; rewrite <- app_assoc; reflexivity).
  apply closes_pre; [apply bal_pair; [exact Hp|exact H1|constructor]|exact H2].
Qed.
Lemma plain_kind k t : sym_plain (One (Tm k)) = true -> kind_of t = Some k -> balanced [t].
Proof.
  intros Hp Hk. apply bal_other; [|constructor]. intros o c H. unfold bracket_pair in H.
  assert (forall b, t = b -> kind_of b = Some k) as Hb by (intros b <-; exact Hk).
  split; intro E; apply Hb in E; destruct H as [[-> ->]|[[-> ->]|[-> ->]]]; injection E as <-; discriminate Hp.
Qed.

Definition atom_ok (a : atom) (l : list token) : Prop := match a with Nt _ => balanced l | Tm k => exists t, l = [t] /\ kind_of t = Some k end.
Lemma atom_plain a l : sym_plain (One a) = true -> atom_ok a l -> balanced l.
Proof. destruct a as [k|A]; [|auto]. intros Hp (t & -> & Hk). exact (plain_kind k t Hp Hk). Qed.

Lemma der_balanced :
  (forall a toks v, der_atom a toks v -> atom_ok a (toks_of toks)) /\
  (forall s toks v, der_sym s toks v -> match s with One a => atom_ok a (toks_of toks)
     | Opt a | Star a | Plus a => sym_plain (One a) = true -> balanced (toks_of toks) end) /\
  (forall a toks vs, der_list a toks vs -> sym_plain (One a) = true -> balanced (toks_of toks)) /\
  (forall l toks vs, der_rhs l toks vs -> forall st, bracketed l st = true -> closes st (toks_of toks)).
Proof.
  apply (der_mutind
    (fun a toks v _ => atom_ok a (toks_of toks))
    (fun s toks v _ => match s with One a => atom_ok a (toks_of toks)
     | Opt a | Star a | Plus a => sym_plain (One a) = true -> balanced (toks_of toks) end)
    (fun a toks vs _ => sym_plain (One a) = true -> balanced (toks_of toks))
    (fun l toks vs _ => forall st, bracketed l st = true -> closes st (toks_of toks))).
  - intros k i Hk. exists (item_token i). auto.
  - intros A p toks vs Hin _ IH. cbn. specialize (IH [] (prod_bracketed A p Hin)). inversion IH. assumption.
  - auto.
  - intros a _. constructor.
  - intros a toks v _ IH Hp. exact (atom_plain a _ Hp IH).
  - auto.
  - auto.
  - intros a _. constructor.
  - intros a t1 v t2 vs _ IH1 _ IH2 Hp. unfold toks_of in *. rewrite map_app. apply balanced_app; [exact (atom_plain a _ Hp IH1)|exact (IH2 Hp)].
  - intros st H. destruct st; [constructor; constructor|discriminate H].
  - intros s l t1 v t2 vs _ IH1 _ IH2 st H. cbn [bracketed] in H. unfold toks_of in *. rewrite map_app.
    destruct (sym_plain s) eqn:Hp.
    + apply closes_pre; [|apply IH2, H]. destruct s as [a|a|a|a].
      * exact (atom_plain a _ Hp IH1).
      * apply IH1. destruct a; exact Hp.
      * apply IH1. destruct a; exact Hp.
      * apply IH1. destruct a; exact Hp.
    + destruct s as [[k|A]|a|a|a]; try (destruct a; discriminate H); [|discriminate Hp].
      destruct IH1 as (t & -> & Hk). cbn [app]. destruct (closer (One (Tm k))) as [k'|] eqn:Hc.
      * exact (closes_open k k' st t _ Hk Hc (IH2 _ H)).
      * destruct st as [|k' st]; [discriminate H|]. rewrite Bool.andb_true_iff in H. destruct H as [Ek H].
        apply N.eqb_eq, tk_code_inj in Ek. subst k'. apply (cl_next k st []); [constructor|exact Hk|exact (IH2 _ H)].
Qed.

(** ** Proof: [end] *)
Open Scope Z_scope.
Definition wk (k : tk) : Z := match k with KEnd => 1 | KWith | KTransition | KProcedure => -1 | _ => 0 end.
Definition wt (t : token) : Z := match kind_of t with Some k => wk k | None => 0 end.
Definition weight (l : list item) : Z := fold_right (fun i z => wt (item_token i) + z) 0 l.
Lemma weight_app a b : weight (a ++ b) = weight a + weight b.
Proof. induction a as [|x a IH]; cbn; [reflexivity|]. fold (weight (a ++ b)) (weight a). rewrite IH. lia. Qed.

(** The weight of every phrase of a non terminal; [None] if it varies. *)
Definition nt_weight (A : nt) : option Z :=
  match A with ComponentBody => Some 1 | WithConstraint => Some (-1) | ContractDefinition | Program => None | _ => Some 0 end.
Definition atom_weight (a : atom) : option Z := match a with Tm k => Some (wk k) | Nt A => nt_weight A end.
Fixpoint rhs_weight (l : list sym) : option Z :=
  match l with
  | [] => Some 0
  | s :: r =>
      match match s with
            | One a => atom_weight a
            | Opt a | Star a | Plus a => match atom_weight a with Some 0 => Some 0 | _ => None end
            end, rhs_weight r with
      | Some x, Some y => Some (x + y)
      | _, _ => None
      end
  end.
Lemma weights_checked : forallb (fun A => match nt_weight A with
    | None => true
    | Some w => forallb (fun p => match rhs_weight (p_rhs p) with Some w' => Z.eqb w w' | None => false end) (prods A)
    end) all_nts = true.
Proof. vm_compute. reflexivity. Qed.
Lemma prod_weight A w p : nt_weight A = Some w -> In p (prods A) -> rhs_weight (p_rhs p) = Some w.
Proof.
  intros Hw Hin. pose proof weights_checked as E. rewrite forallb_forall in E. specialize (E A (in_all_nts A)). rewrite Hw in E.
  rewrite forallb_forall in E. specialize (E p Hin). destruct (rhs_weight (p_rhs p)) as [w'|]; [|discriminate].
  apply Z.eqb_eq in E. congruence.
Qed.
Lemma der_weight :
  (forall a toks v, der_atom a toks v -> forall w, atom_weight a = Some w -> weight toks = w) /\
  (forall s toks v, der_sym s toks v -> match s with One a => forall w, atom_weight a = Some w -> weight toks = w
     | Opt a | Star a | Plus a => atom_weight a = Some 0 -> weight toks = 0 end) /\
  (forall a toks vs, der_list a toks vs -> atom_weight a = Some 0 -> weight toks = 0) /\
  (forall l toks vs, der_rhs l toks vs -> forall w, rhs_weight l = Some w -> weight toks = w).
Proof.
  apply (der_mutind
    (fun a toks v _ => forall w, atom_weight a = Some w -> weight toks = w)
    (fun s toks v _ => match s with One a => forall w, atom_weight a = Some w -> weight toks = w
     | Opt a | Star a | Plus a => atom_weight a = Some 0 -> weight toks = 0 end)
    (fun a toks vs _ => atom_weight a = Some 0 -> weight toks = 0)
    (fun l toks vs _ => forall w, rhs_weight l = Some w -> weight toks = w)).
  - intros k i Hk w H. injection H as <-. cbn. unfold wt. rewrite Hk. lia.
  - intros A p toks vs Hin _ IH w Hw. exact (IH w (prod_weight A w p Hw Hin)).
  - auto.
  - reflexivity.
  - intros a toks v _ IH H. exact (IH 0 H).
  - auto.
  - auto.
  - reflexivity.
  - intros a t1 v t2 vs _ IH1 _ IH2 H. rewrite weight_app, (IH1 0 H), (IH2 H). reflexivity.
  - intros w H. injection H as <-. reflexivity.
  - intros s l t1 v t2 vs _ IH1 _ IH2 w H. cbn [rhs_weight] in H. rewrite weight_app.
    destruct s as [a|a|a|a].
    + destruct (atom_weight a) as [x|]; [|discriminate]. destruct (rhs_weight l) as [y|]; [|discriminate]. injection H as <-.
      rewrite (IH1 x eq_refl), (IH2 y eq_refl). reflexivity.
    + destruct (atom_weight a) as [[| |]|]; try discriminate. destruct (rhs_weight l) as [y|]; [|discriminate]. injection H as <-.
      rewrite (IH1 eq_refl), (IH2 y eq_refl). reflexivity.
    + destruct (atom_weight a) as [[| |]|]; try discriminate. destruct (rhs_weight l) as [y|]; [|discriminate]. injection H as <-.
      rewrite (IH1 eq_refl), (IH2 y eq_refl). reflexivity.
    + destruct (atom_weight a) as [[| |]|]; try discriminate. destruct (rhs_weight l) as [y|]; [|discriminate]. injection H as <-.
      rewrite (IH1 eq_refl), (IH2 y eq_refl). reflexivity.
Qed.
Lemma derives_weight A toks v w : derives A toks v -> nt_weight A = Some w -> weight toks = w.
Proof. intros H Hw. exact (proj1 der_weight (Nt A) toks v H w Hw). Qed.
Lemma opt_weight A toks o w : der_opt A toks o -> nt_weight A = Some w -> weight toks = match o with Some _ => w | None => 0 end.
Proof. destruct o as [x|]; cbn; [apply derives_weight|intros -> _; reflexivity]. Qed.
Lemma list_weight A toks vs : der_list (Nt A) toks vs -> nt_weight A = Some 0 -> weight toks = 0.
Proof. intros H Hw. exact (proj1 (proj2 (proj2 der_weight)) (Nt A) toks vs H Hw). Qed.

Definition constraint_of (p : NodeProgram) : option (wm NodeWithConstraint) :=
  let '(mkProgram _ _ _ c) := p in let '(mkContractDefinition _ _ con _ _) := node c in con.
Lemma program_weight items p : derives Program items p ->
  weight items = match constraint_of p with Some _ => -1 | None => 0 end.
Proof.
  intro H. apply program_inv in H.
  destruct H as (i0 & t1 & t2 & t3 & t4 & v & oi & ol & c & -> & Hk0 & D1 & D2 & D3 & D4 & ->).
  apply contract_inv in D4.
  destruct D4 as (ic & tn & tp & tw & tf & tc & n & ps & con & fs & cs & -> & Hkc & Dn & Dp & Dw & Df & Dc & Hc).
  unfold constraint_of. rewrite Hc. rewrite !weight_app.
  assert (W : forall i k, kind_of (item_token i) = Some k -> weight [i] = wk k) by (intros i k E; cbn; unfold wt; rewrite E; lia).
  rewrite (W _ _ Hk0), (W _ _ Hkc), (derives_weight _ _ _ 0 D1 eq_refl), (opt_weight _ _ _ 0 D2 eq_refl), (opt_weight _ _ _ 0 D3 eq_refl),
    (derives_weight _ _ _ 0 Dn eq_refl), (derives_weight _ _ _ 0 Dp eq_refl), (opt_weight _ _ _ (-1) Dw eq_refl),
    (list_weight _ _ _ Df eq_refl), (list_weight _ _ _ Dc eq_refl). cbn.
  destruct oi, ol, con; reflexivity.
Qed.
Lemma weight_count items : weight items
  = Z.of_nat (count is_end (toks_of items)) - Z.of_nat (count is_with (toks_of items)) - Z.of_nat (count is_component (toks_of items)).
Proof.
  unfold count. induction items as [|i l IH]; [reflexivity|].
  change (weight (i :: l)) with (wt (item_token i) + weight l). change (toks_of (i :: l)) with (item_token i :: toks_of l).
  cbn [filter]. rewrite IH.
  destruct (item_token i); cbn [is_end is_with is_component List.length]; rewrite ?Nat2Z.inj_succ; unfold wt; cbn [kind_of wk]; lia.
Qed.
Close Scope Z_scope.

(** ** Theorems *)
Theorem C55_brackets : forall A items v, derives A items v -> balanced (map item_token items).
Proof. intros A items v H. exact (proj1 der_balanced (Nt A) items v H). Qed.

Theorem C55_accepted_text_is_balanced : forall U debug text c,
  from_str U debug text = RValue c -> exists items, lex U text = (items, LEof) /\ balanced (map item_token items).
Proof. intros U debug text c H. apply C37_ok in H. destruct H as (items & p & E & Hd & _). exists items. split; [exact E|exact (C55_brackets _ _ _ Hd)]. Qed.

(** Every [end] belongs to a [with], a transition or a procedure; only the
    [with] of the contract's constraint has none. *)
Theorem C55_ends : forall U debug text c,
  from_str U debug text = RValue c -> exists items p, lex U text = (items, LEof) /\ derives Program items p /\
    let toks := map item_token items in
    (count is_with toks + count is_component toks
     = count is_end toks + match constraint_of p with Some _ => 1 | None => 0 end)%nat.
Proof.
  intros U debug text c H. apply C37_ok in H. destruct H as (items & p & E & Hd & _). exists items, p. split; [exact E|]. split; [exact Hd|].
  cbv zeta. pose proof (program_weight items p Hd) as W. rewrite weight_count in W. unfold toks_of in W. destruct (constraint_of p); lia.
Qed.

Definition bracket_text : list N :=
  lit "scilla_version 0 library L contract C(a: List (Option Uint32)) with True => field m: Map Uint32 (Map Uint32 String) = Emp Uint32 (Map Uint32 String) transition T() x <- m[a][b]; match x with | Some y => send y | None => end end"%string.
Example C55_witness : exists c, from_str U_none no_debug bracket_text = RValue c.
Proof. eexists. vm_compute. reflexivity. Qed.
