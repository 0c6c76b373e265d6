(** Every derivation reads an AST that can be written down, from one of the
    token sequences that write it. *)
From Coq Require Import List Bool.
From Verif Require Import Chars Lexer Ast Grammar Cfg Parser GrammarLink Print.
Import ListNotations.

(** ** [matches] *)
Lemma matches_app p1 p2 t1 t2 : matches p1 t1 -> matches p2 t2 -> matches (p1 ++ p2) (t1 ++ t2).
Proof.
  intros H1 H2. induction H1 as [|t ps toks H IH|l ps toks H IH|l ps toks H IH|s k ps toks Hk H IH]; cbn; [exact H2| | | |].
  - apply mt_token, IH.
  - apply mt_skip, IH.
  - rewrite <- app_assoc. apply mt_take, IH.
  - rewrite <- app_assoc. apply mt_kind; assumption.
Qed.

Lemma matches_app_inv p1 : forall p2 toks, matches (p1 ++ p2) toks ->
  exists t1 t2, toks = t1 ++ t2 /\ matches p1 t1 /\ matches p2 t2.
Proof.
  induction p1 as [|p p1 IH]; intros p2 toks H; [exists [], toks; split; [reflexivity|split; [constructor|exact H]]|].
  cbn in H. inversion H as [|t ps tk Hm|l ps tk Hm|l ps tk Hm|s k ps tk Hk Hm]; subst;
    destruct (IH _ _ Hm) as (t1 & t2 & -> & H1 & H2).
  - exists (t :: t1), t2. split; [reflexivity|]. split; [apply mt_token, H1|exact H2].
  - exists t1, t2. split; [reflexivity|]. split; [apply mt_skip, H1|exact H2].
  - exists (l ++ t1), t2. rewrite app_assoc. split; [reflexivity|]. split; [apply mt_take, H1|exact H2].
  - exists (k ++ t1), t2. rewrite app_assoc. split; [reflexivity|]. split; [apply mt_kind; assumption|exact H2].
Qed.

(** every way to write [p] is a way to write [q] *)
Definition within (p q : list piece) : Prop := forall toks, matches p toks -> matches q toks.
Lemma within_refl p : within p p. Proof. intros toks H. exact H. Qed.
Lemma within_app p p' q q' : within p p' -> within q q' -> within (p ++ q) (p' ++ q').
Proof.
  intros Hp Hq toks H. apply matches_app_inv in H. destruct H as (t1 & t2 & -> & H1 & H2).
  apply matches_app; auto.
Qed.
Lemma within_skip l p : within p (Maybe l :: p).
Proof. intros toks H. apply mt_skip, H. Qed.
Lemma within_take l p : within (map P l ++ p) (Maybe l :: p).
Proof.
  intros toks H. apply matches_app_inv in H. destruct H as (t1 & t2 & -> & H1 & H2).
  assert (t1 = l) as ->; [|apply mt_take, H2].
  clear H2. revert t1 H1. induction l as [|t l IH]; intros t1 H1; inversion H1; subst; [reflexivity|].
  f_equal. apply IH. assumption.
Qed.
Lemma within_cons t p q : within p q -> within (P t :: p) (P t :: q).
Proof. intros H toks Hm. inversion Hm; subst. apply mt_token. auto. Qed.
Lemma within_kind s k p q : kind_tokens s k -> within p q -> within (map P k ++ p) (AddressKind s :: q).
Proof.
  intros Hk H toks Hm. apply matches_app_inv in Hm. destruct Hm as (t1 & t2 & -> & H1 & H2).
  assert (t1 = k) as ->; [|apply mt_kind; auto].
  clear H2 Hk. revert t1 H1. induction k as [|t l IH]; intros t1 H1; inversion H1; subst; [reflexivity|].
  f_equal. apply IH. assumption.
Qed.

(** ** Values of symbols *)
Definition w_atom (a : atom) : atom_type a -> list piece :=
  match a return atom_type a -> list piece with Tm _ => fun i => [P (item_token i)] | Nt A => write A end.
Definition w_sym (s : sym) : sym_type s -> list piece :=
  match s return sym_type s -> list piece with
  | One a => w_atom a
  | Opt a => opt (w_atom a)
  | Star a | Plus a => flat_map (w_atom a)
  end.
Fixpoint w_tuple (l : list sym) : tuple l -> list piece :=
  match l return tuple l -> list piece with
  | [] => fun _ => []
  | s :: r => fun '(x, y) => w_sym s x ++ w_tuple r y
  end.
Definition k_atom (a : atom) : atom_type a -> Prop :=
  match a return atom_type a -> Prop with
  | Tm k => fun i => kind_of (item_token i) = Some k
  | Nt A => fun v => writable A v = true
  end.
Definition k_sym (s : sym) : sym_type s -> Prop :=
  match s return sym_type s -> Prop with
  | One a => k_atom a
  | Opt a => fun o => match o with Some v => k_atom a v | None => True end
  | Star a => Forall (k_atom a)
  | Plus a => fun l => l <> [] /\ Forall (k_atom a) l
  end.
Fixpoint k_tuple (l : list sym) : tuple l -> Prop :=
  match l return tuple l -> Prop with
  | [] => fun _ => True
  | s :: r => fun '(x, y) => k_sym s x /\ k_tuple r y
  end.

Lemma all_iff {A} (f : A -> bool) l : Forall (fun w => k_wm f w = true) l -> all f l = true.
Proof. intro H. unfold all. induction H as [|w l Hw Hl IH]; [reflexivity|]. cbn. unfold k_wm in Hw. rewrite Hw. exact IH. Qed.
Lemma forallb_iff {A} (f : A -> bool) l : Forall (fun w => f w = true) l -> forallb f l = true.
Proof. induction 1 as [|w l Hw Hl IH]; [reflexivity|]. cbn. rewrite Hw. exact IH. Qed.
Lemma some_iff {A} (l : list A) : l <> [] -> some l = true.
Proof. destruct l; [congruence|reflexivity]. Qed.


Lemma flat_map_snoc {A B} (f : A -> list B) l a : flat_map f (l ++ [a]) = flat_map f l ++ f a.
Proof. rewrite flat_map_app. cbn. rewrite app_nil_r. reflexivity. Qed.

Lemma sep_cons c {A} (f : A -> list piece) a l :
  sep c (map f (a :: l)) = f a ++ flat_map (fun x => P c :: f x) l.
Proof. cbn. f_equal. induction l as [|x l IH]; [reflexivity|]. cbn. rewrite IH. reflexivity. Qed.

Lemma within_eq p q : p = q -> within p q.
Proof. intros ->. apply within_refl. Qed.

Lemma within_eq_trans p q r : within p q -> within q r -> within p r.
Proof. intros H1 H2 toks H. auto. Qed.

Lemma within_maybes {A} (f : A -> list piece) t l : within (flat_map f l) (flat_map (fun a => Maybe t :: f a) l).
Proof.
  induction l as [|a l IH]; [apply within_refl|]. cbn [flat_map]. apply within_app; [apply within_skip|exact IH].
Qed.

Ltac keyword_tokens :=
  repeat match goal with
    | H : kind_of (item_token ?i) = Some _ |- _ =>
        let t := fresh "tok" in destruct i as [[? t] ?]; cbn [item_token fst snd] in *;
        destruct t; try discriminate H; clear H
    end.

Ltac writable_tac :=
  cbn -[lit]; unfold k_wm in *; cbn -[lit] in *;
  repeat match goal with
    | H : _ /\ _ |- _ => destruct H
    | H : _ && _ = true |- _ => apply andb_true_iff in H; destruct H
    | |- _ && _ = true => apply andb_true_iff; split
    | H : ?x = true |- ?x = true => exact H
    | H : Forall _ ?l |- all _ ?l = true => apply all_iff; exact H
    | H : Forall _ ?l |- forallb _ ?l = true => apply forallb_iff; exact H
    | H : ?l <> [] |- some ?l = true => apply some_iff; exact H
    | |- maybe _ ?o = true => destruct o; cbn in *
    end; try reflexivity.

Lemma act_write A p : In p (prods A) -> forall s e vs, k_tuple (p_rhs p) vs ->
  writable A (p_act p s e vs) = true /\ within (w_tuple (p_rhs p) vs) (write A (p_act p s e vs)).
Proof.
  destruct A; cbn [prods]; intro H;
    (repeat (destruct H as [<- | H]; [intros s e vs Hk; cbn in vs;
      repeat match goal with x : (_ * _)%type |- _ => destruct x end;
      cbn [k_tuple k_sym k_atom p_rhs] in Hk; cbn [p_act p_rhs w_tuple w_sym w_atom];
      repeat match goal with H : _ /\ _ |- _ => destruct H end; keyword_tokens;
      (split; [writable_tac|]);
      try (apply within_eq; cbn; rewrite <- ?app_assoc, ?app_nil_r; reflexivity) |])); try match goal with H : False |- _ => destruct H end.
  all: try match goal with H : In _ [] |- _ => destruct H end.
  all: cbn -[lit].
  - (* imports *) unfold k_wm in *. revert H. destruct (node w) as [l] eqn:E. intro H. cbn in *. apply andb_true_iff in H as [Hs Ha].
    apply andb_true_iff. split; [destruct l; reflexivity|].
    unfold all. rewrite forallb_app. unfold all in Ha. rewrite Ha. cbn. rewrite H1. reflexivity.
  - change (k_imports (node w) = true) in H. revert H. destruct (node w) as [[|x l]]; cbn -[lit]; intro H; [discriminate H|].
    rewrite flat_map_snoc, app_nil_r, <- app_assoc. apply within_cons, within_app; [apply within_refl|].
    apply within_app; [apply within_refl|].
    exact (within_take [TImport] (w_imported (node w0))).
  - destruct l as [|x l]; [contradiction|]. cbn [flat_map]. rewrite app_nil_r.
    apply within_cons, within_app; [apply within_refl|]. apply within_maybes.
  - unfold k_wm in *. revert H. destruct (node w) as [l] eqn:E. intro H. cbn in *. unfold all in *.
    rewrite forallb_app, H. cbn. rewrite H0. reflexivity.
  - destruct (node w) as [[|x l]]; cbn -[lit].
    + exact (within_take [TOpenParen; TCloseParen] (w_var (node w0) ++ [])).
    + unfold w_vars. rewrite flat_map_snoc, !app_nil_r, <- app_assoc. apply within_refl.
  - apply within_skip.
  - apply within_app; [apply within_refl|]. apply within_cons.
    refine (within_kind _ [] _ _ (kt_none _ eq_refl) (within_refl _)).
  - change (str_eqb (lit "contract") (lit "contract")) with true. apply orb_true_r.
  - destruct o as [l|]; [|reflexivity]. cbn in H2. apply andb_true_iff in H2 as [_ H2]. exact H2.
  - apply within_app; [apply within_refl|]. apply within_cons.
    refine (within_kind _ [TContract] _ _ (kt_contract _ eq_refl) _).
    destruct o as [l|]; apply within_refl.
  - apply within_app; [apply within_refl|]. apply within_cons.
    refine (within_kind _ [TLibrary] _ _ (kt_library _ eq_refl) (within_refl _)).
  - apply within_app; [apply within_refl|]. apply within_cons.
    refine (within_kind _ [TSpecialIdentifier (node w0)] _ _ (kt_special _) (within_refl _)).
  - apply within_eq. rewrite app_nil_r. symmetry. exact (sep_cons TComma (fun f => w_afield (node f)) w l).
  - apply within_eq. rewrite app_assoc. f_equal. f_equal. symmetry.
    exact (sep_cons TSemicolon (fun f => w_msg (node f)) w l).
  - apply within_eq. rewrite app_nil_r. symmetry. exact (sep_cons TSemicolon w_stmt n l).
  - destruct o as [x|]; [|apply all_iff; exact H1]. apply all_iff. constructor; assumption.
  - destruct o as [x|].
    + cbn [opt]. apply within_cons. eapply within_eq_trans; [apply within_skip|].
      apply within_eq. f_equal. rewrite app_assoc. f_equal. symmetry.
      exact (sep_cons TComma (fun f => w_pair (node f)) x l).
    + destruct l as [|x l]; [apply within_refl|]. cbn [opt app flat_map].
      apply within_cons. rewrite <- app_assoc.
      change (within ((map P [TComma]) ++ (w_pair (node x) ++ flat_map (fun w => P TComma :: w_pair (node w)) l ++ [P TCloseParen]))
        (Maybe [TComma] :: sep TComma (map (fun p => w_pair (node p)) (x :: l)) ++ [P TCloseParen])).
      eapply within_eq_trans; [apply within_take|]. apply within_eq. f_equal. rewrite app_assoc. f_equal. symmetry.
      exact (sep_cons TComma (fun f => w_pair (node f)) x l).
Qed.

(** ** Theorem *)
Theorem der_write :
  (forall a items v, der_atom a items v -> matches (w_atom a v) (map item_token items) /\ k_atom a v) /\
  (forall s items v, der_sym s items v -> matches (w_sym s v) (map item_token items) /\ k_sym s v) /\
  (forall a items vs, der_list a items vs ->
     matches (flat_map (w_atom a) vs) (map item_token items) /\ Forall (k_atom a) vs) /\
  (forall l items vs, der_rhs l items vs -> matches (w_tuple l vs) (map item_token items) /\ k_tuple l vs).
Proof.
  apply (der_mutind
    (fun a items v _ => matches (w_atom a v) (map item_token items) /\ k_atom a v)
    (fun s items v _ => matches (w_sym s v) (map item_token items) /\ k_sym s v)
    (fun a items vs _ => matches (flat_map (w_atom a) vs) (map item_token items) /\ Forall (k_atom a) vs)
    (fun l items vs _ => matches (w_tuple l vs) (map item_token items) /\ k_tuple l vs)).
  - intros k i Hk. split; [|exact Hk]. cbn. apply mt_token, mt_nil.
  - intros A p toks vs Hin _ [Hm Hk].
    destruct (act_write A p Hin (first_start toks) (last_end toks) vs Hk) as [Hw Hin']. split; [apply Hin', Hm|exact Hw].
  - intros a toks v _ IH. exact IH.
  - intros a. split; [apply mt_nil|exact I].
  - intros a toks v _ IH. exact IH.
  - intros a toks vs _ IH. exact IH.
  - intros a toks vs _ [Hm Hk] Hne. split; [exact Hm|]. split; assumption.
  - intros a. split; constructor.
  - intros a toks1 v toks2 vs _ [Hm1 Hk1] _ [Hm2 Hk2]. rewrite map_app. cbn [flat_map].
    split; [apply matches_app; assumption|constructor; assumption].
  - split; constructor.
  - intros s l toks1 v toks2 vs _ [Hm1 Hk1] _ [Hm2 Hk2]. rewrite map_app.
    split; [apply matches_app; assumption|split; assumption].
Qed.

(** Whatever the parser reads, it reads from a way to write the AST it returns. *)
Theorem derives_write A items v : derives A items v ->
  matches (write A v) (map item_token items) /\ writable A v = true.
Proof. apply (proj1 der_write (Nt A)). Qed.
