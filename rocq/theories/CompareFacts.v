(** The order of View.v. *)
From Verif Require Import Chars Lexer LexerProofs Utf8 Derive View.
From Coq Require Import PeanoNat Lia.

(** The first difference decides, and a proper beginning comes first. *)
Definition dictionary {A} (R : A -> A -> Prop) (l m : list A) : Prop :=
  (exists x r, m = l ++ x :: r) \/ (exists p a b r s, l = p ++ a :: r /\ m = p ++ b :: s /\ R a b).

Lemma dictionary_nil_r {A} (R : A -> A -> Prop) l : ~ dictionary R l [].
Proof. intros [(x & r & E)|(p & a & b & r & s & _ & E & _)]; [destruct l|destruct p]; discriminate. Qed.
Lemma dictionary_nil_l {A} (R : A -> A -> Prop) y m : dictionary R [] (y :: m).
Proof. left. exists y, m. reflexivity. Qed.
Lemma dictionary_cons {A} (R : A -> A -> Prop) x y l m : dictionary R (x :: l) (y :: m) <-> R x y \/ (x = y /\ dictionary R l m).
Proof.
  split.
  - intros [(z & r & E)|(p & a & b & r & s & E1 & E2 & H)].
    + injection E as -> ->. right. split; [reflexivity|]. left. eauto.
    + destruct p as [|c p]; injection E1 as -> ->; injection E2 as -> ->; [left; exact H|]. right. split; [reflexivity|]. right. do 5 eexists. eauto.
  - intros [H|[-> [(z & r & ->)|(p & a & b & r & s & -> & -> & H)]]].
    + right. exists [], x, y, l, m. auto.
    + left. exists z, r. reflexivity.
    + right. exists (y :: p), a, b, r, s. auto.
Qed.

(** A comparison function is a total order. *)
Definition total_order {A} (P : A -> Prop) (cmp : A -> A -> comparison) : Prop :=
  (forall a b, P a -> P b -> (cmp a b = Eq <-> a = b))
  /\ (forall a b, P a -> P b -> cmp b a = CompOpp (cmp a b))
  /\ (forall a b c, P a -> P b -> P c -> cmp a b = Lt -> cmp b c = Lt -> cmp a c = Lt).

Section Lists.
  Context {A : Type} (cmp : A -> A -> comparison).
  Fixpoint lcmp (l m : list A) : comparison :=
    match l, m with
    | [], [] => Eq
    | [], _ :: _ => Lt
    | _ :: _, [] => Gt
    | x :: l, y :: m => match cmp x y with Eq => lcmp l m | r => r end
    end.
  Lemma lcmp_eq l : Forall (fun x => forall y, cmp x y = Eq <-> x = y) l -> forall m, lcmp l m = Eq <-> l = m.
  Proof.
    induction 1 as [|x l Hx _ IH]; intros [|y m]; cbn; try (split; discriminate); [tauto|].
    pose proof (Hx y). destruct (cmp x y); split; intro H0; try discriminate.
    - f_equal; [apply H; reflexivity|apply IH, H0].
    - injection H0 as -> ->. apply IH. reflexivity.
    - injection H0 as -> ->. apply H. reflexivity.
    - injection H0 as -> ->. apply H. reflexivity.
  Qed.
  Lemma lcmp_opp l : Forall (fun x => forall y, cmp y x = CompOpp (cmp x y)) l -> forall m, lcmp m l = CompOpp (lcmp l m).
  Proof.
    induction 1 as [|x l Hx _ IH]; intros [|y m]; cbn; try reflexivity. rewrite Hx. destruct (cmp x y); cbn; auto.
  Qed.
  Lemma lcmp_lt (R : A -> A -> Prop) l : Forall (fun x => forall y, cmp x y = Eq <-> x = y) l ->
    Forall (fun x => forall y, cmp x y = Lt <-> R x y) l -> (forall x, In x l -> ~ R x x) -> forall m, lcmp l m = Lt <-> dictionary R l m.
  Proof.
    induction l as [|x l IH]; intros He Hl Hr [|y m]; cbn.
    - split; [discriminate|]. intro H. destruct (dictionary_nil_r _ _ H).
    - split; [|reflexivity]. intros _. apply dictionary_nil_l.
    - split; [discriminate|]. intro H. destruct (dictionary_nil_r _ _ H).
    - rewrite dictionary_cons. inversion_clear He as [|? ? He1 He2]. inversion_clear Hl as [|? ? Hl1 Hl2].
      pose proof (He1 y) as E. pose proof (Hl1 y) as L. assert (Hx : ~ R x x) by (apply Hr; left; reflexivity).
      destruct (cmp x y).
      + rewrite (IH He2 Hl2 (fun z Hz => Hr z (or_intror Hz))). assert (x = y) by (apply E; reflexivity). subst y. tauto.
      + tauto.
      + split; [discriminate|]. intros [H|[-> _]]; [apply L in H|destruct E as [_ E]; specialize (E eq_refl)]; discriminate.
  Qed.
End Lists.

Lemma str_cmp_lcmp s t : str_cmp s t = lcmp N.compare s t.
Proof. revert t. induction s as [|x s IH]; intros [|y t]; cbn; reflexivity. Qed.
Lemma n_eq x y : (x ?= y) = Eq <-> x = y. Proof. apply N.compare_eq_iff. Qed.
Lemma n_opp x y : (y ?= x) = CompOpp (x ?= y). Proof. apply N.compare_antisym. Qed.
Lemma n_lt x y : (x ?= y) = Lt <-> x < y. Proof. apply N.compare_lt_iff. Qed.
Lemma str_cmp_eq s t : str_cmp s t = Eq <-> s = t.
Proof. rewrite str_cmp_lcmp. apply lcmp_eq, Forall_forall. intros x _ y. apply n_eq. Qed.
Lemma str_cmp_opp s t : str_cmp t s = CompOpp (str_cmp s t).
Proof. rewrite !str_cmp_lcmp. apply lcmp_opp, Forall_forall. intros x _ y. apply n_opp. Qed.
Lemma str_cmp_lt s t : str_cmp s t = Lt <-> dictionary N.lt s t.
Proof.
  rewrite str_cmp_lcmp. apply lcmp_lt; [apply Forall_forall; intros x _ y; apply n_eq|apply Forall_forall; intros x _ y; apply n_lt|].
  intros x _. apply N.lt_irrefl.
Qed.

(** ** Trees *)
Lemma tree_ind' (P : tree -> Prop) : (forall n, P (TNum n)) -> (forall s, P (TText s)) -> (forall l, Forall P l -> P (TSeq l)) ->
  (forall i l, Forall P l -> P (TCon i l)) -> forall t, P t.
Proof.
  intros H1 H2 H3 H4. fix IH 1. intros [n|s|l|i l]; [apply H1|apply H2|apply H3|apply H4].
  - revert l. fix L 1. intros [|x r]; constructor; [apply IH|apply L].
  - revert l. fix L 1. intros [|x r]; constructor; [apply IH|apply L].
Qed.
Lemma tcmp_seq l m : tcmp (TSeq l) (TSeq m) = lcmp tcmp l m.
Proof. destruct l, m; reflexivity. Qed.
Lemma tcmp_con i j l m : tcmp (TCon i l) (TCon j m) = match Nat.compare i j with Eq => lcmp tcmp l m | r => r end.
Proof. rewrite <- tcmp_seq. reflexivity. Qed.

Definition sort (t : tree) : nat := match t with TNum _ => 0 | TText _ => 1 | TSeq _ => 2 | TCon _ _ => 3 end.
(** What "less" means. *)
Inductive less : tree -> tree -> Prop :=
| l_num x y : x < y -> less (TNum x) (TNum y)
| l_text s t : dictionary N.lt s t -> less (TText s) (TText t)
| l_seq l m : dictionary less l m -> less (TSeq l) (TSeq m)
| l_variant i j l m : (i < j)%nat -> less (TCon i l) (TCon j m)
| l_fields i l m : dictionary less l m -> less (TCon i l) (TCon i m)
| l_never a b : (sort a < sort b)%nat -> less a b. (* never between values of one type *)

Theorem teq_iff a b : teq a b = true <-> a = b.
Proof.
  revert b. induction a as [n|s|l IH|i l IH] using tree_ind'; intros [m|t|m|j m]; try (split; discriminate); cbn [teq].
  - rewrite N.eqb_eq. split; [intros ->|intros [= ->]]; reflexivity.
  - rewrite str_eqb_eq. split; [intros ->|intros [= ->]]; reflexivity.
  - transitivity (l = m); [|split; [intros ->|intros [= ->]]; reflexivity]. revert m. induction IH as [|x l Hx _ IH]; intros [|y m]; try (split; [discriminate|discriminate]); [tauto|].
    rewrite Bool.andb_true_iff, Hx, IH. split; [intros [-> ->]|intros [= -> ->]]; auto.
  - rewrite Bool.andb_true_iff, Nat.eqb_eq. transitivity (i = j /\ l = m); [|split; [intros [-> ->]|intros [= -> ->]]; auto].
    apply and_iff_compat_l. revert m. induction IH as [|x l Hx _ IH]; intros [|y m]; try (split; [discriminate|discriminate]); [tauto|].
    rewrite Bool.andb_true_iff, Hx, IH. split; [intros [-> ->]|intros [= -> ->]]; auto.
Qed.
Theorem tcmp_eq a b : tcmp a b = Eq <-> a = b.
Proof.
  revert b. induction a as [n|s|l IH|i l IH] using tree_ind'; intros [m|t|m|j m]; try (split; discriminate).
  - cbn. rewrite n_eq. split; [intros ->|intros [= ->]]; reflexivity.
  - cbn. rewrite str_cmp_eq. split; [intros ->|intros [= ->]]; reflexivity.
  - rewrite tcmp_seq, lcmp_eq by exact IH. split; [intros ->|intros [= ->]]; reflexivity.
  - rewrite tcmp_con. destruct (Nat.compare_spec i j) as [-> |H|H].
    + rewrite lcmp_eq by exact IH. split; [intros ->|intros [= ->]]; reflexivity.
    + split; [discriminate|]. intros [= -> ->]. lia.
    + split; [discriminate|]. intros [= -> ->]. lia.
Qed.
Theorem tcmp_opp a b : tcmp b a = CompOpp (tcmp a b).
Proof.
  revert b. induction a as [n|s|l IH|i l IH] using tree_ind'; intros [m|t|m|j m]; try reflexivity.
  - apply n_opp.
  - apply str_cmp_opp.
  - rewrite !tcmp_seq. apply lcmp_opp, IH.
  - rewrite !tcmp_con. rewrite (Nat.compare_antisym i j). destruct (Nat.compare i j); cbn; try reflexivity. apply lcmp_opp, IH.
Qed.
Lemma tcmp_refl a : tcmp a a = Eq. Proof. apply tcmp_eq. reflexivity. Qed.

Lemma less_irrefl_of a : (forall b, tcmp a b = Lt <-> less a b) -> ~ less a a.
Proof. intros H L. apply H in L. rewrite tcmp_refl in L. discriminate. Qed.
Lemma forall_eq l : Forall (fun x => forall y, tcmp x y = Eq <-> x = y) l.
Proof. apply Forall_forall. intros x _ y. apply tcmp_eq. Qed.
Theorem tcmp_lt a b : tcmp a b = Lt <-> less a b.
Proof.
  revert b. induction a as [n|s|l IH|i l IH] using tree_ind'; intros [m|t|m|j m].
  all: try (split; [intros _; apply l_never; cbn; lia|reflexivity]).
  all: try (split; [discriminate|intro H; inversion H; subst; cbn in *; lia]).
  - cbn. rewrite n_lt. split; [apply l_num|intro H; inversion H; subst; [assumption|cbn in *; lia]].
  - cbn. rewrite str_cmp_lt. split; [apply l_text|intro H; inversion H; subst; [assumption|cbn in *; lia]].
  - rewrite tcmp_seq, (lcmp_lt _ less) by (try exact IH; try apply forall_eq; intros x Hx; apply less_irrefl_of; exact (proj1 (Forall_forall _ _) IH x Hx)).
    split; [apply l_seq|intro H; inversion H; subst; [assumption|cbn in *; lia]].
  - rewrite tcmp_con. destruct (Nat.compare_spec i j) as [<- |H|H].
    + rewrite (lcmp_lt _ less) by (try exact IH; try apply forall_eq; intros x Hx; apply less_irrefl_of; exact (proj1 (Forall_forall _ _) IH x Hx)).
      split; [apply l_fields|intro H; inversion H; subst; [lia|assumption|cbn in *; lia]].
    + split; [intros _; apply l_variant, H|reflexivity].
    + split; [discriminate|]. intro L. inversion L; subst; cbn in *; lia.
Qed.
Lemma lcmp_trans l : Forall (fun x => forall y z, tcmp x y = Lt -> tcmp y z = Lt -> tcmp x z = Lt) l ->
  forall m k, lcmp tcmp l m = Lt -> lcmp tcmp m k = Lt -> lcmp tcmp l k = Lt.
Proof.
  induction 1 as [|x l Hx _ IH]; intros [|y m] [|z k]; cbn; try discriminate; try reflexivity. intros H1 H2.
  destruct (tcmp x y) eqn:E1; [| |discriminate].
  - apply tcmp_eq in E1. subst y. destruct (tcmp x z) eqn:E2; [|reflexivity|discriminate]. apply (IH m k); assumption.
  - destruct (tcmp y z) eqn:E2; [| |discriminate].
    + apply tcmp_eq in E2. subst z. rewrite E1. reflexivity.
    + rewrite (Hx y z E1 E2). reflexivity.
Qed.
Theorem tcmp_trans a b c : tcmp a b = Lt -> tcmp b c = Lt -> tcmp a c = Lt.
Proof.
  revert b c. induction a as [n|s|l IH|i l IH] using tree_ind'; intros [m|t|m|j m] [k|u|k|h k]; try discriminate; try reflexivity.
  - cbn. rewrite !n_lt. lia.
  - cbn. revert t u. induction s as [|x s IHs]; intros [|y t] [|z u]; cbn; try discriminate; try reflexivity. intros H1 H2.
    destruct (N.compare_spec x y), (N.compare_spec y z), (N.compare_spec x z); subst; try discriminate; try reflexivity; try lia. exact (IHs _ _ H1 H2).
  - rewrite !tcmp_seq. apply lcmp_trans, IH.
  - rewrite !tcmp_con. destruct (Nat.compare_spec i j), (Nat.compare_spec j h), (Nat.compare_spec i h); subst; try discriminate; try reflexivity; try lia.
    apply lcmp_trans, IH.
Qed.
Theorem tree_order : total_order (fun _ => True) tcmp.
Proof.
  split; [|split]; intros; [apply tcmp_eq|apply tcmp_opp|eapply tcmp_trans; eassumption].
Qed.

(** ** Strings *)
(** Rust compares strings by their bytes. *)
Lemma lcmp_app l : forall a b : list N, lcmp N.compare (l ++ a) (l ++ b) = lcmp N.compare a b.
Proof. induction l as [|x l IH]; intros a b; [reflexivity|]. cbn. rewrite N.compare_refl. apply IH. Qed.

Lemma utf8_char_cons c : exists b r, utf8_char c = b :: r.
Proof. unfold utf8_char. destruct (c <? 128), (c <? 2048), (c <? 65536); eauto. Qed.
Lemma utf8_char_lt c d a b : scalar c -> scalar d -> c < d -> lcmp N.compare (utf8_char c ++ a) (utf8_char d ++ b) = Lt.
Proof.
  intros Hc Hd H. unfold scalar in *. unfold utf8_char.
  destruct (N.ltb_spec c 128), (N.ltb_spec c 2048), (N.ltb_spec c 65536), (N.ltb_spec d 128), (N.ltb_spec d 2048), (N.ltb_spec d 65536);
    try lia; cbn [app lcmp];
    repeat match goal with |- match ?x ?= ?y with _ => _ end = _ => destruct (N.compare_spec x y); [|reflexivity|exfalso; lia] end;
    exfalso; lia.
Qed.
Theorem utf8_order s t : is_text s -> is_text t -> str_cmp (utf8 s) (utf8 t) = str_cmp s t.
Proof.
  change (is_text s -> is_text t -> lcmp N.compare (utf8 s) (utf8 t) = lcmp N.compare s t). intro Hs. revert t. induction Hs as [|c s Hc Hs IH]; intros t Ht; destruct Ht as [|d t Hd Ht]; cbn [utf8 flat_map lcmp].
  - reflexivity.
  - destruct (utf8_char_cons d) as (b & r & ->). reflexivity.
  - destruct (utf8_char_cons c) as (b & r & ->). reflexivity.
  - destruct (N.compare_spec c d) as [-> |H|H].
    + rewrite lcmp_app. apply IH, Ht.
    + apply utf8_char_lt; assumption.
    + rewrite (lcmp_opp N.compare (utf8_char d ++ flat_map utf8_char t)) by (apply Forall_forall; intros x _ y; apply n_opp).
      rewrite utf8_char_lt by assumption. reflexivity.
Qed.
