(** Inversion of derivations, and which keywords a non terminal can contain. *)
From Coq Require Import List Bool.
From Verif Require Import Chars Lexer Ast Grammar Cfg GrammarLink Types EmitSpec.
Import ListNotations.

(** ** Inversion *)
Lemma atom_inv a toks v : der_atom a toks v ->
  match a return atom_type a -> Prop with
  | Tm k => fun i => kind_of (item_token i) = Some k /\ toks = [i]
  | Nt A => fun x => exists p vs, In p (prods A) /\ der_rhs (p_rhs p) toks vs
                       /\ x = p_act p (first_start toks) (last_end toks) vs
  end v.
Proof. intro H. destruct H as [k i Hk|A p toks vs Hin Hd]; [auto|]. exists p, vs. auto. Qed.
Lemma derives_inv A toks v : derives A toks v ->
  exists p vs, In p (prods A) /\ der_rhs (p_rhs p) toks vs /\ v = p_act p (first_start toks) (last_end toks) vs.
Proof. intro H. exact (atom_inv (Nt A) toks v H). Qed.
Lemma sym_inv s toks v : der_sym s toks v ->
  match s return sym_type s -> Prop with
  | One a => fun x => der_atom a toks x
  | Opt a => fun o => match o with None => toks = [] | Some x => der_atom a toks x end
  | Star a => fun l => der_list a toks l
  | Plus a => fun l => der_list a toks l /\ l <> []
  end v.
Proof. intro H. destruct H; auto. Qed.
Lemma list_inv a toks vs : der_list a toks vs ->
  match vs with
  | [] => toks = []
  | v :: r => exists t1 t2, toks = t1 ++ t2 /\ der_atom a t1 v /\ der_list a t2 r
  end.
Proof. intro H. destruct H as [a|a t1 v t2 vs H1 H2]; [reflexivity|]. exists t1, t2. auto. Qed.
Lemma rhs_inv l toks vs : der_rhs l toks vs ->
  match l return tuple l -> Prop with
  | [] => fun _ => toks = []
  | s :: r => fun x => exists t1 t2, toks = t1 ++ t2 /\ der_sym s t1 (fst x) /\ der_rhs r t2 (snd x)
  end vs.
Proof. intro H. destruct H as [|s l t1 v t2 vs H1 H2]; [reflexivity|]. exists t1, t2. auto. Qed.

(** ** The tokens that follow a keyword *)

(** [after k except prev toks]: the tokens that come right after an occurrence
    of [k] in [toks], leaving out the occurrences that come right after one of
    the tokens [except]; [prev] is the token before [toks]. *)
Definition is_kind (k : tk) (t : token) : bool :=
  match kind_of t with Some k' => tk_eqb k' k | None => false end.
Definition excepted (except : list tk) (prev : option token) : bool :=
  match prev with Some t => existsb (fun k => is_kind k t) except | None => false end.
Fixpoint after (k : tk) (except : list tk) (prev : option token) (toks : list token) : list token :=
  match toks with
  | [] => []
  | t :: r =>
      (if is_kind k t && negb (excepted except prev) then firstn 1 r else [])
      ++ after k except (Some t) r
  end.

Definition last_of (prev : option token) (l : list token) : option token :=
  match rev l with [] => prev | t :: _ => Some t end.
Lemma last_of_nil prev : last_of prev [] = prev. Proof. reflexivity. Qed.
Lemma last_of_cons prev t l : last_of prev (t :: l) = last_of (Some t) l.
Proof.
  unfold last_of. cbn [rev]. destruct (rev l) as [|x r] eqn:E; reflexivity.
Qed.
Lemma last_of_app prev l1 l2 : last_of prev (l1 ++ l2) = last_of (last_of prev l1) l2.
Proof.
  unfold last_of. rewrite rev_app_distr. destruct (rev l2); reflexivity.
Qed.

Section Silent.
  (** [k] and [except] as in [after]; [loud] are the non terminals in which [k]
      may be found; [needs] those in which it is found only after [except]
      provided the token before them is in [except]. *)
  Context (k : tk) (except : list tk) (loud needs : nt -> bool).

  Definition in_except (k' : tk) : bool := existsb (tk_eqb k') except.
  Fixpoint rhs_silent (b : bool) (l : list sym) : bool :=
    match l with
    | [] => true
    | One (Tm k') :: r => (negb (tk_eqb k' k) || b) && rhs_silent (in_except k') r
    | One (Nt A) :: r | Opt (Nt A) :: r =>
        negb (loud A) && (negb (needs A) || b) && rhs_silent false r
    | Star (Nt A) :: r | Plus (Nt A) :: r => negb (loud A) && negb (needs A) && rhs_silent false r
    | _ => false
    end.
  Hypothesis checked : forall A, loud A || forallb (fun p => rhs_silent (needs A) (p_rhs p)) (prods A) = true.

  (** Reading [toks] after [prev] finds nothing, whatever follows. *)
  Definition silent (b : bool) (toks : list item) : Prop :=
    forall prev post, (b = true -> excepted except prev = true) ->
      after k except prev (map item_token toks ++ post) = after k except (last_of prev (map item_token toks)) post.

  Lemma silent_nil b : silent b [].
  Proof. intros prev post _. reflexivity. Qed.
  Lemma silent_app b t1 t2 : silent b t1 -> silent false t2 -> silent b (t1 ++ t2).
  Proof.
    intros H1 H2 prev post Hb. rewrite map_app, <- app_assoc, H1 by exact Hb. rewrite H2 by discriminate.
    rewrite last_of_app. reflexivity.
  Qed.
  Lemma silent_weaken b toks : silent false toks -> silent b toks.
  Proof. intros H prev post _. apply H. discriminate. Qed.

  Definition silent_atom (a : atom) (toks : list item) : Prop :=
    match a with
    | Tm _ => True
    | Nt A => loud A = false -> silent (needs A) toks
    end.
  Definition silent_sym (s : sym) (toks : list item) : Prop :=
    match s with
    | One (Tm k') => exists i, toks = [i] /\ kind_of (item_token i) = Some k'
    | One a => silent_atom a toks
    | Opt a => toks = [] \/ silent_atom a toks
    | Star (Nt A) | Plus (Nt A) => loud A = false -> needs A = false -> silent false toks
    | _ => True
    end.

  Lemma is_kind_eq k' t : kind_of t = Some k' -> is_kind k t = tk_eqb k' k.
  Proof. intro H. unfold is_kind. rewrite H. reflexivity. Qed.

  Lemma silent_tm i k' b : kind_of (item_token i) = Some k' -> negb (tk_eqb k' k) || b = true -> silent b [i].
  Proof.
    intros Hk Hb prev post Hp. cbn [map app]. rewrite last_of_cons, last_of_nil. cbn [after].
    rewrite (is_kind_eq k' _ Hk). destruct (tk_eqb k' k); [|reflexivity]. cbn in Hb. rewrite Hp by exact Hb. reflexivity.
  Qed.

  Lemma der_silent :
    (forall a toks v, der_atom a toks v -> silent_atom a toks) /\
    (forall s toks v, der_sym s toks v -> silent_sym s toks) /\
    (forall a toks vs, der_list a toks vs ->
       match a with Tm _ => True | Nt A => loud A = false -> needs A = false -> silent false toks end) /\
    (forall l toks vs, der_rhs l toks vs -> forall b, rhs_silent b l = true -> silent b toks).
  Proof.
    apply (der_mutind
      (fun a toks v _ => silent_atom a toks) (fun s toks v _ => silent_sym s toks)
      (fun a toks vs _ => match a with Tm _ => True | Nt A => loud A = false -> needs A = false -> silent false toks end)
      (fun l toks vs _ => forall b, rhs_silent b l = true -> silent b toks)).
    - intros k' i Hk. exact I.
    - intros A p toks vs Hin _ IH Hl. apply IH. specialize (checked A). rewrite Hl in checked. cbn in checked.
      rewrite forallb_forall in checked. apply checked, Hin.
    - intros [k'|A] toks v Hd IH; [|exact IH]. destruct (atom_inv _ _ _ Hd) as [Hk ->]. exists v. auto.
    - intros a. left. reflexivity.
    - intros a toks v _ IH. right. exact IH.
    - intros [k'|A] toks vs _ IH; exact IH.
    - intros [k'|A] toks vs _ IH _; exact IH.
    - intros [k'|A]; [exact I|]. intros _ _. apply silent_nil.
    - intros [k'|A] t1 v t2 vs _ IH1 _ IH2; [exact I|]. intros Hl Hn. apply silent_app; [|apply IH2; assumption].
      specialize (IH1 Hl). rewrite Hn in IH1. exact IH1.
    - intros b _. apply silent_nil.
    - intros s l t1 v t2 vs Hd IH1 _ IH2 b Hb. destruct s as [[k'|A]|[k'|A]|[k'|A]|[k'|A]]; try discriminate Hb; cbn [rhs_silent] in Hb.
      + apply andb_true_iff in Hb. destruct Hb as [Hb Hr]. destruct IH1 as (i & -> & Hk).
        specialize (IH2 _ Hr). intros prev post Hp. rewrite map_app, <- app_assoc, (silent_tm i k' b Hk Hb prev _ Hp).
        rewrite IH2; [rewrite last_of_app; reflexivity|]. intro He. cbn [map]. rewrite last_of_cons, last_of_nil. cbn [excepted].
        unfold in_except in He. rewrite existsb_exists in *. destruct He as (x & Hx & He). exists x. split; [exact Hx|].
        unfold is_kind. rewrite Hk. exact He.
      + apply andb_true_iff in Hb. destruct Hb as [Hb Hr]. apply andb_true_iff in Hb. destruct Hb as [Hl Hn].
        apply negb_true_iff in Hl. specialize (IH1 Hl). apply silent_app; [|exact (IH2 _ Hr)].
        intros prev post Hp. apply IH1. intro E. rewrite E in Hn. apply Hp, Hn.
      + apply andb_true_iff in Hb. destruct Hb as [Hb Hr]. apply andb_true_iff in Hb. destruct Hb as [Hl Hn].
        apply negb_true_iff in Hl. destruct IH1 as [-> |IH1]; [apply silent_app; [apply silent_nil|exact (IH2 _ Hr)]|].
        specialize (IH1 Hl). apply silent_app; [|exact (IH2 _ Hr)].
        intros prev post Hp. apply IH1. intro E. rewrite E in Hn. apply Hp, Hn.
      + apply andb_true_iff in Hb. destruct Hb as [Hb Hr]. apply andb_true_iff in Hb. destruct Hb as [Hl Hn].
        apply negb_true_iff in Hl, Hn. apply silent_app; [|exact (IH2 _ Hr)]. apply silent_weaken, IH1; assumption.
      + apply andb_true_iff in Hb. destruct Hb as [Hb Hr]. apply andb_true_iff in Hb. destruct Hb as [Hl Hn].
        apply negb_true_iff in Hl, Hn. apply silent_app; [|exact (IH2 _ Hr)]. apply silent_weaken, IH1; assumption.
  Qed.

  (** usable forms *)
  Lemma derives_silent A toks v : loud A = false -> needs A = false -> derives A toks v -> silent false toks.
  Proof. intros Hl Hn Hd. pose proof (proj1 der_silent (Nt A) toks v Hd Hl) as H. rewrite Hn in H. exact H. Qed.
  Lemma list_silent A toks v : loud A = false -> needs A = false -> der_list (Nt A) toks v -> silent false toks.
  Proof. intros Hl Hn Hd. exact (proj1 (proj2 (proj2 der_silent)) (Nt A) toks v Hd Hl Hn). Qed.
End Silent.

(** ** The pieces of a program *)
Ltac inv_tuple :=
  repeat match goal with
    | x : tuple (_ :: _) |- _ => destruct x
    | x : tuple [] |- _ => destruct x
    | x : (_ * _)%type |- _ => destruct x
    end.
Ltac inv_rhs H :=
  apply rhs_inv in H; cbn [fst snd] in H;
  lazymatch type of H with
  | exists _ _, _ =>
      let t1 := fresh "ts" in let t2 := fresh "ts" in let H1 := fresh "D" in let H2 := fresh "D" in let E := fresh "Ets" in
      destruct H as (t1 & t2 & E & H1 & H2); apply sym_inv in H1; inv_rhs H2
  | _ = [] => idtac
  end.

Lemma sym_tm_inv k toks i : der_atom (Tm k) toks i -> kind_of (item_token i) = Some k /\ toks = [i].
Proof. intro H. exact (atom_inv (Tm k) toks i H). Qed.

Ltac inv_tms :=
  repeat match goal with
    | D : der_atom (Tm _) _ _ |- _ => let E := fresh "Etm" in let K := fresh "Hk" in apply sym_tm_inv in D; destruct D as [K E]
    end.

Definition der_opt (A : nt) (toks : list item) (o : option (nt_type A)) : Prop :=
  match o with None => toks = [] | Some x => derives A toks x end.

Lemma program_inv items p : derives Program items p ->
  exists i0 t1 t2 t3 t4 v oi ol c, items = [i0] ++ t1 ++ t2 ++ t3 ++ t4
    /\ kind_of (item_token i0) = Some KScillaVersion /\ derives SignedInteger t1 v
    /\ der_opt ImportDeclarations t2 oi /\ der_opt LibraryDefinition t3 ol
    /\ derives ContractDefinition t4 c /\ p = mkProgram v oi ol c.
Proof.
  intro H. apply derives_inv in H. destruct H as (q & vs & Hin & Hd & ->).
  destruct Hin as [<- |[]]. cbn [p_rhs] in *. cbn in vs. inv_tuple. inv_rhs Hd.
  apply sym_tm_inv in D. destruct D as [Hk ->]. subst. do 9 eexists. rewrite app_nil_r. repeat split; eauto.
Qed.

Lemma contract_inv items w : derives ContractDefinition items w ->
  exists i0 tn tp tw tf tc n ps con fs cs, items = [i0] ++ tn ++ tp ++ tw ++ tf ++ tc
    /\ kind_of (item_token i0) = Some KContract /\ derives TypeNameIdentifier tn n
    /\ derives ComponentParameters tp ps /\ der_opt WithConstraint tw con
    /\ der_list (Nt ContractField) tf fs /\ der_list (Nt ComponentDefinition) tc cs
    /\ node w = mkContractDefinition n ps con fs cs.
Proof.
  intro H. apply derives_inv in H. destruct H as (q & vs & Hin & Hd & ->).
  destruct Hin as [<- |[]]. cbn [p_rhs] in *. cbn in vs. inv_tuple. inv_rhs Hd.
  apply sym_tm_inv in D. destruct D as [Hk ->]. subst. do 11 eexists. rewrite app_nil_r. repeat split; eauto.
Qed.

Lemma field_inv items w : derives ContractField items w ->
  exists i0 ti i1 te i e, items = [i0] ++ ti ++ [i1] ++ te
    /\ kind_of (item_token i0) = Some KField /\ derives TypedIdentifier ti i /\ kind_of (item_token i1) = Some KEquals
    /\ derives FullExpression te e /\ node w = mkContractField i e.
Proof.
  intro H. apply derives_inv in H. destruct H as (q & vs & Hin & Hd & ->).
  destruct Hin as [<- |[]]. cbn [p_rhs] in *. cbn in vs. inv_tuple. inv_rhs Hd. inv_tms.
  subst. do 6 eexists. rewrite app_nil_r. repeat split; eauto.
Qed.

Lemma transition_inv items w : derives TransitionDefinition items w ->
  exists i0 tn tp tb n ps b, items = [i0] ++ tn ++ tp ++ tb
    /\ kind_of (item_token i0) = Some KTransition /\ derives ComponentId tn n /\ derives ComponentParameters tp ps
    /\ derives ComponentBody tb b /\ node w = mkTransitionDefinition n ps b.
Proof.
  intro H. apply derives_inv in H. destruct H as (q & vs & Hin & Hd & ->).
  destruct Hin as [<- |[]]. cbn [p_rhs] in *. cbn in vs. inv_tuple. inv_rhs Hd. inv_tms.
  subst. do 7 eexists. rewrite app_nil_r. repeat split; eauto.
Qed.

Lemma component_inv items w : derives ComponentDefinition items w ->
  (exists t, derives TransitionDefinition items t /\ node w = TransitionComponent t)
  \/ (exists t, derives ProcedureDefinition items t /\ node w = ProcedureComponent t).
Proof.
  intro H. apply derives_inv in H. destruct H as (q & vs & Hin & Hd & ->).
  destruct Hin as [<- |[<- |[]]]; cbn [p_rhs] in *; cbn in vs; inv_tuple; inv_rhs Hd; subst; rewrite app_nil_r; [left|right]; eexists; split; eauto.
Qed.

Lemma regular_inv items w : derives RegularId items w ->
  exists i, items = [i] /\ kind_of (item_token i) = Some KIdentifier /\ node w = tok_str i.
Proof.
  intro H. apply derives_inv in H. destruct H as (q & vs & Hin & Hd & ->).
  destruct Hin as [<- |[]]. cbn [p_rhs] in *. cbn in vs. inv_tuple. inv_rhs Hd. inv_tms. subst. eexists. split; [reflexivity|]. split; [eassumption|reflexivity].
Qed.
Lemma custom_inv items w : derives TypeOrEnumLikeIdentifierId items w ->
  exists i, items = [i] /\ kind_of (item_token i) = Some KCustomIdentifier /\ node w = tok_str i.
Proof.
  intro H. apply derives_inv in H. destruct H as (q & vs & Hin & Hd & ->).
  destruct Hin as [<- |[]]. cbn [p_rhs] in *. cbn in vs. inv_tuple. inv_rhs Hd. inv_tms. subst. eexists. split; [reflexivity|]. split; [eassumption|reflexivity].
Qed.
Lemma tni_inv items w : derives TypeNameIdentifier items w ->
  exists i, items = [i] /\ (kind_of (item_token i) = Some KCustomIdentifier \/ kind_of (item_token i) = Some KByStrWithSize
                            \/ kind_of (item_token i) = Some KEventType)
    /\ type_name_identifier_display (node w) = tok_str i.
Proof.
  intro H. apply derives_inv in H. destruct H as (q & vs & Hin & Hd & ->).
  destruct Hin as [<- |[<- |[<- |[]]]]; cbn [p_rhs] in *; cbn in vs; inv_tuple; inv_rhs Hd.
  - apply derives_inv in D. destruct D as (q & vs & Hin & Hd & ->). destruct Hin as [<- |[]]. cbn [p_rhs] in *. cbn in vs. inv_tuple. inv_rhs Hd.
    inv_tms. subst. cbn. eauto 6.
  - inv_tms. subst. cbn. eexists. split; [reflexivity|]. split; [auto|]. unfold tok_str.
    destruct (item_token i) eqn:E; try discriminate. reflexivity.
  - apply custom_inv in D. destruct D as (i & -> & Hk & Hn). subst. cbn. eauto 6.
Qed.
Lemma typed_inv items w : derives TypedIdentifier items w ->
  exists i0 r n a, items = i0 :: r /\ derives TypeAnnotation r a /\ kind_of (item_token i0) = Some KIdentifier
    /\ node w = mkTypedIdentifier n a /\ node n = tok_str i0.
Proof.
  intro H. apply derives_inv in H. destruct H as (q & vs & Hin & Hd & ->).
  destruct Hin as [<- |[]]. cbn [p_rhs] in *. cbn in vs. inv_tuple. inv_rhs Hd. apply regular_inv in D.
  destruct D as (i & -> & Hk & Hn). subst. rewrite app_nil_r. cbn [app p_act node]. eauto 9.
Qed.
Lemma component_id_inv items w : derives ComponentId items w ->
  exists i, items = [i] /\ (kind_of (item_token i) = Some KCustomIdentifier \/ kind_of (item_token i) = Some KByStrWithSize
     \/ kind_of (item_token i) = Some KEventType \/ kind_of (item_token i) = Some KIdentifier)
    /\ component_name (node w) = tok_str i.
Proof.
  intro H. apply derives_inv in H. destruct H as (q & vs & Hin & Hd & ->).
  destruct Hin as [<- |[<- |[]]]; cbn [p_rhs] in *; cbn in vs; inv_tuple; inv_rhs Hd.
  - apply tni_inv in D. destruct D as (i & -> & Hk & Hn). subst. cbn. rewrite Hn. eexists. split; [reflexivity|]. tauto.
  - apply regular_inv in D. destruct D as (i & -> & Hk & Hn). subst. cbn. eauto 7.
Qed.

(** ** What a phrase ends with *)
Section Ends.
  Context (except : list tk).
  Definition atom_ends (a : atom) : bool := match a with Tm k' => negb (existsb (tk_eqb k') except) | Nt _ => true end.
  Definition sym_ends (s : sym) : bool := match s with One a | Opt a | Star a | Plus a => atom_ends a end.
  Definition solid (l : list sym) : bool := existsb (fun s => match s with One _ | Plus _ => true | _ => false end) l.
  Fixpoint rhs_ends (l : list sym) : bool :=
    match l with
    | [] => true
    | s :: r => rhs_ends r && (solid r || sym_ends s)
    end.
  Hypothesis checked : forall A, forallb (fun p => rhs_ends (p_rhs p)) (prods A) = true.

  Definition ends_ok (toks : list item) : Prop :=
    toks = [] \/ forall prev, excepted except (last_of prev (map item_token toks)) = false.
  Lemma ends_app t1 t2 : ends_ok t2 -> (t2 <> [] \/ ends_ok t1) -> ends_ok (t1 ++ t2).
  Proof.
    intros H2 H1. destruct t2 as [|i t2].
    - rewrite app_nil_r. destruct H1 as [H1|H1]; [congruence|exact H1].
    - destruct H2 as [H2|H2]; [discriminate|]. right. intro prev. rewrite map_app, last_of_app. apply H2.
  Qed.
  Lemma solid_nonempty l toks vs : der_rhs l toks vs -> solid l = true -> toks <> [].
  Proof.
    intro H. induction H as [|s l t1 v t2 vs H1 H2 IH]; [discriminate|]. cbn. intro Hs. apply orb_true_iff in Hs.
    intro E. apply app_eq_nil in E. destruct E as [-> ->]. destruct Hs as [Hs|Hs]; [|exact (IH Hs eq_refl)].
    apply sym_inv in H1. destruct s as [[k|A]|a|a|[k|A]]; try discriminate Hs.
    - destruct (sym_tm_inv _ _ _ H1). discriminate.
    - exact (derives_nonempty _ _ _ H1 eq_refl).
    - destruct H1 as [H1 Hn]. apply list_inv in H1. destruct v as [|v r]; [congruence|].
      destruct H1 as (t1 & t2 & E & Ha & _). destruct (sym_tm_inv _ _ _ Ha) as [_ ->]. discriminate.
    - destruct H1 as [H1 Hn]. apply list_inv in H1. destruct v as [|v r]; [congruence|].
      destruct H1 as (t1 & t2 & E & Ha & _). symmetry in E. apply app_eq_nil in E. destruct E as [-> _].
      exact (derives_nonempty _ _ _ Ha eq_refl).
  Qed.

  Lemma der_ends :
    (forall a toks v, der_atom a toks v -> atom_ends a = true -> ends_ok toks) /\
    (forall s toks v, der_sym s toks v -> sym_ends s = true -> ends_ok toks) /\
    (forall a toks vs, der_list a toks vs -> atom_ends a = true -> ends_ok toks) /\
    (forall l toks vs, der_rhs l toks vs -> rhs_ends l = true -> ends_ok toks).
  Proof.
    apply (der_mutind
      (fun a toks v _ => atom_ends a = true -> ends_ok toks) (fun s toks v _ => sym_ends s = true -> ends_ok toks)
      (fun a toks vs _ => atom_ends a = true -> ends_ok toks) (fun l toks vs _ => rhs_ends l = true -> ends_ok toks)).
    - intros k' i Hk He. right. intro prev. cbn [map]. rewrite last_of_cons, last_of_nil. cbn [excepted].
      apply negb_true_iff in He. unfold is_kind. rewrite Hk. exact He.
    - intros A p toks vs Hin _ IH _. apply IH. specialize (checked A). rewrite forallb_forall in checked. apply checked, Hin.
    - intros a toks v _ IH He. exact (IH He).
    - intros a _. left. reflexivity.
    - intros a toks v _ IH He. exact (IH He).
    - intros a toks v _ IH He. exact (IH He).
    - intros a toks v _ IH _ He. exact (IH He).
    - intros a _. left. reflexivity.
    - intros a t1 v t2 vs _ IH1 _ IH2 He. apply ends_app; [exact (IH2 He)|right; exact (IH1 He)].
    - intros _. left. reflexivity.
    - intros s l t1 v t2 vs _ IH1 Hd IH2 He. cbn in He. apply andb_true_iff in He. destruct He as [He Hs].
      apply ends_app; [exact (IH2 He)|]. apply orb_true_iff in Hs. destruct Hs as [Hs|Hs]; [left|right; exact (IH1 Hs)].
      exact (solid_nonempty _ _ _ Hd Hs).
  Qed.
  Lemma derives_ends A toks v : derives A toks v -> ends_ok toks.
  Proof. intro H. exact (proj1 der_ends (Nt A) toks v H eq_refl). Qed.
  Lemma opt_ends A toks v : der_opt A toks v -> ends_ok toks.
  Proof. destruct v; [apply derives_ends|]. intros ->. left. reflexivity. Qed.
End Ends.

(** ** The three uses *)
Lemma silent_nil_post k except toks prev : silent k except false toks -> after k except prev (map item_token toks) = [].
Proof. intro H. specialize (H prev [] ltac:(discriminate)). rewrite app_nil_r in H. exact H. Qed.
Lemma opt_silent k except loud needs A toks o :
  (forall B, loud B || forallb (fun p => rhs_silent k except loud needs (needs B) (p_rhs p)) (prods B) = true) ->
  loud A = false -> needs A = false -> der_opt A toks o -> silent k except false toks.
Proof.
  intros Hc Hl Hn. destruct o as [v|]; cbn [der_opt]; [|intros ->; apply silent_nil].
  apply (derives_silent k except loud needs Hc A toks v Hl Hn).
Qed.
Lemma after_here k except prev i j l :
  kind_of (item_token i) = Some k -> excepted except prev = false ->
  after k except prev (item_token i :: item_token j :: l)
  = item_token j :: after k except (Some (item_token i)) (item_token j :: l).
Proof.
  intros Hk Hp. cbn [after]. unfold is_kind at 1. rewrite Hk, (proj2 (tk_eqb_eq k k) eq_refl), Hp. reflexivity.
Qed.
Lemma kind_text i k : kind_of (item_token i) = Some k -> forall k', tk_eqb k k' = false -> is_kind k' (item_token i) = false.
Proof. intros H k' E. unfold is_kind. rewrite H. exact E. Qed.

(** *** contract *)
Definition loud_contract (A : nt) : bool := match A with Program | ContractDefinition => true | _ => false end.
Lemma contract_checked B :
  loud_contract B || forallb (fun p => rhs_silent KContract [KWith] loud_contract (fun _ => false) false (p_rhs p)) (prods B) = true.
Proof. destruct B; vm_compute; reflexivity. Qed.
Lemma with_ends B : forallb (fun p => rhs_ends [KWith] (p_rhs p)) (prods B) = true.
Proof. destruct B; vm_compute; reflexivity. Qed.


Ltac sil lem_der lem_opt lem_list :=
  repeat apply silent_app;
  match goal with
  | D : derives _ ?t _ |- silent _ _ _ ?t => refine (lem_der _ _ _ _ D); reflexivity
  | D : der_opt _ ?t _ |- silent _ _ _ ?t => refine (lem_opt _ _ _ _ D); reflexivity
  | D : der_list _ ?t _ |- silent _ _ _ ?t => refine (lem_list _ _ _ _ D); reflexivity
  | K : kind_of (item_token ?i) = Some ?k' |- silent ?k ?e ?b [?i] => refine (silent_tm k e i _ b K _); reflexivity
  end.
Ltac ends lem_ends :=
  repeat (apply ends_app; [|right]);
  match goal with
  | D : derives _ ?t _ |- ends_ok _ ?t => exact (derives_ends _ lem_ends _ _ _ D)
  | D : der_opt _ ?t _ |- ends_ok _ ?t => exact (opt_ends _ lem_ends _ _ _ D)
  | K : kind_of (item_token ?i) = Some ?k' |- ends_ok _ [?i] =>
      right; intro; cbn; unfold is_kind; rewrite K; reflexivity
  end.

Lemma sc_der A toks v : loud_contract A = false -> derives A toks v -> silent KContract [KWith] false toks.
Proof. intros Hl. exact (derives_silent _ _ _ _ contract_checked A toks v Hl eq_refl). Qed.
Lemma sc_opt A toks v : loud_contract A = false -> der_opt A toks v -> silent KContract [KWith] false toks.
Proof. intros Hl. exact (opt_silent _ _ _ _ A toks v contract_checked Hl eq_refl). Qed.
Lemma sc_list A toks v : loud_contract A = false -> der_list (Nt A) toks v -> silent KContract [KWith] false toks.
Proof. intros Hl. exact (list_silent _ _ _ _ contract_checked A toks v Hl eq_refl). Qed.

Theorem contract_keyword items p : derives Program items p ->
  exists n, after KContract [KWith] None (map item_token items) = [n]
    /\ declared_name (match p with mkProgram _ _ _ c => node c end) = token_text n.
Proof.
  intro H. apply program_inv in H.
  destruct H as (i0 & t1 & t2 & t3 & t4 & v & oi & ol & c & -> & Hk0 & D1 & D2 & D3 & D4 & ->).
  apply contract_inv in D4.
  destruct D4 as (ic & tn & tp & tw & tf & tc & n & ps & con & fs & cs & -> & Hkc & Dn & Dp & Dw & Df & Dc & ->).
  apply tni_inv in Dn. destruct Dn as (i & -> & Hki & Hn). exists (item_token i).
  split; [|exact Hn].
  assert (Hpre : silent KContract [KWith] false ([i0] ++ t1 ++ t2 ++ t3)) by sil sc_der sc_opt sc_list.
  assert (Hends : ends_ok [KWith] ([i0] ++ t1 ++ t2 ++ t3)) by ends with_ends.
  assert (Hpost : silent KContract [KWith] false ([i] ++ tp ++ tw ++ tf ++ tc))
    by (repeat apply silent_app; [destruct Hki as [E|[E|E]]|..]; sil sc_der sc_opt sc_list).
  replace (map item_token ([i0] ++ t1 ++ t2 ++ t3 ++ [ic] ++ [i] ++ tp ++ tw ++ tf ++ tc))
    with (map item_token ([i0] ++ t1 ++ t2 ++ t3) ++ map item_token ([ic] ++ [i] ++ (tp ++ tw ++ tf ++ tc)))
    by (rewrite <- map_app, <- !app_assoc; reflexivity).
  rewrite Hpre by discriminate. destruct Hends as [Hends|Hends]; [discriminate|].
  cbn [map app]. cbn [map app] in Hends. rewrite after_here by auto.
  f_equal. exact (silent_nil_post _ _ _ _ Hpost).
Qed.

(** *** field *)
Definition loud_field (A : nt) : bool := match A with Program | ContractDefinition | ContractField => true | _ => false end.
Definition needs_field (A : nt) : bool := match A with AddressTypeField | AddressTypeFieldList => true | _ => false end.
Lemma field_checked B :
  loud_field B || forallb (fun p => rhs_silent KField [KContract; KComma] loud_field needs_field (needs_field B) (p_rhs p)) (prods B) = true.
Proof. destruct B; vm_compute; reflexivity. Qed.
Lemma contract_ends B : forallb (fun p => rhs_ends [KContract; KComma] (p_rhs p)) (prods B) = true.
Proof. destruct B; vm_compute; reflexivity. Qed.
Lemma sf_der A toks v : loud_field A || needs_field A = false -> derives A toks v -> silent KField [KContract; KComma] false toks.
Proof. intros Hl. apply orb_false_iff in Hl. exact (derives_silent _ _ _ _ field_checked A toks v (proj1 Hl) (proj2 Hl)). Qed.
Lemma sf_opt A toks v : loud_field A || needs_field A = false -> der_opt A toks v -> silent KField [KContract; KComma] false toks.
Proof. intros Hl. apply orb_false_iff in Hl. exact (opt_silent _ _ _ _ A toks v field_checked (proj1 Hl) (proj2 Hl)). Qed.
Lemma sf_list A toks v : loud_field A || needs_field A = false -> der_list (Nt A) toks v -> silent KField [KContract; KComma] false toks.
Proof. intros Hl. apply orb_false_iff in Hl. exact (list_silent _ _ _ _ field_checked A toks v (proj1 Hl) (proj2 Hl)). Qed.

Lemma fields_keyword tf fs post prev : der_list (Nt ContractField) tf fs ->
  excepted [KContract; KComma] prev = false ->
  exists ns, after KField [KContract; KComma] prev (map item_token tf ++ post)
             = ns ++ after KField [KContract; KComma] (last_of prev (map item_token tf)) post
    /\ map (fun f => typed_name match node f with mkContractField i _ => node i end) fs = map token_text ns.
Proof.
  revert tf post prev. induction fs as [|f fs IH]; intros tf post prev Hd Hp; apply list_inv in Hd.
  - subst tf. exists []. split; reflexivity.
  - destruct Hd as (t1 & t2 & -> & D & Hd). pose proof (derives_ends _ contract_ends _ _ _ D) as Hends.
    apply field_inv in D. destruct D as (i0 & ti & i1 & te & i & e & -> & K0 & Di & K1 & De & Hf).
    destruct (typed_inv _ _ Di) as (j & r & n & a & -> & Da & Kj & Hi & Hn).
    assert (Hs : silent KField [KContract; KComma] false ((j :: r) ++ [i1] ++ te)) by sil sf_der sf_opt sf_list.
    destruct Hends as [Hends|Hends]; [discriminate|].
    destruct (IH t2 post (last_of prev (map item_token ([i0] ++ (j :: r) ++ [i1] ++ te))) Hd (Hends prev)) as (ns & E & Em).
    exists (item_token j :: ns). split.
    + rewrite map_app, <- app_assoc. cbn [map app]. rewrite after_here by auto. cbn [app]. f_equal.
      change (item_token j :: ?l) with (map item_token [j] ++ l).
      replace (map item_token [j] ++ map item_token (r ++ i1 :: te) ++ map item_token t2 ++ post)
        with (map item_token ((j :: r) ++ [i1] ++ te) ++ map item_token t2 ++ post) by (rewrite !map_app; cbn; rewrite ?map_app, <- ?app_assoc; reflexivity).
      rewrite Hs by discriminate. rewrite <- last_of_cons with (prev := prev).
      change (item_token i0 :: map item_token ((j :: r) ++ [i1] ++ te)) with (map item_token ([i0] ++ (j :: r) ++ [i1] ++ te)).
      rewrite E. f_equal. f_equal.
      rewrite <- last_of_app. cbn [map app]. rewrite !map_app. cbn [map app]. rewrite <- app_assoc. reflexivity.
    + cbn [map]. rewrite Em, Hf, Hi. cbn [typed_name]. rewrite Hn. reflexivity.
Qed.

Theorem field_keyword items p : derives Program items p ->
  map typed_name (field_decls (match p with mkProgram _ _ _ c => node c end))
  = map token_text (after KField [KContract; KComma] None (map item_token items)).
Proof.
  intro H. apply program_inv in H.
  destruct H as (i0 & t1 & t2 & t3 & t4 & v & oi & ol & c & -> & Hk0 & D1 & D2 & D3 & D4 & ->).
  apply contract_inv in D4.
  destruct D4 as (ic & tn & tp & tw & tf & tc & n & ps & con & fs & cs & -> & Hkc & Dn & Dp & Dw & Df & Dc & ->).
  assert (Hpre : silent KField [KContract; KComma] false ([i0] ++ t1 ++ t2 ++ t3 ++ [ic] ++ tn ++ tp ++ tw)) by sil sf_der sf_opt sf_list.
  assert (Hends : ends_ok [KContract; KComma] ([i0] ++ t1 ++ t2 ++ t3 ++ [ic] ++ tn ++ tp ++ tw)).
  { rewrite !app_assoc. apply ends_app; [ends contract_ends|right]. apply ends_app; [ends contract_ends|left].
    exact (derives_nonempty _ _ _ Dp). }
  assert (Hpost : silent KField [KContract; KComma] false tc) by sil sf_der sf_opt sf_list.
  replace ([i0] ++ t1 ++ t2 ++ t3 ++ [ic] ++ tn ++ tp ++ tw ++ tf ++ tc)
    with (([i0] ++ t1 ++ t2 ++ t3 ++ [ic] ++ tn ++ tp ++ tw) ++ (tf ++ tc))
    by (rewrite <- !app_assoc; reflexivity).
  rewrite !map_app with (l' := tf ++ tc). rewrite Hpre by discriminate. destruct Hends as [Hends|Hends]; [discriminate|].
  rewrite map_app with (l := tf).
  destruct (fields_keyword tf fs (map item_token tc) (last_of None (map item_token ([i0] ++ t1 ++ t2 ++ t3 ++ [ic] ++ tn ++ tp ++ tw))) Df (Hends None))
    as (ns & -> & E).
  rewrite (silent_nil_post _ _ _ _ Hpost), app_nil_r, <- E. cbn [field_decls]. rewrite map_map. apply map_ext. intro f. destruct (node f); reflexivity.
Qed.

(** *** transition *)
Definition loud_transition (A : nt) : bool :=
  match A with Program | ContractDefinition | ComponentDefinition | TransitionDefinition => true | _ => false end.
Lemma transition_checked B :
  loud_transition B || forallb (fun p => rhs_silent KTransition [] loud_transition (fun _ => false) false (p_rhs p)) (prods B) = true.
Proof. destruct B; vm_compute; reflexivity. Qed.
Lemma st_der A toks v : loud_transition A = false -> derives A toks v -> silent KTransition [] false toks.
Proof. intros Hl. exact (derives_silent _ _ _ _ transition_checked A toks v Hl eq_refl). Qed.
Lemma st_opt A toks v : loud_transition A = false -> der_opt A toks v -> silent KTransition [] false toks.
Proof. intros Hl. exact (opt_silent _ _ _ _ A toks v transition_checked Hl eq_refl). Qed.
Lemma st_list A toks v : loud_transition A = false -> der_list (Nt A) toks v -> silent KTransition [] false toks.
Proof. intros Hl. exact (list_silent _ _ _ _ transition_checked A toks v Hl eq_refl). Qed.

Definition component_decl (d : wm NodeComponentDefinition) : list (str * list NodeTypedIdentifier) :=
  match node d with
  | TransitionComponent t =>
      match node t with mkTransitionDefinition n ps _ => [(component_name (node n), param_decls (node ps))] end
  | ProcedureComponent _ => []
  end.
Lemma no_exception prev : excepted [] prev = false.
Proof. destruct prev; reflexivity. Qed.
Lemma transitions_keyword tc cs prev : der_list (Nt ComponentDefinition) tc cs ->
  map fst (flat_map component_decl cs) = map token_text (after KTransition [] prev (map item_token tc)).
Proof.
  revert tc prev. induction cs as [|d cs IH]; intros tc prev Hd; apply list_inv in Hd.
  - subst tc. reflexivity.
  - destruct Hd as (t1 & t2 & -> & D & Hd). cbn [flat_map]. rewrite map_app.
    apply component_inv in D. destruct D as [(t & D & Hn)|(t & D & Hn)]; unfold component_decl at 1; rewrite Hn.
    + apply transition_inv in D. destruct D as (i0 & tn & tp & tb & n & ps & b & -> & K0 & Dn & Dp & Db & ->).
      destruct (component_id_inv _ _ Dn) as (j & -> & _ & En).
      assert (Hs : silent KTransition [] false ([j] ++ tp ++ tb)) by sil st_der st_opt st_list.
      rewrite map_app with (l' := t2). cbn [map app fst]. rewrite after_here by (auto using no_exception). cbn [map].
      rewrite En. f_equal. change (item_token j :: map item_token (tp ++ tb) ++ map item_token t2)
        with (map item_token ([j] ++ tp ++ tb) ++ map item_token t2). rewrite Hs by discriminate. apply (IH t2 _ Hd).
    + rewrite (IH t2 (last_of prev (map item_token t1)) Hd), map_app.
      rewrite (st_der ProcedureDefinition _ _ eq_refl D) by discriminate. reflexivity.
Qed.

Theorem transition_keyword items p : derives Program items p ->
  map fst (transition_decls (match p with mkProgram _ _ _ c => node c end))
  = map token_text (after KTransition [] None (map item_token items)).
Proof.
  intro H. apply program_inv in H.
  destruct H as (i0 & t1 & t2 & t3 & t4 & v & oi & ol & c & -> & Hk0 & D1 & D2 & D3 & D4 & ->).
  apply contract_inv in D4.
  destruct D4 as (ic & tn & tp & tw & tf & tc & n & ps & con & fs & cs & -> & Hkc & Dn & Dp & Dw & Df & Dc & ->).
  assert (Hpre : silent KTransition [] false ([i0] ++ t1 ++ t2 ++ t3 ++ [ic] ++ tn ++ tp ++ tw ++ tf)) by sil st_der st_opt st_list.
  replace ([i0] ++ t1 ++ t2 ++ t3 ++ [ic] ++ tn ++ tp ++ tw ++ tf ++ tc)
    with (([i0] ++ t1 ++ t2 ++ t3 ++ [ic] ++ tn ++ tp ++ tw ++ tf) ++ tc)
    by (rewrite <- !app_assoc; reflexivity).
  rewrite !map_app with (l' := tc). rewrite Hpre by discriminate.
  rewrite <- (transitions_keyword _ _ _ Dc). reflexivity.
Qed.
