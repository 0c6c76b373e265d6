(** A contract is a head followed by components, and a component keyword starts
    a component. *)
From Coq Require Import List Bool.
From Verif Require Import Chars Lexer Ast Grammar Cfg GrammarLink Types EmitSpec EmitProgram EmitSig DerInv Brackets.
Import ListNotations.
Local Open Scope nat_scope.

(** ** Phrases without component keywords *)
Definition quiet (toks : list item) : Prop := Forall (fun i => is_component (item_token i) = false) toks.
Definition loud (A : nt) : bool :=
  match A with Program | ContractDefinition | ComponentDefinition | TransitionDefinition | ProcedureDefinition => true | _ => false end.
Definition atom_quiet (a : atom) : bool :=
  match a with Tm KTransition | Tm KProcedure => false | Tm _ => true | Nt A => negb (loud A) end.
Definition sym_quiet (s : sym) : bool := match s with One a | Opt a | Star a | Plus a => atom_quiet a end.
Lemma quiet_checked A : loud A || forallb (fun p => forallb sym_quiet (p_rhs p)) (prods A) = true.
Proof. destruct A; vm_compute; reflexivity. Qed.

Lemma der_quiet :
  (forall a toks v, der_atom a toks v -> atom_quiet a = true -> quiet toks) /\
  (forall s toks v, der_sym s toks v -> sym_quiet s = true -> quiet toks) /\
  (forall a toks vs, der_list a toks vs -> atom_quiet a = true -> quiet toks) /\
  (forall l toks vs, der_rhs l toks vs -> forallb sym_quiet l = true -> quiet toks).
Proof.
  apply (der_mutind
    (fun a toks v _ => atom_quiet a = true -> quiet toks) (fun s toks v _ => sym_quiet s = true -> quiet toks)
    (fun a toks vs _ => atom_quiet a = true -> quiet toks) (fun l toks vs _ => forallb sym_quiet l = true -> quiet toks)); auto.
  - intros k i Hk Hq. constructor; [|constructor]. destruct (item_token i); try reflexivity; injection Hk as <-; discriminate Hq.
  - intros A p toks vs Hin _ IH Hq. apply IH. cbn in Hq. pose proof (quiet_checked A) as H. apply negb_true_iff in Hq. rewrite Hq in H.
    cbn [orb] in H. rewrite forallb_forall in H. apply H, Hin.
  - intros a _. apply Forall_nil.
  - intros a _. apply Forall_nil.
  - intros a t1 v t2 vs _ IH1 _ IH2 Hq. apply Forall_app. split; [exact (IH1 Hq)|exact (IH2 Hq)].
  - intros _. constructor.
  - intros s l t1 v t2 vs _ IH1 _ IH2 Hq. cbn [forallb] in Hq. apply andb_true_iff in Hq. apply Forall_app. split; [apply IH1|apply IH2]; tauto.
Qed.
Lemma q_der A toks v : loud A = false -> derives A toks v -> quiet toks.
Proof. intros Hl Hd. apply (proj1 der_quiet (Nt A) toks v Hd). cbn. rewrite Hl. reflexivity. Qed.
Lemma q_list A toks v : loud A = false -> der_list (Nt A) toks v -> quiet toks.
Proof. intros Hl Hd. apply (proj1 (proj2 (proj2 der_quiet)) (Nt A) toks v Hd). cbn. rewrite Hl. reflexivity. Qed.
Lemma q_opt A toks v : loud A = false -> der_opt A toks v -> quiet toks.
Proof. intros Hl Hd. destruct v; [exact (q_der _ _ _ Hl Hd)|]. cbn in Hd. subst. constructor. Qed.

(** A component is its keyword followed by a phrase without. *)
Lemma component_shape items w : derives ComponentDefinition items w ->
  exists i r, items = i :: r /\ is_component (item_token i) = true /\ quiet r
    /\ match item_token i with TTransition => exists d, component_decls w = [d] | _ => component_decls w = [] end.
Proof.
  intro H. apply component_inv in H. unfold component_decls. destruct H as [(t & D & ->)|(t & D & ->)].
  - apply transition_inv in D. destruct D as (i0 & tn & tp & tb & n & ps & b & -> & K0 & Dn & Dp & Db & ->).
    exists i0, (tn ++ tp ++ tb). split; [reflexivity|]. unfold quiet. rewrite !Forall_app.
    assert (E : item_token i0 = TTransition) by (destruct (item_token i0); try discriminate K0; reflexivity). rewrite E.
    split; [reflexivity|]. split; [|eauto]. exact (conj (q_der ComponentId _ _ eq_refl Dn) (conj (q_der ComponentParameters _ _ eq_refl Dp) (q_der ComponentBody _ _ eq_refl Db))).
  - apply derives_inv in D. destruct D as (q & vs & Hin & Hd & ->). destruct Hin as [<- |[]]. cbn [p_rhs] in *. cbn in vs.
    inv_tuple. inv_rhs Hd. inv_tms. subst.
    exists i, (ts1 ++ ts3 ++ ts5 ++ []). split; [reflexivity|]. unfold quiet. rewrite app_nil_r, !Forall_app.
    assert (E : item_token i = TProcedure) by (destruct (item_token i); try discriminate Hk; reflexivity). rewrite E.
    split; [reflexivity|]. split; [|reflexivity].
    exact (conj (q_der ComponentId _ _ eq_refl D1) (conj (q_der ComponentParameters _ _ eq_refl D0) (q_der ComponentBody _ _ eq_refl D2))).
Qed.

(** ** Cutting a list of components *)
Definition starts_component (toks : list item) : Prop :=
  match toks with [] => True | i :: _ => is_component (item_token i) = true end.

Lemma quiet_before h x tc y : h ++ tc = x ++ y -> quiet h -> starts_component y -> y <> [] ->
  exists x', x = h ++ x' /\ tc = x' ++ y.
Proof.
  revert x. induction h as [|i h IH]; intros x E Hq Hy Hn; [exists x; auto|].
  inversion Hq as [|? ? H1 H2]; subst. destruct x as [|j x].
  - destruct y as [|k y]; [congruence|]. injection E as -> _. cbn in Hy. congruence.
  - cbn [app] in E. injection E as -> E. destruct (IH x E H2 Hy Hn) as (x' & -> & ->). exists x'. auto.
Qed.

Lemma list_app a t1 vs1 t2 vs2 : der_list a t1 vs1 -> der_list a t2 vs2 -> der_list a (t1 ++ t2) (vs1 ++ vs2).
Proof.
  intros H1 H2. induction H1 as [|a t v t' vs Ha Hl IH]; [exact H2|]. rewrite <- app_assoc. cbn [app].
  apply der_cons; [exact Ha|apply IH, H2].
Qed.
Lemma cut_list x y cs : der_list (Nt ComponentDefinition) (x ++ y) cs -> starts_component y ->
  exists cs1 cs2, cs = cs1 ++ cs2 /\ der_list (Nt ComponentDefinition) x cs1 /\ der_list (Nt ComponentDefinition) y cs2.
Proof.
  intros H Hy. destruct y as [|j y].
  { rewrite app_nil_r in H. exists cs, []. rewrite app_nil_r. repeat split; [exact H|constructor]. }
  revert x H. induction cs as [|d cs IH]; intros x H; apply list_inv in H.
  { destruct x; discriminate. }
  destruct H as (t1 & t2 & E & D & H). pose proof D as D0. apply component_shape in D0. destruct D0 as (i & r & -> & Hi & Hq & _).
  destruct x as [|k x].
  - exists [], (d :: cs). repeat split; [constructor|]. cbn [app] in E. rewrite E. exact (der_cons _ _ _ _ _ D H).
  - cbn [app] in E. injection E as -> E. symmetry in E.
    destruct (quiet_before _ _ _ _ E Hq Hy ltac:(discriminate)) as (x' & -> & ->).
    destruct (IH x' H) as (cs1 & cs2 & -> & H1 & H2). exists (d :: cs1), cs2. repeat split; [|exact H2].
    change (i :: r ++ x') with ((i :: r) ++ x'). apply der_cons; assumption.
Qed.

(** ** Programs *)
Definition contract_node (p : NodeProgram) : NodeContractDefinition := match p with mkProgram _ _ _ c => node c end.
Definition components_of (p : NodeProgram) : list (wm NodeComponentDefinition) :=
  match contract_node p with mkContractDefinition _ _ _ _ cs => cs end.
Lemma transition_decls_of p : transition_decls (contract_node p) = flat_map component_decls (components_of p).
Proof. unfold components_of. destruct (contract_node p). reflexivity. Qed.

(** The contracts agree but for the components. *)
Definition same_head (c c' : NodeContractDefinition) : Prop :=
  contract_name_node c' = contract_name_node c /\ contract_param_decls c' = contract_param_decls c /\ field_decls c' = field_decls c.

Lemma program_split items p : derives Program items p ->
  exists h tc, items = h ++ tc /\ quiet h /\ der_list (Nt ComponentDefinition) tc (components_of p)
    /\ forall tc' cs', der_list (Nt ComponentDefinition) tc' cs' ->
       exists p', derives Program (h ++ tc') p' /\ components_of p' = cs' /\ same_head (contract_node p) (contract_node p').
Proof.
  intro H. apply program_inv in H.
  destruct H as (i0 & t1 & t2 & t3 & t4 & v & oi & ol & c & -> & Hk0 & D1 & D2 & D3 & D4 & ->).
  apply contract_inv in D4.
  destruct D4 as (ic & tn & tp & tw & tf & tc & n & ps & con & fs & cs & -> & Hkc & Dn & Dp & Dw & Df & Dc & Ec).
  exists ([i0] ++ t1 ++ t2 ++ t3 ++ [ic] ++ tn ++ tp ++ tw ++ tf), tc. split; [rewrite <- !app_assoc; reflexivity|].
  split; [|split].
  - unfold quiet. rewrite !Forall_app.
    assert (E0 : is_component (item_token i0) = false) by (destruct (item_token i0); try discriminate Hk0; reflexivity).
    assert (Ec' : is_component (item_token ic) = false) by (destruct (item_token ic); try discriminate Hkc; reflexivity).
    repeat split; try (constructor; [assumption|constructor]).
    + exact (q_der SignedInteger _ _ eq_refl D1).
    + exact (q_opt ImportDeclarations _ _ eq_refl D2).
    + exact (q_opt LibraryDefinition _ _ eq_refl D3).
    + exact (q_der TypeNameIdentifier _ _ eq_refl Dn).
    + exact (q_der ComponentParameters _ _ eq_refl Dp).
    + exact (q_opt WithConstraint _ _ eq_refl Dw).
    + exact (q_list ContractField _ _ eq_refl Df).
  - unfold components_of, contract_node. rewrite Ec. exact Dc.
  - intros tc' cs' Dc'.
    assert (Hopt : forall A t (o : option (nt_type A)), der_opt A t o -> der_sym (Opt (Nt A)) t o).
    { intros A t [x|] Ho; [constructor; exact Ho|]. cbn in Ho. subst. constructor. }
    assert (Dc2 : exists w, derives ContractDefinition ([ic] ++ tn ++ tp ++ tw ++ tf ++ tc') w /\ node w = mkContractDefinition n ps con fs cs').
    { eexists. split.
      - let l := eval cbv delta [prods_ContractDefinition] in prods_ContractDefinition in lazymatch l with [?q] => apply (der_Nt ContractDefinition q _ (ic, (n, (ps, (con, (fs, (cs', tt)))))) (or_introl eq_refl)) end.
        cbn [p_rhs]. rewrite <- (app_nil_r tc').
        apply (der_rhs_cons (One (Tm KContract))); [constructor; constructor; exact Hkc|].
        apply (der_rhs_cons (One (Nt TypeNameIdentifier))); [constructor; exact Dn|].
        apply (der_rhs_cons (One (Nt ComponentParameters))); [constructor; exact Dp|].
        apply (der_rhs_cons (Opt (Nt WithConstraint))); [apply Hopt, Dw|].
        apply (der_rhs_cons (Star (Nt ContractField))); [constructor; exact Df|].
        apply (der_rhs_cons (Star (Nt ComponentDefinition))); [constructor; exact Dc'|]. constructor.
      - reflexivity. }
    destruct Dc2 as (w & Dw' & Ew). exists (mkProgram v oi ol w). split; [|split].
    + rewrite <- !app_assoc.
      let l := eval cbv delta [prods_Program] in prods_Program in lazymatch l with [?q] => apply (der_Nt Program q _ (i0, (v, (oi, (ol, (w, tt))))) (or_introl eq_refl)) end.
      cbn [p_rhs]. 
      apply (der_rhs_cons (One (Tm KScillaVersion))); [constructor; constructor; exact Hk0|].
      apply (der_rhs_cons (One (Nt SignedInteger))); [constructor; exact D1|].
      apply (der_rhs_cons (Opt (Nt ImportDeclarations))); [apply Hopt, D2|].
      apply (der_rhs_cons (Opt (Nt LibraryDefinition))); [apply Hopt, D3|].
      rewrite <- (app_nil_r (_ ++ _)).
      apply (der_rhs_cons (One (Nt ContractDefinition))); [constructor; exact Dw'|]. constructor.
    + unfold components_of, contract_node. rewrite Ew. reflexivity.
    + unfold contract_node. rewrite Ew, Ec. repeat split; reflexivity.
Qed.
