(** The emitter looks only at the signature of a contract: its name, its
    parameters, the declarations of its fields and the names and parameters of
    its transitions. *)
From Verif Require Import Chars Lexer Ast Grammar Types Visitor Emitter EmitSpec TypeFacts EmitTypes EmitProgram EmitInv Erase EmitErase.
Local Open Scope nat_scope.

(** What [C21] is about, without positions. *)
Record sig := mkSig
  { sg_name : NodeTypeNameIdentifier;
    sg_params : list NodeTypedIdentifier;
    sg_fields : list NodeTypedIdentifier;
    sg_transitions : list (str * list NodeTypedIdentifier) }.
Definition contract_name_node (c : NodeContractDefinition) : NodeTypeNameIdentifier :=
  match c with mkContractDefinition n _ _ _ _ => node n end.
Definition signature (p : NodeProgram) : sig :=
  match p with
  | mkProgram _ _ _ c =>
      mkSig (e_tni (contract_name_node (node c)))
            (map e_typed (contract_param_decls (node c)))
            (map e_typed (field_decls (node c)))
            (map (fun t => (fst t, map e_typed (snd t))) (transition_decls (node c)))
  end.

(** A program with a given signature. *)
Definition w0 {A} (a : A) : wm A := mkwm a start_position start_position.
Definition re_params (l : list NodeTypedIdentifier) : NodeComponentParameters :=
  mkComponentParameters (map (fun d => w0 (mkParameterPair (w0 d))) l).
Definition some_expr : NodeFullExpression := Message [].
Definition re_contract (g : sig) : NodeContractDefinition :=
  mkContractDefinition (w0 (sg_name g)) (w0 (re_params (sg_params g))) None
    (map (fun d => w0 (mkContractField (w0 d) (w0 some_expr))) (sg_fields g))
    (map (fun t => w0 (TransitionComponent (w0 (mkTransitionDefinition (w0 (WithRegularId (w0 (fst t))))
                     (w0 (re_params (snd t))) (w0 (mkComponentBody None)))))) (sg_transitions g)).

Lemma re_params_e ps : re_params (map e_typed (param_decls ps)) = e_params ps.
Proof.
  destruct ps as [l]. cbn. unfold re_params. f_equal. rewrite !map_map. apply map_ext. intro p.
  unfold at0. destruct (node p) as [i]. reflexivity.
Qed.

Section Sig.
  Context (debug : stack_object -> str).
  Notation E := (sr_emitter debug).
  Notation vis := (visit E).

  Lemma peq_standard {S} (e e' : mode -> M S tr) ch ch' :
    (forall m, peq (e m) (e' m)) -> peq ch ch' -> peq (standard e ch) (standard e' ch').
  Proof.
    intros He Hch. unfold standard. apply peq_bind_res; [apply He|]. intro r. apply peq_bind.
    - destruct r as [[]|]; [exact Hch| |]; apply peq_refl.
    - intros [[]|]; [apply He| |]; apply peq_refl.
  Qed.

  Lemma sig_field f (cf : wm NodeContractField) : 2 <= f ->
    peq (vis f (AContractField (node cf)))
        (vis f (AContractField (mkContractField (w0 (e_typed (field_decl cf))) (w0 some_expr)))).
  Proof.
    intro Hf. destruct f as [|f]; [lia|]. unfold field_decl. destruct (node cf) as [i e]. rewrite !visit_S. unfold visit_node.
    assert (Hi : forall s, vis f (ATypedIdentifier (node i)) s = vis f (ATypedIdentifier (e_typed (node i))) s).
    { intro s. symmetry. apply (visit_erase debug f (ATypedIdentifier (node i))). }
    apply peq_standard.
    - intro m. cbn [emit sr_emitter sr_emit]. apply peq_bind; [intro s; rewrite !wvisit_eq; apply Hi|]. intros _.
      apply peq_bind; [apply peq_refl|]. intro d. apply peq_bind; [|intro; apply peq_refl].
      intro s. rewrite !wvisit_eq, !expr_out by lia. reflexivity.
    - cbn [children]. apply peq_bind; [intro s; rewrite !visit_wm_eq; apply Hi|]. intros _.
      unfold kid_of. apply peq_bind; [|intro; apply peq_refl].
      intro s. rewrite !visit_wm_eq, !expr_out by lia. reflexivity.
  Qed.

  (** a transition that is entered skips its children *)
  Lemma trans_enter f t s : vis (S f) (ATransitionDefinition t) s =
    match emit E (vis f) Enter (ATransitionDefinition t) s with
    | Ret (Ok _) s' => Ret (Ok Continue) s'
    | Ret (Err m) s' => Ret (Err m) s'
    | Panic => Panic
    | Fuel => Fuel
    end.
  Proof.
    rewrite visit_S. unfold visit_node, standard. unfold bind_res at 1.
    destruct (emit E (vis f) Enter (ATransitionDefinition t) s) as [[r|m] s'| |] eqn:Ee; try reflexivity.
    assert (r = SkipChildren) as ->; [|reflexivity].
    destruct t as [n ps b]. cbn [emit sr_emitter sr_emit] in Ee.
    do 3 (apply bind_inv in Ee; destruct Ee as (? & ? & _ & Ee)).
    match goal with H : _ = Ret (Ok r) s' |- _ => rename H into Hx end.
    destruct (kind _) in Hx; try discriminate.
    apply bind_inv in Hx. destruct Hx as (? & ? & _ & Hx). injection Hx as <- _. reflexivity.
  Qed.

  Lemma sig_transition f n ps b n' b' : 2 <= f -> component_name (node n) = component_name (node n') ->
    peq (vis f (ATransitionDefinition (mkTransitionDefinition n ps b)))
        (vis f (ATransitionDefinition (mkTransitionDefinition n' (at0 e_params ps) b'))).
  Proof.
    intros Hf Hn s. destruct f as [|f]; [lia|]. rewrite !trans_enter. cbn [emit sr_emitter sr_emit].
    match goal with |- match ?a with _ => _ end = match ?b with _ => _ end => replace a with b; [reflexivity|] end.
    symmetry. revert s. apply peq_bind.
    { intro s. rewrite !wvisit_eq, !component_id_out by lia. rewrite Hn. reflexivity. }
    intros _. apply peq_bind; [|intro; apply peq_refl]. intro s. symmetry. cbn [node at0].
    destruct (node ps) as [l]. cbn [e_params].
    apply (peq_params debug (vis f) (visit_erase debug f)).
  Qed.

  (** what a list of components emits *)
  Lemma sig_components f cs : 4 <= f ->
    peq (wvisit_all (vis f) AComponentDefinition cs)
        (wvisit_all (vis f) AComponentDefinition
           (map (fun t => w0 (TransitionComponent (w0 (mkTransitionDefinition (w0 (WithRegularId (w0 (fst t))))
                     (w0 (re_params (snd t))) (w0 (mkComponentBody None))))))
             (map (fun t => (fst t, map e_typed (snd t))) (flat_map component_decls cs)))).
  Proof.
    intro Hf. induction cs as [|c cs IH]; [apply peq_refl|]. cbn [flat_map]. unfold component_decls at 1.
    destruct (node c) as [t|p] eqn:Ec.
    - destruct (node t) as [n ps b] eqn:Et. cbn [app map wvisit_all fst snd]. rewrite re_params_e.
      apply peq_bind; [|intros _; exact IH]. intro s. rewrite !wvisit_eq, Ec. cbn [node w0].
      destruct f as [|f]; [lia|]. rewrite !visit_S. revert s. unfold visit_node. apply peq_standard; [intro; apply peq_refl|].
      cbn [children]. unfold kid_of. apply peq_bind; [|intro; apply peq_refl].
      intro s. rewrite !visit_wm_eq, Et. cbn [node w0].
      apply (sig_transition f n ps b (w0 (WithRegularId (w0 (component_name (node n))))) (w0 (mkComponentBody None))); [lia|reflexivity].
    - cbn [app]. intro s. cbn [wvisit_all]. rewrite <- IH. unfold bind at 1. unfold bind_res at 1. rewrite wvisit_eq, Ec.
      destruct f as [|[|f]]; [lia|lia|]. rewrite visit_S. unfold visit_node, standard. cbn [emit sr_emitter sr_emit children].
      unfold kid_of. unfold bind at 1 2. unfold bind_res at 1 2 3. unfold ret at 1. rewrite visit_wm_eq.
      rewrite visit_S. unfold visit_node. erewrite standard_skip; [|reflexivity]. reflexivity.
  Qed.

  Lemma contract_enter f c s : vis (S f) (AContractDefinition c) s =
    match emit E (vis f) Enter (AContractDefinition c) s with
    | Ret (Ok _) s' => Ret (Ok Continue) s'
    | Ret (Err m) s' => Ret (Err m) s'
    | Panic => Panic
    | Fuel => Fuel
    end.
  Proof.
    rewrite visit_S. unfold visit_node, standard. unfold bind_res at 1.
    destruct (emit E (vis f) Enter (AContractDefinition c) s) as [[r|m] s'| |] eqn:Ee; try reflexivity.
    assert (r = SkipChildren) as ->; [|reflexivity].
    destruct c as [n ps con fs cs]. cbn [emit sr_emitter sr_emit] in Ee.
    do 6 (apply bind_inv in Ee; destruct Ee as (? & ? & _ & Ee)). injection Ee as <- _. reflexivity.
  Qed.

  Lemma sig_contract f p : 5 <= f ->
    peq (vis f (AContractDefinition match p with mkProgram _ _ _ c => node c end))
        (vis f (AContractDefinition (re_contract (signature p)))).
  Proof.
    intros Hf s. destruct f as [|f]; [lia|]. destruct p as [v i l c]. cbn [signature re_contract].
    rewrite !contract_enter.
    match goal with |- match ?a with _ => _ end = match ?b with _ => _ end => replace a with b; [reflexivity|] end.
    symmetry. revert s. unfold re_contract. cbn [sg_name sg_params sg_fields sg_transitions].
    destruct (node c) as [n ps con fs cs]. cbn [contract_name_node contract_param_decls field_decls transition_decls].
    cbn [emit sr_emitter sr_emit node w0]. rewrite re_params_e, (display_e (node n)).
    apply peq_bind; [intro s; rewrite !wvisit_eq; symmetry; apply (visit_erase debug f (ATypeNameIdentifier (node n)))|].
    intros _. apply peq_bind; [apply peq_refl|]. intros _.
    apply peq_bind; [intro s; rewrite !wvisit_eq; symmetry; apply (visit_erase debug f (AComponentParameters (node ps)))|].
    intros _. apply peq_bind.
    { destruct con as [w|]; [|apply peq_refl]. intro s. unfold bind, bind_res.
      rewrite wvisit_eq, constraint_out by lia. reflexivity. }
    intros _. apply peq_bind.
    { clear -Hf. induction fs as [|cf fs IH]; [apply peq_refl|]. cbn [map wvisit_all].
      apply peq_bind; [|intros _; exact IH]. intro s. rewrite !wvisit_eq. cbn [node w0].
      apply sig_field. lia. }
    intros _. apply peq_bind; [|intro; apply peq_refl].
    apply (sig_components f cs). lia.
  Qed.

  Theorem emit_signature p p' : signature p = signature p' -> emit_program debug p = emit_program debug p'.
  Proof.
    destruct p as [v i l c], p' as [v' i' l' c']. intro H.
    set (f := 5 + depth_contract (node c) + depth_contract (node c')).
    rewrite (emit_with debug f) by lia. rewrite (emit_with debug f) by lia.
    pose proof (sig_contract f (mkProgram v i l c) ltac:(lia) sr_default) as H1.
    pose proof (sig_contract f (mkProgram v' i' l' c') ltac:(lia) sr_default) as H2.
    cbv beta iota in H1, H2. rewrite H1, H2, H. reflexivity.
  Qed.
End Sig.
