(** What [SrEmitter::emit] returns on a contract whose types are all in the
    fragment covered by [says_type]. *)
From Verif Require Import Chars Lexer Ast Types Visitor Emitter EmitSpec TypeFacts EmitTypes.
Local Open Scope nat_scope.

Definition add_init_params (fs : list field) (c : contract) : contract :=
  mkContract (c_name c) (c_init_params c ++ fs) (c_fields c) (c_transitions c).
Definition add_fields (fs : list field) (c : contract) : contract :=
  mkContract (c_name c) (c_init_params c) (c_fields c ++ fs) (c_transitions c).
Definition add_transitions (ts : list transition) (c : contract) : contract :=
  mkContract (c_name c) (c_init_params c) (c_fields c) (c_transitions c ++ ts).

Fixpoint denote_transitions (l : list (str * list (str * texp))) : option (list transition) :=
  match l with
  | [] => Some []
  | (n, ps) :: r =>
      match denote_list ps, denote_transitions r with
      | Some fs, Some ts => Some (mkTransition n fs :: ts)
      | _, _ => None
      end
  end.

Definition denote_description (d : description) : option contract :=
  match denote_list (d_params d), denote_list (d_fields d), denote_transitions (d_transitions d) with
  | Some ps, Some fs, Some ts => Some (mkContract (d_name d) ps fs ts)
  | _, _, _ => None
  end.

Section Program.
  Context (debug : stack_object -> str).
  Notation E := (sr_emitter debug).
  Notation vis := (visit E).

  Definition pair_decl (p : wm NodeParameterPair) : NodeTypedIdentifier :=
    match node p with mkParameterPair i => node i end.
  Definition pairs_depth (l : list (wm NodeParameterPair)) : nat :=
    list_max (map (fun p => depth_pair (node p)) l).

  Lemma visit_pair' f p nx s : says_decl (pair_decl p) nx -> depth_pair (node p) <= f ->
    vis f (AParameterPair (node p)) s = decl_out (fst nx) (snd nx) s.
  Proof.
    unfold pair_decl. destruct (node p) as [d] eqn:Ep. intros H Hf. eapply visit_pair; [reflexivity|exact H|exact Hf].
  Qed.

  Lemma init_params_out f l xs s : Forall2 says_decl (map pair_decl l) xs -> pairs_depth l <= f ->
    emit_init_params debug (vis f) l s =
    match denote_list xs with
    | Some fs => Ret (Ok tt) (mkst (es_stack s) (add_init_params fs (es_contract s)))
    | None => Panic
    end.
  Proof.
    revert xs s. induction l as [|p l IH]; intros xs s H Hd; inversion H as [|? nx ? xs' Hp Hl]; subst.
    - cbn. destruct s as [st [n ps fs ts]]. unfold add_init_params. cbn. rewrite app_nil_r. reflexivity.
    - apply list_max_cons in Hd. destruct Hd as [Hd1 Hd2]. cbn [emit_init_params]. unfold bind at 1. unfold bind_res at 1.
      rewrite wvisit_eq, (visit_pair' _ _ nx) by assumption. destruct nx as [n x]. cbn [denote_list fst snd].
      unfold decl_out. destruct (denote x) as [ty|]; [|reflexivity].
      rewrite (bind_ok _ _ _ _ _ (pop_decl_pushed _ _ _)).
      unfold bind at 1. unfold bind_res at 1. cbn [upd]. rewrite (IH xs' _ Hl Hd2).
      destruct (denote_list xs') as [fs|]; [|reflexivity]. cbn [es_stack es_contract].
      unfold add_init_params, add_init_param. cbn. rewrite <- app_assoc. reflexivity.
  Qed.

  Lemma visit_pairs_out f l xs s : Forall2 says_decl (map pair_decl l) xs -> pairs_depth l <= f ->
    visit_all E (vis f) AParameterPair l s =
    match denote_list xs with
    | Some fs => Ret (Ok tt) (mkst (rev (map VariableDeclaration fs) ++ es_stack s) (es_contract s))
    | None => Panic
    end.
  Proof.
    revert xs s. induction l as [|p l IH]; intros xs s H Hd; inversion H as [|? nx ? xs' Hp Hl]; subst.
    - cbn. destruct s. reflexivity.
    - apply list_max_cons in Hd. destruct Hd as [Hd1 Hd2]. cbn [visit_all]. unfold bind at 1. unfold bind_res at 1.
      rewrite visit_wm_eq, (visit_pair' _ _ nx) by assumption. destruct nx as [n x]. cbn [denote_list fst snd].
      unfold decl_out. destruct (denote x) as [ty|]; [|reflexivity].
      rewrite (IH xs' _ Hl Hd2). destruct (denote_list xs') as [fs|]; [|reflexivity].
      cbn [es_stack es_contract pushed map rev]. rewrite <- app_assoc. reflexivity.
  Qed.

  Lemma params_out f ps xs s : Forall2 says_decl (param_decls ps) xs -> depth_params ps <= f ->
    vis f (AComponentParameters ps) s =
    match denote_list xs with
    | Some fs => Ret (Ok Continue)
                   (mkst (rev (map VariableDeclaration fs) ++ es_stack s) (add_init_params fs (es_contract s)))
    | None => Panic
    end.
  Proof.
    destruct ps as [l]. cbn [param_decls depth_params]. intros H Hf. destruct f as [|f]; [lia|].
    rewrite visit_S. unfold visit_node.
    assert (He : emit E (vis f) Enter (AComponentParameters (mkComponentParameters l)) s =
      match denote_list xs with
      | Some fs => Ret (Ok Continue) (mkst (es_stack s) (add_init_params fs (es_contract s)))
      | None => Panic
      end).
    { cbn [emit sr_emitter sr_emit]. unfold bind, bind_res.
      rewrite (init_params_out _ _ xs) by (assumption || (unfold pairs_depth; lia)).
      destruct (denote_list xs); reflexivity. }
    unfold standard, bind_res at 1. rewrite He. destruct (denote_list xs) as [fs|] eqn:Ex; [|reflexivity].
    cbn [children]. unfold kcont. unfold bind at 1. unfold bind_res at 1. unfold bind at 1. unfold bind_res at 1.
    rewrite (visit_pairs_out _ _ xs) by (assumption || (unfold pairs_depth; lia)). rewrite Ex. reflexivity.
  Qed.

  Lemma collect_params_out f l xs s : Forall2 says_decl (map pair_decl l) xs -> pairs_depth l <= f ->
    collect_params debug (vis f) l s =
    match denote_list xs with Some fs => Ret (Ok fs) s | None => Panic end.
  Proof.
    revert xs s. induction l as [|p l IH]; intros xs s H Hd; inversion H as [|? nx ? xs' Hp Hl]; subst.
    - reflexivity.
    - apply list_max_cons in Hd. destruct Hd as [Hd1 Hd2]. cbn [collect_params]. unfold bind at 1. unfold bind_res at 1.
      rewrite wvisit_eq, (visit_pair' _ _ nx) by assumption. destruct nx as [n x]. cbn [denote_list fst snd].
      unfold decl_out. destruct (denote x) as [ty|]; [|reflexivity].
      rewrite (bind_ok _ _ _ _ _ (pop_decl_pushed _ _ _)).
      unfold bind at 1. unfold bind_res at 1. rewrite (IH xs' _ Hl Hd2). destruct (denote_list xs'); reflexivity.
  Qed.

  Lemma expr_out f e s : 1 <= f -> vis f (AFullExpression e) s = Ret (Ok Continue) s.
  Proof. intro H. destruct f; [lia|]. reflexivity. Qed.

  Lemma constraint_out f w s : 2 <= f -> vis f (AWithConstraint w) s = Ret (Ok Continue) s.
  Proof.
    intro H. destruct f as [|f]; [lia|]. rewrite visit_S. unfold visit_node, standard. destruct w as [e].
    cbn [emit sr_emitter sr_emit children]. unfold kid_of, bind, bind_res, ret. rewrite visit_wm_eq, expr_out by lia. reflexivity.
  Qed.

  Definition field_decl (f : wm NodeContractField) : NodeTypedIdentifier :=
    match node f with mkContractField i _ => node i end.

  Lemma field_out f (cf : wm NodeContractField) nx s :
    says_decl (field_decl cf) nx -> depth_field (node cf) <= f -> 2 <= f ->
    vis f (AContractField (node cf)) s =
    match denote (snd nx) with
    | Some t => Ret (Ok Continue) (mkst (es_stack s) (add_field (mkField (fst nx) t) (es_contract s)))
    | None => Panic
    end.
  Proof.
    unfold field_decl. destruct (node cf) as [i e]. cbn [depth_field]. intros H Hf Hf2.
    destruct f as [|f]; [lia|]. rewrite visit_S. unfold visit_node.
    assert (He : emit E (vis f) Enter (AContractField (mkContractField i e)) s =
      match denote (snd nx) with
      | Some t => Ret (Ok SkipChildren) (mkst (es_stack s) (add_field (mkField (fst nx) t) (es_contract s)))
      | None => Panic
      end).
    { cbn [emit sr_emitter sr_emit]. unfold bind at 1. unfold bind_res at 1.
      rewrite wvisit_eq, (visit_typed _ _ _ nx) by (assumption || lia). unfold decl_out.
      destruct (denote (snd nx)) as [t|]; [|reflexivity].
      rewrite (bind_ok _ _ _ _ _ (pop_decl_pushed _ _ _)). unfold bind at 1. unfold bind_res at 1.
      rewrite wvisit_eq, expr_out by lia. reflexivity. }
    destruct (denote (snd nx)); [apply standard_skip|apply standard_panic]; exact He.
  Qed.

  Lemma fields_out f fs xs s : Forall2 says_decl (map field_decl fs) xs ->
    list_max (map (fun f => depth_field (node f)) fs) <= f -> 2 <= f ->
    wvisit_all (vis f) AContractField fs s =
    match denote_list xs with
    | Some l => Ret (Ok tt) (mkst (es_stack s) (add_fields l (es_contract s)))
    | None => Panic
    end.
  Proof.
    intros H Hd Hf. revert xs s H. induction fs as [|cf fs IH]; intros xs s H; inversion H as [|? nx ? xs' Hp Hl]; subst.
    - cbn. destruct s as [st [n ps fs ts]]. unfold add_fields. cbn. rewrite app_nil_r. reflexivity.
    - apply list_max_cons in Hd. destruct Hd as [Hd1 Hd2]. cbn [wvisit_all]. unfold bind at 1. unfold bind_res at 1.
      rewrite wvisit_eq, (field_out _ _ nx) by assumption. destruct nx as [n x]. cbn [denote_list fst snd].
      destruct (denote x) as [ty|]; [|reflexivity].
      rewrite (IH Hd2 xs' _ Hl). destruct (denote_list xs') as [l|]; [|reflexivity]. cbn [es_stack es_contract].
      unfold add_fields, add_field. cbn. rewrite <- app_assoc. reflexivity.
  Qed.

  (** transitions of a list of components *)
  Definition component_decls (d : wm NodeComponentDefinition) : list (str * list NodeTypedIdentifier) :=
    match node d with
    | TransitionComponent t =>
        match node t with
        | mkTransitionDefinition n ps _ => [(component_name (node n), param_decls (node ps))]
        end
    | ProcedureComponent _ => []
    end.

  Definition says_transition (t : str * list NodeTypedIdentifier) (dt : str * list (str * texp)) : Prop :=
    fst dt = fst t /\ Forall2 says_decl (snd t) (snd dt).

  Lemma component_id_out f c s : 1 <= f ->
    vis f (AComponentId c) s =
    Ret (Ok Continue) (pushed (IrIdentifier (mkId (component_name c) KComponentName)) s).
  Proof. intro H. destruct f as [|f]; [lia|]. destruct c; reflexivity. Qed.

  Lemma transition_out f n ps b dt s :
    says_transition (component_name (node n), param_decls (node ps)) dt ->
    depth_params (node ps) <= f ->
    vis (S f) (ATransitionDefinition (mkTransitionDefinition n ps b)) s =
    match denote_list (snd dt) with
    | Some l => Ret (Ok Continue) (mkst (es_stack s) (add_transition (mkTransition (fst dt) l) (es_contract s)))
    | None => Panic
    end.
  Proof.
    intros [Hn Hp] Hf. cbn [fst snd] in Hn, Hp. rewrite visit_S. unfold visit_node.
    destruct (node ps) as [l] eqn:Eps. cbn [param_decls depth_params] in *.
    assert (He : emit E (vis f) Enter (ATransitionDefinition (mkTransitionDefinition n ps b)) s =
      match denote_list (snd dt) with
      | Some l => Ret (Ok SkipChildren) (mkst (es_stack s) (add_transition (mkTransition (fst dt) l) (es_contract s)))
      | None => Panic
      end).
    { cbn [emit sr_emitter sr_emit]. unfold bind at 1. unfold bind_res at 1.
      rewrite wvisit_eq, component_id_out by lia. rewrite Eps. unfold bind at 1. unfold bind_res at 1.
      rewrite (collect_params_out _ _ (snd dt)) by (assumption || (unfold pairs_depth; lia)).
      destruct (denote_list (snd dt)) as [fs|]; [|reflexivity].
      rewrite (bind_ok _ _ _ _ _ (pop_ident_pushed _ _ _)). cbn [kind]. rewrite Hn. reflexivity. }
    destruct (denote_list (snd dt)); [apply standard_skip|apply standard_panic]; exact He.
  Qed.

  Lemma components_out f cs xs s : Forall2 says_transition (flat_map component_decls cs) xs ->
    list_max (map (fun c => depth_component (node c)) cs) <= f ->
    wvisit_all (vis f) AComponentDefinition cs s =
    match denote_transitions xs with
    | Some l => Ret (Ok tt) (mkst (es_stack s) (add_transitions l (es_contract s)))
    | None => Panic
    end.
  Proof.
    intros H Hd. revert xs s H. induction cs as [|c cs IH]; intros xs s H.
    - inversion H; subst. cbn. destruct s as [st [n ps fs ts]]. unfold add_transitions. cbn. rewrite app_nil_r. reflexivity.
    - apply list_max_cons in Hd. destruct Hd as [Hd1 Hd2]. cbn [wvisit_all]. unfold bind at 1. unfold bind_res at 1.
      rewrite wvisit_eq. cbn [flat_map] in H. unfold component_decls in H at 1.
      destruct (node c) as [t|p] eqn:Ec.
      + destruct (node t) as [n ps b] eqn:Et. cbn [app] in H. inversion H as [|? dt ? xs' Ht Hl]; subst.
        cbn [depth_component] in Hd1. rewrite Et in Hd1. destruct f as [|[|f]]; [lia|lia|].
        rewrite visit_S. unfold visit_node, standard. cbn [emit sr_emitter sr_emit children].
        unfold kid_of. unfold bind at 1 2. unfold bind_res at 1 2 3. unfold ret at 1. rewrite visit_wm_eq, Et.
        rewrite (transition_out _ _ _ _ dt) by (assumption || lia). destruct dt as [dn dp]. cbn [denote_transitions fst snd] in *.
        destruct (denote_list dp) as [l|]; [|reflexivity]. cbn [ret bind bind_res].
        rewrite (IH Hd2 xs' _ Hl). destruct (denote_transitions xs') as [ts|]; [|reflexivity].
        cbn [es_stack es_contract]. unfold add_transitions, add_transition. cbn. rewrite <- app_assoc. reflexivity.
      + cbn [app] in H. cbn [depth_component] in Hd1. destruct f as [|[|f]]; [lia|lia|].
        rewrite visit_S. unfold visit_node, standard. cbn [emit sr_emitter sr_emit children].
        unfold kid_of. unfold bind at 1 2. unfold bind_res at 1 2 3. unfold ret at 1. rewrite visit_wm_eq.
        rewrite visit_S. unfold visit_node. erewrite standard_skip; [|reflexivity]. cbn [ret bind bind_res].
        apply IH; assumption.
  Qed.

  (** the state right after the contract's name was visited *)
  Definition name_stack (n : NodeTypeNameIdentifier) : list stack_object :=
    match n with
    | EventType => []
    | _ => [IrIdentifier (mkId (type_name_identifier_display n) KUnknown)]
    end.

  Lemma contract_name_out f n s : 2 <= f ->
    vis f (ATypeNameIdentifier n) s = Ret (Ok Continue) (mkst (name_stack n ++ es_stack s) (es_contract s)).
  Proof.
    intro Hf. destruct f as [|[|f]]; [lia|lia|]. destruct s. destruct n as [[b|b]| |t]; reflexivity.
  Qed.

  Theorem emit_described p d :
    described (match p with mkProgram _ _ _ c => node c end) d ->
    emit_program debug p = match denote_description d with Some c => EOk c | None => EPanic end.
  Proof.
    destruct p as [v i l c]. cbn [emit_program]. rewrite visit_wm_eq.
    destruct (node c) as [n ps con fs cs]. intros (Hn & Hp & Hf & Ht).
    cbn [declared_name contract_param_decls field_decls transition_decls] in *.
    change (Forall2 says_decl (map field_decl fs) (d_fields d)) in Hf.
    change (Forall2 says_transition (flat_map component_decls cs) (d_transitions d)) in Ht.
    cbn [depth_contract]. set (g := (3 + depth_params (node ps) + list_max (map (fun f => depth_field (node f)) fs)
      + list_max (map (fun c => depth_component (node c)) cs))%nat).
    change (4 + depth_params (node ps) + list_max (map (fun f => depth_field (node f)) fs)
      + list_max (map (fun c => depth_component (node c)) cs))%nat with (S g).
    rewrite visit_S. unfold visit_node.
    assert (He : exists st, emit E (vis g) Enter (AContractDefinition (mkContractDefinition n ps con fs cs)) sr_default =
      match denote_description d with
      | Some c => Ret (Ok SkipChildren) (mkst st c)
      | None => Panic
      end).
    { cbn [emit sr_emitter sr_emit].
      exists (match denote_list (d_params d) with
              | Some fps => rev (map VariableDeclaration fps) ++ name_stack (node n) ++ []
              | None => []
              end). unfold bind at 1. unfold bind_res at 1.
      rewrite wvisit_eq, contract_name_out by (unfold g; lia).
      unfold bind at 1. unfold bind_res at 1. cbn [upd]. unfold bind at 1. unfold bind_res at 1.
      rewrite wvisit_eq, (params_out _ _ (d_params d)) by (assumption || (unfold g; lia)).
      unfold denote_description. destruct (denote_list (d_params d)) as [fps|]; [|reflexivity].
      unfold bind at 1. unfold bind_res at 1.
      assert (Hcon : forall s, (match con with Some w => wvisit (vis g) AWithConstraint w ;;; ret tt | None => ret tt end) s
        = Ret (Ok tt) s).
      { intro s. destruct con as [w|]; [|reflexivity]. unfold bind, bind_res.
        rewrite wvisit_eq, constraint_out by (unfold g; lia). reflexivity. }
      rewrite Hcon. clear Hcon. unfold bind at 1. unfold bind_res at 1.
      rewrite (fields_out _ _ (d_fields d)) by (assumption || (unfold g; lia)).
      destruct (denote_list (d_fields d)) as [ffs|]; [|reflexivity].
      unfold bind at 1. unfold bind_res at 1.
      rewrite (components_out _ _ (d_transitions d)) by (assumption || (unfold g; lia)).
      destruct (denote_transitions (d_transitions d)) as [ts|]; [|reflexivity].
      cbn. rewrite <- Hn. reflexivity. }
    destruct He as (st & He). destruct (denote_description d) as [r|].
    - erewrite standard_skip by exact He. reflexivity.
    - erewrite standard_panic by exact He. reflexivity.
  Qed.
End Program.

Lemma denote_transitions_iff l ts :
  Forall2 (fun dt t => t_name t = fst dt /\ denote_fields (snd dt) (t_params t)) l ts
  <-> denote_transitions l = Some ts.
Proof.
  split.
  - induction 1 as [|[n ps] [n' fs] l ts [H1 H2] Hl IH]; [reflexivity|]. cbn in *. subst n'.
    apply denote_list_iff in H2. rewrite H2, IH. reflexivity.
  - revert ts. induction l as [|[n ps] l IH]; intros ts H; cbn in H.
    + injection H as <-. constructor.
    + destruct (denote_list ps) as [fs|] eqn:E; [|discriminate]. destruct (denote_transitions l) as [r|]; [|discriminate].
      injection H as <-. constructor; [|auto]. cbn. split; [reflexivity|]. apply denote_list_iff, E.
Qed.

Lemma denote_description_iff d c : description_denotes d c <-> denote_description d = Some c.
Proof.
  unfold description_denotes, denote_description. split.
  - intros (H1 & H2 & H3 & H4). apply denote_list_iff in H2, H3. apply denote_transitions_iff in H4.
    rewrite H2, H3, H4, <- H1. destruct c. reflexivity.
  - destruct (denote_list (d_params d)) as [ps|] eqn:E1; [|discriminate].
    destruct (denote_list (d_fields d)) as [fs|] eqn:E2; [|discriminate].
    destruct (denote_transitions (d_transitions d)) as [ts|] eqn:E3; [|discriminate].
    intro H. injection H as <-. cbn. split; [reflexivity|].
    split; [apply denote_list_iff, E1|]. split; [apply denote_list_iff, E2|]. apply denote_transitions_iff, E3.
Qed.
