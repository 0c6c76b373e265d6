(** What every successful run of the emitter guarantees, whatever the program. *)
From Verif Require Import Chars Lexer Ast Types Visitor Emitter EmitSpec TypeFacts EmitTypes EmitProgram EmitInv EmitErase EmitSig.
Local Open Scope nat_scope.

(** component names on the stack *)
Definition comp (o : stack_object) : list str :=
  match o with
  | IrIdentifier i => match kind i with KComponentName => [unresolved i] | _ => [] end
  | _ => []
  end.
Definition comps (s : sr_state) : list str := flat_map comp (es_stack s).

(** the contract is left alone and no component name is pushed *)
Definition quiet_step (s s' : sr_state) : Prop :=
  es_contract s' = es_contract s /\ exists l, comps s = l ++ comps s'.
Lemma quiet_step_refl s : quiet_step s s.
Proof. split; [reflexivity|]. exists []. reflexivity. Qed.
Lemma quiet_step_trans s1 s2 s3 : quiet_step s1 s2 -> quiet_step s2 s3 -> quiet_step s1 s3.
Proof.
  intros [H1 (l1 & L1)] [H2 (l2 & L2)]. split; [congruence|]. exists (l1 ++ l2). rewrite L1, L2, app_assoc. reflexivity.
Qed.

Definition quiet {A} (m : EM A) : Prop := forall s r s', m s = Ret r s' -> quiet_step s s'.
Lemma quiet_ret {A} (a : A) : quiet (ret a).
Proof. intros s r s' H. injection H as <- <-. apply quiet_step_refl. Qed.
Lemma quiet_raise {A} e : quiet (raise (A:=A) e).
Proof. intros s r s' H. injection H as <- <-. apply quiet_step_refl. Qed.
Lemma quiet_panic {A} : quiet (panic (A:=A)).
Proof. intros s r s' H. discriminate. Qed.
Lemma quiet_bind_res {A B} (m : EM A) (k : result A -> EM B) :
  quiet m -> (forall r, quiet (k r)) -> quiet (bind_res m k).
Proof.
  intros Hm Hk s r s' H. unfold bind_res in H. destruct (m s) as [r1 s1| |] eqn:E1; try discriminate.
  eapply quiet_step_trans; [eapply Hm, E1|eapply Hk, H].
Qed.
Lemma quiet_bind {A B} (m : EM A) (k : A -> EM B) : quiet m -> (forall a, quiet (k a)) -> quiet (bind m k).
Proof. intros Hm Hk. apply quiet_bind_res; [exact Hm|]. intros [a|e]; [apply Hk|apply quiet_raise]. Qed.
Lemma quiet_push o : comp o = [] -> quiet (push o).
Proof.
  intros Ho s r s' H. injection H as <- <-. split; [reflexivity|]. exists []. unfold comps. cbn. rewrite Ho. reflexivity.
Qed.

Definition quiet_kind (n : anynode) : bool :=
  match n with
  | AByteStr _ | ATypeNameIdentifier _ | AMetaIdentifier _ | AVariableIdentifier _ | ATypeMapKey _
  | ATypeMapValue _ | ATypeArgument _ | AScillaType _ | ATypeMapEntry _ | AAddressTypeField _ | AAddressType _
  | ATypedIdentifier _ | ATypeAnnotation _ | AParameterPair _ | ATypeMapValueArguments _
  | ATypeMapValueAllowingTypeArguments _ => true
  | _ => false
  end.

Section Ok.
  Context (debug : stack_object -> str).
  Notation E := (sr_emitter debug).
  Notation vis := (visit E).

  Lemma quiet_pop_type : quiet (pop_type_definition debug).
  Proof.
    intros s r s' H. unfold pop_type_definition in H. destruct s as [st c]. cbn in H.
    destruct st as [|[i|d|t] st]; injection H as <- <-; (split; [reflexivity|]); cbn;
      try (exists []; reflexivity); exists (comp (IrIdentifier i)); reflexivity.
  Qed.
  Lemma quiet_pop_ident : quiet (pop_ir_identifier debug).
  Proof.
    intros s r s' H. unfold pop_ir_identifier in H. destruct s as [st c]. cbn in H.
    destruct st as [|[i|d|t] st]; injection H as <- <-; (split; [reflexivity|]); cbn;
      try (exists []; reflexivity); exists (comp (IrIdentifier i)); reflexivity.
  Qed.
  Lemma quiet_pop_decl : quiet (pop_variable_declaration debug).
  Proof.
    intros s r s' H. unfold pop_variable_declaration in H. destruct s as [st c]. cbn in H.
    destruct st as [|[i|d|t] st]; injection H as <- <-; (split; [reflexivity|]); cbn;
      try (exists []; reflexivity); exists (comp (IrIdentifier i)); reflexivity.
  Qed.
  Lemma quiet_field n t : quiet (field_of n t).
  Proof. unfold field_of. destruct (type_from t); [apply quiet_ret|apply quiet_panic]. Qed.

  Section Level.
    Context (v : anynode -> EM tr) (Hv : forall n, quiet_kind n = true -> quiet (v n)).
    Lemma quiet_wm {A} (inj : A -> anynode) w : (forall x, quiet_kind (inj x) = true) -> quiet (visit_wm E v inj w).
    Proof. intros Hi s r s'. rewrite visit_wm_eq. apply Hv, Hi. Qed.
    Lemma quiet_w {A} (inj : A -> anynode) w : (forall x, quiet_kind (inj x) = true) -> quiet (wvisit v inj w).
    Proof. intros Hi s r s'. rewrite wvisit_eq. apply Hv, Hi. Qed.

    Ltac qt :=
      repeat first
        [ apply quiet_ret | apply quiet_raise | apply quiet_panic | apply quiet_pop_type | apply quiet_pop_ident
        | apply quiet_pop_decl | apply quiet_push; reflexivity | apply quiet_field
        | apply quiet_wm; reflexivity | apply quiet_w; reflexivity
        | apply Hv; reflexivity
        | match goal with |- quiet (bind _ _) => apply quiet_bind; [|intro] end
        | match goal with |- quiet (bind_res _ _) => apply quiet_bind_res; [|intro] end
        | match goal with |- quiet (match ?x with _ => _ end) => destruct x end
        | progress unfold ident_to_type, pops_to_map, kid_of, kcont ].

    Lemma quiet_collect {A} (inj : A -> anynode) l main : (forall x, quiet_kind (inj x) = true) ->
      quiet (collect_sub_types debug v inj l main).
    Proof.
      intro Hi. revert main. induction l as [|a l IH]; intro main; [apply quiet_ret|]. cbn [collect_sub_types].
      apply quiet_bind; [apply quiet_w, Hi|]. intros _. qt. apply IH.
    Qed.
    Lemma quiet_generic {A} (inj : A -> anynode) m l : (forall x, quiet_kind (inj x) = true) ->
      quiet (generic_type debug v inj m l).
    Proof. intro Hi. unfold generic_type. qt. apply quiet_collect, Hi. Qed.
    Lemma quiet_afields l : quiet (collect_address_fields debug v l).
    Proof. induction l as [|a l IH]; [apply quiet_ret|]. cbn [collect_address_fields]. qt. exact IH. Qed.
    Lemma quiet_params l : quiet (collect_params debug v l).
    Proof. induction l as [|a l IH]; [apply quiet_ret|]. cbn [collect_params]. qt. exact IH. Qed.
    Lemma quiet_all {A} (inj : A -> anynode) l : (forall x, quiet_kind (inj x) = true) -> quiet (visit_all E v inj l).
    Proof.
      intro Hi. induction l as [|a l IH]; [apply quiet_ret|]. cbn [visit_all].
      apply quiet_bind; [apply quiet_wm, Hi|]. intros _. exact IH.
    Qed.
    Lemma quiet_args {A} (inj : A -> anynode) l : (forall x, quiet_kind (inj x) = true) -> quiet (visit_args E v inj l).
    Proof.
      intro Hi. induction l as [|a l IH]; [apply quiet_ret|]. cbn [visit_args].
      apply quiet_bind; [apply quiet_wm, Hi|]. intros []; [exact IH|apply quiet_ret].
    Qed.

    Lemma quiet_children n : quiet_kind n = true -> quiet (children E v n).
    Proof.
      destruct n as [n|n|n|n|n|n|n|n|n|n|n|n|n|n|n|n|n|n|n|n|n|n|n|n|n|n|n|n|n|n|n|n|n|n|n|n|n|n|n|n|n|n|n|n|n|n];
        try discriminate; intros _; destruct n; cbn [children];
        repeat first [apply quiet_all; reflexivity | apply quiet_args; reflexivity | progress qt].
    Qed.
    Lemma quiet_emit m n : quiet_kind n = true -> quiet (sr_emit debug v m n).
    Proof.
      destruct n as [n|n|n|n|n|n|n|n|n|n|n|n|n|n|n|n|n|n|n|n|n|n|n|n|n|n|n|n|n|n|n|n|n|n|n|n|n|n|n|n|n|n|n|n|n|n];
        try discriminate; intros _; destruct n; cbn [sr_emit];
        repeat first [apply quiet_generic; reflexivity | apply quiet_afields | progress qt].
    Qed.
    Lemma quiet_node n : quiet_kind n = true -> quiet (visit_node E v n).
    Proof.
      intro Hn. pose proof (quiet_children n Hn) as Hch.
      assert (He : forall m, quiet (emit E v m n)) by (intro m; apply quiet_emit, Hn).
      destruct n; try discriminate Hn; cbn [visit_node]; unfold standard;
        (apply quiet_bind_res; [apply He|]; intro r; apply quiet_bind;
         [destruct r as [[]|]; try exact Hch; first [apply quiet_ret|apply quiet_raise]
         |intros [[]|]; [apply He| |]; apply quiet_ret]).
    Qed.
  End Level.

  Lemma quiet_visit f n : quiet_kind n = true -> quiet (vis f n).
  Proof.
    revert n. induction f as [|f IH]; intros n Hn; [intros s r s' H; discriminate|].
    rewrite visit_S. apply quiet_node; assumption.
  Qed.

  (** ** A declaration that is visited with success is on the top of the stack *)

  (** the field a declaration ends up as *)
  Definition decl_ok (d : NodeTypedIdentifier) (f : field) : Prop :=
    field_name f = typed_name d /\ forall x, says_type (typed_type d) x -> denotes x (field_type f).

  Lemma typed_ok f d s r s' : vis f (ATypedIdentifier d) s = Ret (Ok r) s' ->
    exists fl st, es_stack s' = VariableDeclaration fl :: st /\ decl_ok d fl /\ quiet_step s s'.
  Proof.
    intro H. pose proof (quiet_visit f (ATypedIdentifier d) eq_refl _ _ _ H) as Hq.
    destruct f as [|f]; [discriminate|]. pose proof H as H0.
    rewrite visit_S in H. destruct d as [n a]. unfold visit_node, standard in H. unfold bind_res at 1 in H.
    destruct (emit E (vis f) Enter (ATypedIdentifier (mkTypedIdentifier n a)) s) as [[t|m] s1| |] eqn:Ee; try discriminate.
    cbn [emit sr_emitter sr_emit] in Ee.
    apply bind_inv in Ee. destruct Ee as (t1 & s2 & _ & Ee).
    apply bind_inv in Ee. destruct Ee as (ty & s3 & _ & Ee).
    apply bind_inv in Ee. destruct Ee as (fl & s4 & Ef & Ee).
    unfold field_of in Ef. destruct (type_from ty) as [ft|] eqn:Et; [|discriminate]. injection Ef as <- <-.
    apply bind_inv in Ee. destruct Ee as (u & s5 & Ep & Ee). injection Ep as _ <-. injection Ee as <- <-.
    injection H as _ <-. exists (mkField (node n) ft), (es_stack s3). split; [reflexivity|]. split; [|exact Hq].
    split; [reflexivity|]. intros x Hx.
    (* with enough fuel the visit is determined by [x] *)
    set (g := Nat.max (S f) (depth_typed (mkTypedIdentifier n a))).
    destruct (visit_mono debug (S f) g (ATypedIdentifier (mkTypedIdentifier n a)) ltac:(lia) s) as [Hf|Hf];
      [rewrite Hf in H0; discriminate|].
    rewrite Hf in H0. rewrite (visit_typed debug g _ (node n, x)) in H0; [|split; [reflexivity|exact Hx]|lia].
    unfold decl_out in H0. cbn [fst snd] in H0. apply denote_iff. destruct (denote x) as [ty'|]; [|discriminate].
    unfold pushed in H0. injection H0 as _ H0. cbn. rewrite H0. reflexivity.
  Qed.

  Lemma pair_ok f p s r s' : vis f (AParameterPair p) s = Ret (Ok r) s' ->
    exists fl st, es_stack s' = VariableDeclaration fl :: st
      /\ decl_ok (match p with mkParameterPair i => node i end) fl /\ quiet_step s s'.
  Proof.
    intro H. destruct f as [|f]; [discriminate|]. rewrite visit_S in H. destruct p as [i].
    unfold visit_node, standard in H. cbn [emit sr_emitter sr_emit children] in H.
    unfold kid_of in H. unfold bind_res at 1 in H. cbn [ret] in H.
    apply bind_inv in H. destruct H as (k & s1 & H1 & H2). apply bind_inv in H1. destruct H1 as (t & s2 & H1 & H3).
    injection H3 as <- <-. rewrite visit_wm_eq in H1. apply typed_ok in H1.
    assert (s' = s2) as ->. { destruct t; injection H2; auto. }
    exact H1.
  Qed.

  Lemma pop_decl_ok fl st s r s' : es_stack s = VariableDeclaration fl :: st ->
    pop_variable_declaration debug s = Ret (Ok r) s' -> r = fl /\ es_stack s' = st /\ es_contract s' = es_contract s.
  Proof.
    intros Hs H. unfold pop_variable_declaration in H. rewrite Hs in H. injection H as <- <-. auto.
  Qed.

  Lemma init_ok f l : forall s u s', emit_init_params debug (vis f) l s = Ret (Ok u) s' ->
    exists fs, Forall2 decl_ok (map (fun p => match node p with mkParameterPair i => node i end) l) fs
      /\ es_contract s' = add_init_params fs (es_contract s) /\ (exists l0, comps s = l0 ++ comps s').
  Proof.
    induction l as [|p l IH]; intros s u s' H.
    - injection H as _ <-. exists []. split; [constructor|]. split; [|exists []; reflexivity].
      destruct (es_contract s). unfold add_init_params. cbn. rewrite app_nil_r. reflexivity.
    - cbn [emit_init_params] in H. apply bind_inv in H. destruct H as (t & s1 & H1 & H). rewrite wvisit_eq in H1.
      destruct (pair_ok _ _ _ _ _ H1) as (fl & st & Hst & Hd & Hq).
      apply bind_inv in H. destruct H as (fl' & s2 & H2 & H). destruct (pop_decl_ok _ _ _ _ _ Hst H2) as (-> & Hst2 & Hc2).
      apply bind_inv in H. destruct H as (u' & s3 & H3 & H). injection H3 as _ <-.
      destruct (IH _ _ _ H) as (fs & Hfs & Hc & (l1 & Hl1)). exists (fl :: fs).
      split; [constructor; assumption|]. split.
      + rewrite Hc. cbn [es_contract]. rewrite Hc2, (proj1 Hq). unfold add_init_params, add_init_param. cbn.
        rewrite <- app_assoc. reflexivity.
      + destruct (quiet_step_trans _ _ _ Hq (quiet_pop_decl _ _ _ H2)) as [_ (l0 & Hl0)].
        exists (l0 ++ l1). rewrite Hl0, <- app_assoc, <- Hl1. reflexivity.
  Qed.

  Lemma params_ok f ps s u s' : vis f (AComponentParameters ps) s = Ret (Ok u) s' ->
    exists fs, Forall2 decl_ok (param_decls ps) fs
      /\ es_contract s' = add_init_params fs (es_contract s) /\ (exists l0, comps s = l0 ++ comps s').
  Proof.
    intro H. destruct f as [|f]; [discriminate|]. rewrite visit_S in H. destruct ps as [l].
    unfold visit_node, standard in H. unfold bind_res at 1 in H.
    destruct (emit E (vis f) Enter (AComponentParameters (mkComponentParameters l)) s) as [[t|m] s1| |] eqn:Ee; try discriminate.
    cbn [emit sr_emitter sr_emit] in Ee. apply bind_inv in Ee. destruct Ee as (u1 & s2 & Ee & Er). injection Er as <- <-.
    apply init_ok in Ee. destruct Ee as (fs & Hfs & Hc & (l0 & Hl0)). exists fs. split; [exact Hfs|].
    apply bind_inv in H. destruct H as (k & s3 & H1 & H2). cbn [children] in H1.
    assert (Hq : quiet_step s2 s3).
    { revert H1. apply quiet_bind; [|intro; apply quiet_ret]. apply quiet_all; [|reflexivity]. apply quiet_visit. }
    assert (quiet_step s3 s') as Hq'.
    { destruct k as [[]|]; [|eapply quiet_ret, H2|eapply quiet_ret, H2].
      cbn [emit sr_emitter sr_emit] in H2. injection H2 as _ <-. apply quiet_step_refl. }
    destruct (quiet_step_trans _ _ _ Hq Hq') as [Hc' (l1 & Hl1)]. split; [congruence|].
    exists (l0 ++ l1). rewrite Hl0, Hl1, app_assoc. reflexivity.
  Qed.

  Lemma field_ok f cf s r s' : 2 <= f -> vis f (AContractField cf) s = Ret (Ok r) s' ->
    exists fl, decl_ok (match cf with mkContractField i _ => node i end) fl
      /\ es_contract s' = add_field fl (es_contract s) /\ (exists l0, comps s = l0 ++ comps s').
  Proof.
    intros Hf H. destruct f as [|f]; [lia|]. rewrite visit_S in H. destruct cf as [i e].
    unfold visit_node, standard in H. unfold bind_res at 1 in H.
    destruct (emit E (vis f) Enter (AContractField (mkContractField i e)) s) as [[t|m] s1| |] eqn:Ee; try discriminate.
    cbn [emit sr_emitter sr_emit] in Ee.
    apply bind_inv in Ee. destruct Ee as (t1 & s2 & E1 & Ee). rewrite wvisit_eq in E1.
    destruct (typed_ok _ _ _ _ _ E1) as (fl & st & Hst & Hd & Hq).
    apply bind_inv in Ee. destruct Ee as (fl' & s3 & E2 & Ee). destruct (pop_decl_ok _ _ _ _ _ Hst E2) as (-> & Hst2 & Hc2).
    apply bind_inv in Ee. destruct Ee as (t2 & s4 & E3 & Ee). rewrite wvisit_eq, expr_out in E3 by lia. injection E3 as _ <-.
    apply bind_inv in Ee. destruct Ee as (u & s5 & E4 & Ee). injection E4 as _ <-. injection Ee as <- <-.
    injection H as _ <-. exists fl. split; [exact Hd|]. cbn [es_contract]. rewrite Hc2, (proj1 Hq). split; [reflexivity|].
    exact (proj2 (quiet_step_trans _ _ _ Hq (quiet_pop_decl _ _ _ E2))).
  Qed.

  Lemma fields_ok f l : 2 <= f -> forall s r s', wvisit_all (vis f) AContractField l s = Ret (Ok r) s' ->
    exists fs, Forall2 decl_ok (map (fun c => match node c with mkContractField i _ => node i end) l) fs
      /\ es_contract s' = add_fields fs (es_contract s) /\ (exists l0, comps s = l0 ++ comps s').
  Proof.
    intro Hf. induction l as [|cf l IH]; intros s r s' H.
    - injection H as _ <-. exists []. split; [constructor|]. split; [|exists []; reflexivity].
      destruct (es_contract s). unfold add_fields. cbn. rewrite app_nil_r. reflexivity.
    - cbn [wvisit_all] in H. apply bind_inv in H. destruct H as (t & s1 & H1 & H). rewrite wvisit_eq in H1.
      destruct (field_ok _ _ _ _ _ Hf H1) as (fl & Hd & Hc & (l0 & Hl0)).
      destruct (IH _ _ _ H) as (fs & Hfs & Hc' & (l1 & Hl1)). exists (fl :: fs).
      split; [constructor; assumption|]. split; [|exists (l0 ++ l1); rewrite Hl0, Hl1, app_assoc; reflexivity].
      rewrite Hc', Hc. unfold add_fields, add_field. cbn. rewrite <- app_assoc. reflexivity.
  Qed.

  Lemma collect_ok f l : forall s fs s', collect_params debug (vis f) l s = Ret (Ok fs) s' ->
    Forall2 decl_ok (map (fun p => match node p with mkParameterPair i => node i end) l) fs /\ quiet_step s s'.
  Proof.
    induction l as [|p l IH]; intros s fs s' H.
    - injection H as <- <-. split; [constructor|apply quiet_step_refl].
    - cbn [collect_params] in H. apply bind_inv in H. destruct H as (t & s1 & H1 & H). rewrite wvisit_eq in H1.
      destruct (pair_ok _ _ _ _ _ H1) as (fl & st & Hst & Hd & Hq).
      apply bind_inv in H. destruct H as (fl' & s2 & H2 & H). destruct (pop_decl_ok _ _ _ _ _ Hst H2) as (-> & Hst2 & Hc2).
      apply bind_inv in H. destruct H as (fs' & s3 & H3 & H). injection H as <- <-.
      destruct (IH _ _ _ H3) as [Hfs Hq3]. split; [constructor; assumption|].
      eapply quiet_step_trans; [|exact Hq3]. eapply quiet_step_trans; [exact Hq|eapply quiet_pop_decl, H2].
  Qed.

  Definition trans_ok (d : str * list NodeTypedIdentifier) (t : transition) : Prop :=
    t_name t = fst d /\ Forall2 decl_ok (snd d) (t_params t).

  Lemma transition_ok f n ps b s r s' : 1 <= f -> comps s = [] ->
    vis (S f) (ATransitionDefinition (mkTransitionDefinition n ps b)) s = Ret (Ok r) s' ->
    exists t, trans_ok (component_name (node n), param_decls (node ps)) t
      /\ es_contract s' = add_transition t (es_contract s) /\ comps s' = [].
  Proof.
    intros Hf Hs H. rewrite trans_enter in H.
    destruct (emit E (vis f) Enter (ATransitionDefinition (mkTransitionDefinition n ps b)) s) as [[t|m] s1| |] eqn:Ee; try discriminate.
    injection H as _ <-. cbn [emit sr_emitter sr_emit] in Ee.
    apply bind_inv in Ee. destruct Ee as (t1 & s2 & E1 & Ee). rewrite wvisit_eq, component_id_out in E1 by lia. injection E1 as _ <-.
    apply bind_inv in Ee. destruct Ee as (fs & s3 & E2 & Ee). apply collect_ok in E2. destruct E2 as (Hfs & Hc2 & (l0 & Hl0)).
    apply bind_inv in Ee. destruct Ee as (i & s4 & E3 & Ee).
    destruct (kind i) eqn:Ek; try discriminate. apply bind_inv in Ee. destruct Ee as (u & s5 & E4 & Ee).
    injection E4 as _ <-. injection Ee as _ <-. exists (mkTransition (unresolved i) fs).
    unfold pop_ir_identifier in E3. destruct s3 as [st c3]. cbn [es_stack es_contract] in *.
    destruct st as [|[i0|d0|t0] st]; try discriminate. injection E3 as -> <-.
    unfold comps in Hl0. cbn [es_stack pushed flat_map comp kind unresolved] in Hl0. unfold comps in Hs. rewrite Hs in Hl0.
    rewrite Ek in Hl0. cbn [app] in Hl0.
    assert (l0 = []) as ->. { destruct l0 as [|x [|y l0]]; [reflexivity|discriminate|discriminate]. }
    cbn [app] in Hl0. injection Hl0 as Hn Hrest. split; [|split].
    - split; [symmetry; exact Hn|]. cbn [snd t_params]. unfold param_decls. destruct (node ps). exact Hfs.
    - cbn. rewrite Hc2. reflexivity.
    - unfold comps. cbn. symmetry. exact Hrest.
  Qed.

  Lemma components_ok f l : 3 <= f -> forall s r s', comps s = [] ->
    wvisit_all (vis f) AComponentDefinition l s = Ret (Ok r) s' ->
    exists ts, Forall2 trans_ok (flat_map component_decls l) ts
      /\ es_contract s' = add_transitions ts (es_contract s).
  Proof.
    intro Hf. induction l as [|c l IH]; intros s r s' Hs H.
    - injection H as _ <-. exists []. split; [constructor|]. destruct (es_contract s). unfold add_transitions. cbn. rewrite app_nil_r. reflexivity.
    - cbn [wvisit_all] in H. apply bind_inv in H. destruct H as (t & s1 & H1 & H). rewrite wvisit_eq in H1.
      destruct f as [|[|f]]; [lia|lia|]. rewrite visit_S in H1. cbn [flat_map]. unfold component_decls at 1.
      destruct (node c) as [tr|p].
      + unfold visit_node, standard in H1. cbn [emit sr_emitter sr_emit children] in H1. unfold kid_of in H1.
        unfold bind_res at 1 in H1. cbn [ret] in H1.
        apply bind_inv in H1. destruct H1 as (k & s2 & H1 & H2). apply bind_inv in H1. destruct H1 as (r1 & s3 & H1 & H3).
        injection H3 as <- <-. assert (s1 = s3) as -> by (destruct r1; injection H2; auto).
        rewrite visit_wm_eq in H1. destruct (node tr) as [n ps b].
        apply transition_ok in H1; [|lia|exact Hs]. destruct H1 as (t0 & Ht & Hc & Hs3).
        destruct (IH _ _ _ Hs3 H) as (ts & Hts & Hc'). exists (t0 :: ts). split; [constructor; assumption|].
        rewrite Hc', Hc. unfold add_transitions, add_transition. cbn. rewrite <- app_assoc. reflexivity.
      + assert (s1 = s) as ->.
        { unfold visit_node, standard in H1. cbn [emit sr_emitter sr_emit children] in H1. unfold kid_of in H1.
          unfold bind_res at 1 in H1. cbn [ret] in H1.
          apply bind_inv in H1. destruct H1 as (k & s2 & H1 & H2). apply bind_inv in H1. destruct H1 as (r1 & s3 & H1 & H3).
          injection H3 as <- <-. rewrite visit_wm_eq, visit_S in H1. unfold visit_node in H1.
          erewrite standard_skip in H1 by reflexivity. injection H1 as <- <-. injection H2; auto. }
        apply (IH _ _ _ Hs H).
  Qed.

  Theorem emit_ok p c : emit_program debug p = EOk c ->
    let d := match p with mkProgram _ _ _ d => node d end in
    c_name c = declared_name d
    /\ Forall2 decl_ok (contract_param_decls d) (c_init_params c)
    /\ Forall2 decl_ok (field_decls d) (c_fields c)
    /\ Forall2 trans_ok (transition_decls d) (c_transitions c).
  Proof.
    destruct p as [v i l cd]. intro H. set (f := 4 + depth_contract (node cd)).
    rewrite (emit_with debug (S f)) in H by lia. rewrite contract_enter in H.
    destruct (emit E (vis f) Enter (AContractDefinition (node cd)) sr_default) as [[t|m] s| |] eqn:Ee; try discriminate.
    injection H as <-. cbv zeta beta iota. destruct (node cd) as [n ps con fs cs]. cbn [emit sr_emitter sr_emit] in Ee.
    apply bind_inv in Ee. destruct Ee as (t1 & s1 & E1 & Ee). rewrite wvisit_eq, contract_name_out in E1 by lia. injection E1 as _ <-.
    apply bind_inv in Ee. destruct Ee as (u1 & s2 & E2 & Ee). injection E2 as _ <-.
    apply bind_inv in Ee. destruct Ee as (t3 & s3 & E3 & Ee). rewrite wvisit_eq in E3. apply params_ok in E3.
    destruct E3 as (pf & Hpf & Hc3 & (l3 & Hl3)).
    apply bind_inv in Ee. destruct Ee as (t4 & s4 & E4 & Ee).
    assert (s4 = s3) as ->.
    { destruct con as [w|]; [|injection E4; auto]. apply bind_inv in E4. destruct E4 as (t5 & s5 & E5 & E4).
      rewrite wvisit_eq, constraint_out in E5 by lia. injection E5 as _ <-. injection E4; auto. }
    apply bind_inv in Ee. destruct Ee as (t6 & s6 & E6 & Ee). apply fields_ok in E6; [|lia].
    destruct E6 as (ff & Hff & Hc6 & (l6 & Hl6)).
    apply bind_inv in Ee. destruct Ee as (t7 & s7 & E7 & Ee). injection Ee as _ <-.
    assert (Hs6 : comps s6 = []).
    { assert (H0 : flat_map comp (name_stack (node n) ++ es_stack sr_default) = []) by (destruct (node n); reflexivity).
      unfold comps in Hl3 at 1. cbn [es_stack es_contract] in Hl3.
      change (flat_map comp (name_stack (node n) ++ es_stack sr_default) = l3 ++ comps s3) in Hl3. rewrite H0 in Hl3. symmetry in Hl3. apply app_eq_nil in Hl3. destruct Hl3 as [_ Hl3].
      rewrite Hl3 in Hl6. symmetry in Hl6. apply app_eq_nil in Hl6. apply Hl6. }
    destruct (components_ok f cs ltac:(lia) _ _ _ Hs6 E7) as (ts & Hts & Hc7).
    rewrite Hc7, Hc6, Hc3. cbn. auto.
  Qed.
End Ok.
