(** What a component adds to the contract does not depend on what comes before
    it, if it is accepted anywhere. *)
From Verif Require Import Chars Lexer Ast Types Visitor Emitter EmitSpec TypeFacts EmitTypes EmitProgram EmitInv EmitErase EmitSig EmitOk EmitSteps.
Local Open Scope nat_scope.

(** Not the name of a component. *)
Definition unnamed (o : stack_object) : Prop :=
  match o with IrIdentifier i => kind i <> KComponentName | _ => True end.
Notation clean := (Forall unnamed).

(** [m] works on the top of the stack.  Started on [pre ++ low] it leaves
    [pre' ++ low2] where [low2] is what it did not touch of [low]; if it did not
    touch [low] at all, then it does the same above any other stack. *)
Definition local {A} (m : EM A) : Prop := forall pre low c r s',
  m (mkst (pre ++ low) c) = Ret r s' ->
  exists pre' low1 low2, low = low1 ++ low2 /\ s' = mkst (pre' ++ low2) c /\ (clean pre -> clean pre') /\
    (low1 = [] -> low <> [] -> forall low' c', low' <> [] -> m (mkst (pre ++ low') c') = Ret r (mkst (pre' ++ low') c')).

Lemma local_of {A} (r : result A) : local (of_result r).
Proof. intros pre low c r' s' [= <- <-]. exists pre, [], low. repeat split; auto. Qed.
Lemma local_ret {A} (a : A) : local (ret a).
Proof. exact (local_of (Ok a)). Qed.
Lemma local_raise {A} e : local (@raise sr_state A e).
Proof. exact (local_of (Err e)). Qed.
Lemma local_panic {A} : local (@panic sr_state A).
Proof. intros pre low c r s' H. discriminate. Qed.
Lemma local_bind_res {A B} (m : EM A) (k : result A -> EM B) : local m -> (forall r, local (k r)) -> local (bind_res m k).
Proof.
  intros Hm Hk pre low c r s' H. unfold bind_res in *. destruct (m (mkst (pre ++ low) c)) as [r1 s1| |] eqn:E; try discriminate.
  destruct (Hm _ _ _ _ _ E) as (pre1 & l1 & l2 & -> & -> & C1 & F1).
  destruct (Hk r1 _ _ _ _ _ H) as (pre2 & l3 & l4 & -> & -> & C2 & F2).
  exists pre2, (l1 ++ l3), l4. rewrite app_assoc. repeat split; auto.
  intros Hn Hl low' c' Hl'. apply app_eq_nil in Hn. destruct Hn as [-> ->]. cbn [app] in *.
  rewrite (F1 eq_refl Hl low' c' Hl'). apply (F2 eq_refl Hl low' c' Hl').
Qed.
Lemma local_bind {A B} (m : EM A) (k : A -> EM B) : local m -> (forall a, local (k a)) -> local (bind m k).
Proof. intros Hm Hk. apply local_bind_res; [exact Hm|]. intros [a|e]; [apply Hk|apply local_raise]. Qed.
Lemma local_push o : unnamed o -> local (push o).
Proof.
  intros Ho pre low c r s' H. injection H as <- <-. exists (o :: pre), [], low. repeat split; auto.
Qed.

Section Local.
  Context (debug : stack_object -> str).
  Notation E := (sr_emitter debug).

  Ltac pops :=
    intros pre low c r s' H; destruct pre as [|o pre];
    [ destruct low as [|o low];
      [ cbn in H; injection H as <- <-; exists [], [], []; repeat split; auto; congruence
      | exists [], [o], low; cbn in H; destruct o; injection H as <- <-; repeat split; auto; discriminate ]
    | exists pre, [], low; cbn in H; destruct o; injection H as <- <-; repeat split; auto; inversion 1; assumption ].
  Lemma local_pop_id : local (pop_ir_identifier debug).
  Proof. pops. Qed.
  Lemma local_pop_decl : local (pop_variable_declaration debug).
  Proof. pops. Qed.
  Lemma local_pop_type : local (pop_type_definition debug).
  Proof. pops. Qed.
  Lemma local_ident_to_type : local (ident_to_type debug).
  Proof. apply local_bind; [apply local_pop_id|]. intro i. apply local_push. exact I. Qed.
  Lemma local_pops_to_map : local (pops_to_map debug).
  Proof.
    apply local_bind; [apply local_pop_type|]. intro v. apply local_bind; [apply local_pop_type|]. intro k.
    apply local_push. exact I.
  Qed.
  Lemma local_field_of n t : local (field_of n t).
  Proof. unfold field_of. destruct (type_from t); [apply local_ret|apply local_panic]. Qed.

  (** The nodes a type consists of. *)
  Definition of_type (n : anynode) : Prop :=
    match n with
    | AByteStr _ | ATypeNameIdentifier _ | AMetaIdentifier _ | ATypeMapKey _ | ATypeMapValue _ | ATypeArgument _
    | AScillaType _ | ATypeMapEntry _ | AAddressTypeField _ | AAddressType _ | AVariableIdentifier _
    | ATypeMapValueArguments _ | ATypeMapValueAllowingTypeArguments _ => True
    | _ => False
    end.

  Section Nodes.
    Context (v : anynode -> EM tr) (Hv : forall n, of_type n -> local (v n)).
    Lemma local_same {A} (m m' : EM A) : (forall s, m s = m' s) -> local m' -> local m.
    Proof.
      intros He Hm pre low c r s' H. rewrite He in H. destruct (Hm _ _ _ _ _ H) as (pre' & l1 & l2 & H1 & H2 & H3 & H4).
      exists pre', l1, l2. repeat split; auto. intros. rewrite He. auto.
    Qed.
    Section Kind.
      Context {A : Type} (inj : A -> anynode) (Hi : forall x, of_type (inj x)).
      Lemma local_visit_wm w : local (visit_wm E v inj w).
      Proof. apply (local_same _ (v (inj (node w)))); [intro; apply visit_wm_eq|]. apply Hv, Hi. Qed.
      Lemma local_wvisit w : local (wvisit v inj w).
      Proof. apply (local_same _ (v (inj (node w)))); [intro; apply wvisit_eq|]. apply Hv, Hi. Qed.
      Lemma local_visit_all l : local (visit_all E v inj l).
      Proof. induction l as [|w l IH]; [apply local_ret|]. apply local_bind; [apply local_visit_wm|]. intros _. exact IH. Qed.
      Lemma local_visit_args l : local (visit_args E v inj l).
      Proof.
        induction l as [|w l IH]; [apply local_ret|]. apply local_bind; [apply local_visit_wm|].
        intros []; [exact IH|apply local_ret].
      Qed.
      Lemma local_collect l main : local (collect_sub_types debug v inj l main).
      Proof.
        revert main. induction l as [|a l IH]; intro main; [apply local_ret|]. cbn [collect_sub_types].
        apply local_bind; [apply local_wvisit|]. intros _. apply local_bind; [apply local_pop_type|]. intro. apply IH.
      Qed.
      Lemma local_generic m l : local (generic_type debug v inj m l).
      Proof.
        unfold generic_type. apply local_bind.
        { apply (local_same _ (v (AMetaIdentifier (node m)))); [intro; apply wvisit_eq|]. apply Hv. exact I. }
        intros _. apply local_bind; [apply local_ident_to_type|]. intros _. destruct l as [|a l]; [apply local_ret|].
        apply local_bind; [apply local_pop_type|]. intro. apply local_bind; [apply local_collect|]. intro.
        apply local_push. exact I.
      Qed.
    End Kind.

    Ltac lc :=
      repeat first
        [ apply local_ret | apply local_raise | apply local_panic | apply Hv; exact I
        | apply local_visit_wm; intro; exact I | apply local_wvisit; intro; exact I
        | apply local_visit_all; intro; exact I | apply local_visit_args; intro; exact I
        | apply local_generic; intro; exact I
        | apply local_ident_to_type | apply local_pops_to_map | apply local_pop_type | apply local_pop_decl | apply local_pop_id
        | apply local_field_of
        | apply local_push; first [exact I | discriminate]
        | match goal with |- local (bind _ _) => apply local_bind; [|intro] end
        | match goal with |- local (bind_res _ _) => apply local_bind_res; [|intro] end
        | match goal with |- local (match ?x with _ => _ end) => destruct x end
        | progress unfold kid_of, kcont ].

    Lemma local_fields l : local (collect_address_fields debug v l).
    Proof. induction l as [|a l IH]; [apply local_ret|]. cbn [collect_address_fields]. lc. exact IH. Qed.

    Lemma local_emit m n : of_type n -> local (sr_emit debug v m n).
    Proof.
      destruct n; try contradiction; intros _; destruct n; cbn [sr_emit]; lc; try (apply local_fields).
    Qed.
    Lemma local_children n : of_type n -> local (children E v n).
    Proof. destruct n; try contradiction; intros _; destruct n; cbn [children]; lc. Qed.
    Lemma local_node n : of_type n -> local (visit_node E v n).
    Proof.
      intro Hn. pose proof (fun m => local_emit m n Hn) as He. pose proof (local_children n Hn) as Hc.
      change (forall m, local (emit E v m n)) in He.
      assert (Hs : local (standard (fun m => emit E v m n) (children E v n))).
      { unfold standard. apply local_bind_res; [apply He|]. intro x. apply local_bind.
        - destruct x as [[]|]; [exact Hc| |]; lc; apply local_of.
        - intros [[]|]; [apply He| |]; lc. }
      destruct n; try contradiction; try exact Hs. unfold visit_node.
      apply local_bind_res; [apply He|]. intro x. apply local_bind.
      - destruct x as [[]|]; [exact Hc| |]; lc.
      - intros [[]|]; [apply He| |]; lc.
    Qed.
  End Nodes.

  Lemma local_visit f n : of_type n -> local (visit E f n).
  Proof.
    revert n. induction f as [|f IH]; intros n Hn; [intros pre low c r s' H; discriminate|]. apply (local_node _ IH), Hn.
  Qed.

  Lemma local_decl d : local (decl debug d).
  Proof.
    unfold decl. apply local_bind; [apply local_visit; exact I|]. intros _. apply local_bind; [apply local_pop_type|].
    intro. apply local_field_of.
  Qed.
  Lemma local_decls ds : local (decls debug ds).
  Proof.
    induction ds as [|d ds IH]; [apply local_ret|]. cbn [decls]. apply local_bind; [apply local_decl|]. intro.
    apply local_bind; [exact IH|]. intro. apply local_ret.
  Qed.
End Local.

(** ** Components *)
Definition plus (c : contract) (ts : list transition) : contract :=
  mkContract (c_name c) (c_init_params c) (c_fields c) (c_transitions c ++ ts).
Lemma plus_nil c : plus c [] = c.
Proof. destruct c. unfold plus. cbn. rewrite app_nil_r. reflexivity. Qed.
Lemma plus_plus c ts us : plus (plus c ts) us = plus c (ts ++ us).
Proof. destruct c. unfold plus. cbn. rewrite app_assoc. reflexivity. Qed.

Section Comps.
  Context (debug : stack_object -> str).

  (** A transition, treated on a stack without component names. *)
  Lemma step_transition_local t base c s' : clean base ->
    step_transition debug t (mkst base c) = Ret (Ok tt) s' ->
    exists fs, s' = mkst base (plus c [mkTransition (fst t) fs]) /\
      forall base' c', step_transition debug t (mkst base' c') = Ret (Ok tt) (mkst base' (plus c' [mkTransition (fst t) fs])).
  Proof.
    intros Hb H. unfold step_transition, push, upd in *. unfold bind, bind_res in *. cbn beta in *. cbn [es_stack es_contract] in *.
    set (K := IrIdentifier (mkId (fst t) KComponentName)) in *.
    destruct (decls debug (snd t) (mkst (K :: base) c)) as [r s1| |] eqn:E; try discriminate.
    change (K :: base) with ([] ++ K :: base) in E.
    destruct (local_decls debug (snd t) [] (K :: base) c r s1 E) as (pre & l1 & l2 & El & -> & Hc & Hf).
    destruct r as [fs|e]; [|discriminate]. specialize (Hc (Forall_nil _)).
    destruct l1 as [|k l1].
    - cbn [app] in El. subst l2. destruct pre as [|o pre].
      + cbn in H. injection H as <-. exists fs. split; [reflexivity|]. intros base' c'.
        specialize (Hf eq_refl ltac:(discriminate) (K :: base') c' ltac:(discriminate)). cbn [app] in Hf. rewrite Hf. reflexivity.
      + exfalso. inversion Hc as [|? ? Ho Hp]; subst. cbn in H. destruct o as [i| | ]; try discriminate. cbn in Ho.
        destruct (kind i); try discriminate. congruence.
    - exfalso. cbn [app] in El. injection El as <- El.
      assert (Hs : clean (pre ++ l2)). { apply Forall_app. split; [exact Hc|]. rewrite El in Hb. apply Forall_app in Hb. tauto. }
      destruct Hs as [|o st Ho Hs]; [discriminate|]. cbn in H. destruct o as [i| | ]; try discriminate. cbn in Ho.
      destruct (kind i); try discriminate. congruence.
  Qed.

  (** What a list of transitions adds, wherever they are treated. *)
  Definition runs (l : list (str * list NodeTypedIdentifier)) (ts : list transition) : Prop :=
    forall base c, each (step_transition debug) l (mkst base c) = Ret (Ok tt) (mkst base (plus c ts)).
  Lemma runs_nil : runs [] [].
  Proof. intros base c. rewrite plus_nil. reflexivity. Qed.
  Lemma each_app {A} (k : A -> EM unit) l1 l2 s : each k (l1 ++ l2) s = (each k l1 ;;; each k l2) s.
  Proof.
    revert s. induction l1 as [|a l1 IH]; intro s; [reflexivity|]. cbn [app each]. unfold bind, bind_res in *.
    destruct (k a s) as [[u|e] s1| |]; try reflexivity. apply IH.
  Qed.
  Lemma runs_app l1 l2 ts1 ts2 : runs l1 ts1 -> runs l2 ts2 -> runs (l1 ++ l2) (ts1 ++ ts2).
  Proof.
    intros H1 H2 base c. rewrite each_app. unfold bind, bind_res. rewrite H1, H2, plus_plus. reflexivity.
  Qed.
  Lemma runs_unique l ts us : runs l ts -> runs l us -> ts = us.
  Proof.
    intros H1 H2. specialize (H1 [] contract_default). specialize (H2 [] contract_default). rewrite H1 in H2.
    injection H2 as H2. exact H2.
  Qed.
  Lemma runs_of l base c s' : clean base -> each (step_transition debug) l (mkst base c) = Ret (Ok tt) s' ->
    exists ts, runs l ts /\ map t_name ts = map fst l /\ s' = mkst base (plus c ts).
  Proof.
    intro Hb. revert c. induction l as [|t l IH]; intros c H.
    - injection H as <-. exists []. split; [apply runs_nil|]. rewrite plus_nil. auto.
    - cbn [each] in H. unfold bind, bind_res in H. destruct (step_transition debug t (mkst base c)) as [[[]|e] s1| |] eqn:E; try discriminate.
      destruct (step_transition_local _ _ _ _ Hb E) as (fs & -> & Hf). destruct (IH _ H) as (ts & Hr & Hm & ->).
      exists (mkTransition (fst t) fs :: ts). split; [|split].
      + intros base' c'. cbn [each]. unfold bind, bind_res. rewrite Hf, Hr, plus_plus. reflexivity.
      + cbn. rewrite Hm. reflexivity.
      + rewrite plus_plus. reflexivity.
  Qed.
  Lemma runs_split l1 l2 ts : runs (l1 ++ l2) ts -> exists ts1 ts2, ts = ts1 ++ ts2 /\ runs l1 ts1 /\ runs l2 ts2.
  Proof.
    intro H. specialize (H [] contract_default). rewrite each_app in H. unfold bind, bind_res in H.
    destruct (each (step_transition debug) l1 (mkst [] contract_default)) as [[[]|e] s1| |] eqn:E; try discriminate.
    destruct (runs_of _ _ _ _ (Forall_nil _) E) as (ts1 & H1 & _ & ->).
    destruct (runs_of _ _ _ _ (Forall_nil _) H) as (ts2 & H2 & _ & E2).
    exists ts1, ts2. split; [|auto]. rewrite plus_plus in E2. injection E2 as E2. exact E2.
  Qed.

  (** ** The stack above which the transitions are treated *)
  Definition tame (m : EM unit) : Prop := forall st c r s',
    clean st -> c_transitions c = [] -> m (mkst st c) = Ret r s' -> clean (es_stack s') /\ c_transitions (es_contract s') = [].
  Lemma tame_bind {A} (m : EM A) (k : A -> EM unit) : local m -> (forall a, tame (k a)) -> tame (bind m k).
  Proof.
    intros Hm Hk st c r s' Hs Ht H. unfold bind, bind_res in H. destruct (m (mkst st c)) as [x s1| |] eqn:E; try discriminate.
    rewrite <- (app_nil_r st) in E. destruct (Hm _ _ _ _ _ E) as (pre & l1 & l2 & El & -> & Hc & _).
    symmetry in El. apply app_eq_nil in El. destruct El as [-> ->]. rewrite app_nil_r in *. specialize (Hc Hs).
    destruct x as [a|e]; [exact (Hk a _ _ _ _ Hc Ht H)|]. injection H as <- <-. auto.
  Qed.
  Lemma tame_seq m (k : EM unit) : tame m -> tame k -> tame (m ;;; k).
  Proof.
    intros Hm Hk st c r s' Hs Ht H. unfold bind, bind_res in H. destruct (m (mkst st c)) as [x [st1 c1]| |] eqn:E; try discriminate.
    destruct (Hm _ _ _ _ Hs Ht E) as [H1 H2]. destruct x as [a|e]; [exact (Hk _ _ _ _ H1 H2 H)|]. injection H as <- <-. auto.
  Qed.
  Lemma tame_each {A} (k : A -> EM unit) l : (forall a, tame (k a)) -> tame (each k l).
  Proof.
    intro Hk. induction l as [|a l IH]; [intros st c r s' Hs Ht [= <- <-]; auto|]. apply tame_seq; [apply Hk|exact IH].
  Qed.
  Lemma tame_param d : tame (step_param debug d).
  Proof. apply tame_bind; [apply local_decl|]. intros a st c r s' Hs Ht [= <- <-]. auto. Qed.
  Lemma tame_again d : tame (step_again debug d).
  Proof. apply tame_bind; [apply local_decl|]. intros a st c r s' Hs Ht [= <- <-]. split; [constructor; [exact I|exact Hs]|exact Ht]. Qed.
  Lemma tame_field d : tame (step_field debug d).
  Proof. apply tame_bind; [apply local_decl|]. intros a st c r s' Hs Ht [= <- <-]. auto. Qed.

  Definition head_steps (c : NodeContractDefinition) : EM unit :=
    each (step_param debug) (contract_param_decls c) ;;;
    each (step_again debug) (contract_param_decls c) ;;;
    each (step_field debug) (field_decls c).
  Lemma steps_head c s : steps debug c s = (head_steps c ;;; each (step_transition debug) (transition_decls c)) s.
  Proof.
    unfold steps, head_steps. unfold bind, bind_res.
    destruct (each (step_param debug) (contract_param_decls c) s) as [[[]|e] s1| |]; try reflexivity.
    destruct (each (step_again debug) (contract_param_decls c) s1) as [[[]|e] s2| |]; try reflexivity.
  Qed.
  Lemma tame_head c : tame (head_steps c).
  Proof.
    apply tame_seq; [apply tame_each, tame_param|]. apply tame_seq; [apply tame_each, tame_again|apply tame_each, tame_field].
  Qed.
  Lemma clean_name n : clean (name_stack n).
  Proof. destruct n; cbn; repeat constructor; discriminate. Qed.
End Comps.
