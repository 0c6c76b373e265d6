(** The emitter, reduced to the order in which it treats the declarations of a
    contract.  [emit_steps] is an equation for every program. *)
From Verif Require Import Chars Lexer Ast Types Visitor Emitter EmitSpec TypeFacts EmitTypes EmitProgram EmitInv EmitErase EmitSig EmitOk.
Local Open Scope nat_scope.

Section Steps.
  Context (debug : stack_object -> str).
  Notation E := (sr_emitter debug).
  Notation vis := (visit E).

  Definition visit_ty (t : NodeScillaType) : EM tr := vis (depth_type t) (AScillaType t).
  (** one declaration: its type is visited, then taken from the stack *)
  Definition decl (d : NodeTypedIdentifier) : EM field :=
    visit_ty (typed_type d) ;;; t <- pop_type_definition debug ;; field_of (typed_name d) t.
  Fixpoint each {A} (k : A -> EM unit) (l : list A) : EM unit :=
    match l with [] => ret tt | a :: r => k a ;;; each k r end.
  Fixpoint decls (ds : list NodeTypedIdentifier) : EM (list field) :=
    match ds with [] => ret [] | d :: r => f <- decl d ;; fs <- decls r ;; ret (f :: fs) end.
  Definition step_param (d : NodeTypedIdentifier) : EM unit := f <- decl d ;; upd (add_init_param f).
  Definition step_again (d : NodeTypedIdentifier) : EM unit := f <- decl d ;; push (VariableDeclaration f).
  Definition step_field (d : NodeTypedIdentifier) : EM unit := f <- decl d ;; upd (add_field f).
  Definition step_transition (t : str * list NodeTypedIdentifier) : EM unit :=
    push (IrIdentifier (mkId (fst t) KComponentName)) ;;;
    fs <- decls (snd t) ;;
    i <- pop_ir_identifier debug ;;
    match kind i with
    | KComponentName => upd (add_transition (mkTransition (unresolved i) fs))
    | _ => panic
    end.
  (** the contract name stays at the bottom of the stack; the parameters are
      treated twice *)
  Definition steps (c : NodeContractDefinition) : EM unit :=
    each step_param (contract_param_decls c) ;;;
    each step_again (contract_param_decls c) ;;;
    each step_field (field_decls c) ;;;
    each step_transition (transition_decls c).
  Definition first_state (c : NodeContractDefinition) : sr_state :=
    mkst (name_stack (contract_name_node c)) (mkContract (declared_name c) [] [] []).

  (** ** Fuel *)
  Lemma type_fuel f t s : depth_type t <= f -> vis f (AScillaType t) s = visit_ty t s.
  Proof.
    intro Hf. unfold visit_ty. destruct (visit_mono debug _ _ (AScillaType t) Hf s) as [H|H]; [|symmetry; exact H].
    exfalso. revert H. apply (nofuel_all debug (depth_type t)). lia.
  Qed.

  (** ** Equations *)
  Lemma bind_assoc {A B C} (m : EM A) (k : A -> EM B) (h : B -> EM C) : peq (bind (bind m k) h) (bind m (fun a => bind (k a) h)).
  Proof. intro s. unfold bind, bind_res. destruct (m s) as [[a|e] s'| |]; reflexivity. Qed.
  Lemma bind_ret_r {A} (m : EM A) : peq (bind m (fun a => ret a)) m.
  Proof. intro s. unfold bind, bind_res. destruct (m s) as [[a|e] s'| |]; reflexivity. Qed.
  Lemma peq_trans {A} (m1 m2 m3 : EM A) : peq m1 m2 -> peq m2 m3 -> peq m1 m3.
  Proof. intros H1 H2 s. rewrite H1. apply H2. Qed.
  Lemma peq_sym {A} (m1 m2 : EM A) : peq m1 m2 -> peq m2 m1.
  Proof. intros H s. symmetry. apply H. Qed.

  (** what visiting a node returns when it does not fail does not matter here *)
  Lemma annotation_eq f (a : wm NodeTypeAnnotation) s : 1 + depth_type (node (let '(mkTypeAnnotation t) := node a in t)) <= f ->
    vis f (ATypeAnnotation (node a)) s = (visit_ty (node (let '(mkTypeAnnotation t) := node a in t)) ;;; ret Continue) s.
  Proof.
    destruct (node a) as [t]. intro Hf. destruct f as [|f]; [lia|]. rewrite visit_S. unfold visit_node, standard.
    cbn [emit sr_emitter sr_emit children]. unfold kid_of, bind, bind_res, ret.
    rewrite visit_wm_eq, type_fuel by lia. destruct (visit_ty (node t) s) as [[[]|m] s'| |]; reflexivity.
  Qed.

  Lemma typed_eq f d s : depth_typed d <= f ->
    vis f (ATypedIdentifier d) s = (fl <- decl d ;; push (VariableDeclaration fl) ;;; ret Continue) s.
  Proof.
    destruct d as [nm a]. cbn [depth_typed]. intro Hf. destruct f as [|f]; [lia|]. rewrite visit_S. unfold visit_node.
    unfold decl. cbn [typed_name typed_type]. unfold standard, bind_res at 1. cbn [emit sr_emitter sr_emit].
    unfold bind at 1. unfold bind_res at 1. rewrite wvisit_eq, annotation_eq by lia. 
    destruct (node a) as [t]. unfold bind, bind_res, ret, raise.
    destruct (visit_ty (node t) s) as [[x|m] s1| |]; try reflexivity.
    destruct (pop_type_definition debug s1) as [[y|m] s2| |]; try reflexivity.
    destruct (field_of (node nm) y s2) as [[fl|m] s3| |]; try reflexivity.
  Qed.

  Lemma pair_eq f p s : depth_pair (node p) <= f ->
    vis f (AParameterPair (node p)) s = (fl <- decl (pair_decl p) ;; push (VariableDeclaration fl) ;;; ret Continue) s.
  Proof.
    unfold pair_decl. destruct (node p) as [d]. cbn [depth_pair]. intro Hf. destruct f as [|f]; [lia|].
    rewrite visit_S. unfold visit_node, standard. cbn [emit sr_emitter sr_emit children]. unfold kid_of, bind, bind_res, ret.
    rewrite visit_wm_eq, typed_eq by lia. unfold bind, bind_res, ret, raise.
    destruct (decl (node d) s) as [[fl|m] s1| |]; reflexivity.
  Qed.

  Lemma init_eq f l s : pairs_depth l <= f -> emit_init_params debug (vis f) l s = each step_param (map pair_decl l) s.
  Proof.
    revert s. induction l as [|p l IH]; intros s Hf; [reflexivity|]. apply list_max_cons in Hf. destruct Hf as [H1 H2].
    cbn [emit_init_params map each]. unfold step_param at 1. unfold bind at 1. unfold bind_res at 1.
    rewrite wvisit_eq, pair_eq by exact H1. unfold bind, bind_res, push, ret, raise.
    destruct (decl (pair_decl p) s) as [[fl|m] s1| |]; try reflexivity. cbn. rewrite IH by exact H2. reflexivity.
  Qed.
  Lemma again_eq f l s : pairs_depth l <= f -> visit_all E (vis f) AParameterPair l s = each step_again (map pair_decl l) s.
  Proof.
    revert s. induction l as [|p l IH]; intros s Hf; [reflexivity|]. apply list_max_cons in Hf. destruct Hf as [H1 H2].
    cbn [visit_all map each]. unfold step_again at 1. unfold bind at 1. unfold bind_res at 1.
    rewrite visit_wm_eq, pair_eq by exact H1. unfold bind, bind_res, push, ret, raise.
    destruct (decl (pair_decl p) s) as [[fl|m] s1| |]; try reflexivity. cbn. rewrite IH by exact H2. reflexivity.
  Qed.
  Lemma collect_eq f l s : pairs_depth l <= f -> collect_params debug (vis f) l s = decls (map pair_decl l) s.
  Proof.
    revert s. induction l as [|p l IH]; intros s Hf; [reflexivity|]. apply list_max_cons in Hf. destruct Hf as [H1 H2].
    cbn [collect_params map decls]. unfold bind at 1. unfold bind_res at 1.
    rewrite wvisit_eq, pair_eq by exact H1. unfold bind, bind_res, push, ret, raise.
    destruct (decl (pair_decl p) s) as [[fl|m] s1| |]; try reflexivity. cbn. rewrite IH by exact H2. destruct s1. reflexivity.
  Qed.
  Lemma fields_eq f l s : list_max (map (fun f => depth_field (node f)) l) <= f -> 2 <= f ->
    wvisit_all (vis f) AContractField l s = each step_field (map field_decl l) s.
  Proof.
    intros Hf H2. revert s. induction l as [|p l IH]; intro s; [reflexivity|]. apply list_max_cons in Hf. destruct Hf as [H1 Hl].
    cbn [wvisit_all map each]. unfold step_field at 1. unfold bind at 1. unfold bind_res at 1. rewrite wvisit_eq.
    unfold field_decl at 1. revert H1. destruct (node p) as [i e]. cbn [depth_field]. intro H1.
    destruct f as [|f]; [lia|]. rewrite visit_S. unfold visit_node, standard. unfold bind_res at 1. cbn [emit sr_emitter sr_emit].
    unfold bind at 1. unfold bind_res at 1. rewrite wvisit_eq, typed_eq by lia. unfold bind, bind_res, push, ret, raise.
    destruct (decl (node i) s) as [[fl|m] s1| |]; try reflexivity. cbn. rewrite wvisit_eq, expr_out by lia.
    cbn. rewrite IH by exact Hl. reflexivity.
  Qed.
  Lemma transitions_eq f l s : list_max (map (fun c => depth_component (node c)) l) <= f -> 2 <= f ->
    wvisit_all (vis f) AComponentDefinition l s = each step_transition (flat_map component_decls l) s.
  Proof.
    intros Hf H2. revert s. induction l as [|c l IH]; intro s; [reflexivity|]. apply list_max_cons in Hf. destruct Hf as [H1 Hl].
    cbn [wvisit_all flat_map]. unfold bind at 1. unfold bind_res at 1. rewrite wvisit_eq. unfold component_decls at 1.
    destruct f as [|[|f]]; [lia|lia|].
    revert H1. destruct (node c) as [t|p]; intro H1; rewrite visit_S; unfold visit_node, standard; cbn [emit sr_emitter sr_emit children];
      unfold kid_of; unfold bind at 1 2; unfold bind_res at 1 2 3; unfold ret at 1; rewrite visit_wm_eq.
    - revert H1. cbn [depth_component]. destruct (node t) as [n ps b]. intro H1. cbn [each app].
      destruct (node ps) as [q] eqn:Eq. cbn [depth_params param_decls] in *.
      rewrite trans_enter. cbn [emit sr_emitter sr_emit]. rewrite Eq. unfold step_transition at 1. cbn [fst snd].
      unfold bind at 1. unfold bind_res at 1. rewrite wvisit_eq, component_id_out by lia.
      unfold bind, bind_res, push, pushed, raise, ret. rewrite collect_eq by (unfold pairs_depth; lia).
      change (map pair_decl q) with (map (fun p => match node p with mkParameterPair i => node i end) q).
      destruct (decls _ _) as [[fs|m] s1| |]; try reflexivity.
      destruct (pop_ir_identifier debug s1) as [[i|m] s2| |]; try reflexivity.
      destruct (kind i); try reflexivity. cbn. apply IH, Hl.
    - rewrite visit_S. unfold visit_node. erewrite standard_skip; [|reflexivity]. cbn [app ret]. apply IH, Hl.
  Qed.

  Theorem emit_steps p :
    emit_program debug p =
    let c := match p with mkProgram _ _ _ c => node c end in
    match steps c (first_state c) with
    | Ret (Ok _) s => EOk (es_contract s)
    | Ret (Err m) _ => EErr m
    | Panic => EPanic
    | Fuel => EFuel
    end.
  Proof.
    destruct p as [v i l c]. cbv zeta beta iota. assert (Hf : exists f, f = 4 + depth_contract (node c)) by eauto. destruct Hf as (f & Hf).
    rewrite (emit_with debug (S f)) by lia. rewrite contract_enter. unfold steps, first_state.
    destruct (node c) as [n ps con fs cs] eqn:Ec. cbn [contract_param_decls field_decls transition_decls contract_name_node declared_name depth_contract] in *.
    cbn [emit sr_emitter sr_emit]. unfold bind at 1. unfold bind_res at 1. rewrite wvisit_eq, contract_name_out by lia.
    unfold bind at 1. unfold bind_res at 1. cbn [upd]. rewrite app_nil_r. cbn [es_stack es_contract sr_default contract_default set_name].
    unfold bind at 1. unfold bind_res at 1. rewrite wvisit_eq.
    set (s0 := mkst _ _). assert (Hp : vis f (AComponentParameters (node ps)) s0 =
      (each step_param (param_decls (node ps)) ;;; each step_again (param_decls (node ps)) ;;; ret Continue) s0).
    { revert Hf. destruct (node ps) as [q]. cbn [param_decls depth_params]. intro Hf. change (map (fun p => match node p with mkParameterPair i => node i end) q) with (map pair_decl q).
      assert (Hg : exists g, f = S g /\ pairs_depth q <= g) by (destruct f as [|g]; [lia|]; exists g; unfold pairs_depth; lia).
      destruct Hg as (g & -> & Hg). rewrite visit_S. unfold visit_node, standard. cbn [emit sr_emitter sr_emit children].
      unfold kcont, bind, bind_res, ret, raise. rewrite init_eq by exact Hg.
      destruct (each step_param (map pair_decl q) s0) as [[u|m] s1| |]; try reflexivity.
      rewrite again_eq by exact Hg. destruct (each step_again (map pair_decl q) s1) as [[u'|m] s2| |]; reflexivity. }
    rewrite Hp. clear Hp. unfold bind, bind_res, ret, raise.
    change s0 with (mkst (name_stack (node n)) (mkContract (type_name_identifier_display (node n)) [] [] [])) in *.
    destruct (each step_param _ _) as [[u|m] s1| |]; try reflexivity.
    destruct (each step_again _ _) as [[u'|m] s2| |]; try reflexivity.
    assert (Hcon : (match con with Some w => wvisit (vis f) AWithConstraint w ;;; ret tt | None => ret tt end) s2 = Ret (Ok tt) s2).
    { destruct con as [w|]; [|reflexivity]. unfold bind, bind_res. rewrite wvisit_eq, constraint_out by lia. reflexivity. }
    unfold bind, bind_res, ret, raise in Hcon. rewrite Hcon.
    rewrite fields_eq by lia. change (map field_decl fs) with (map (fun f => match node f with mkContractField i _ => node i end) fs).
    destruct (each step_field _ _) as [[u3|m] s3| |]; try reflexivity.
    rewrite transitions_eq by lia. change (flat_map component_decls cs) with
      (flat_map (fun d => match node d with
                         | TransitionComponent t =>
                             match node t with
                             | mkTransitionDefinition n ps _ =>
                                 [(component_name (node n), param_decls (node ps))]
                             end
                         | ProcedureComponent _ => []
                         end) cs).
    destruct (each step_transition _ _) as [[u4|m] s4| |]; reflexivity.
  Qed.
End Steps.
