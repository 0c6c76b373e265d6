(** C28: declarations of type [Event]. *)
From Verif Require Import Chars Lexer Ast Types Visitor Emitter EmitSpec TypeFacts EmitTypes EmitProgram EmitInv EmitErase EmitSig EmitOk EmitSteps EmitFail Reads ReadsFacts QuirkFacts.
Local Open Scope nat_scope.

(** The annotation is the type [Event] without arguments. *)
Definition event_type (t : NodeScillaType) : Prop :=
  exists m n, t = GenericTypeWithArgs m [] /\ node m = MetaName n /\ node n = EventType.

Section Event.
  Context (debug : stack_object -> str).

  Definition found (c : option stack_object) : str :=
    lit "Expected symbol name, but found " ++ match c with Some c => debug c | None => lit "nothing" end ++ lit ".".

  Lemma event_decl d s : event_type (typed_type d) ->
    decl debug d s =
    match es_stack s with
    | IrIdentifier i :: r =>
        match type_from (mkSr (unresolved i) [] None) with Some t => Ret (Ok (mkField (typed_name d) t)) (mkst r (es_contract s)) | None => Panic end
    | c :: r => Ret (Err (found (Some c))) (mkst r (es_contract s))
    | [] => Ret (Err (found None)) s
    end.
  Proof.
    intros (m & n & Et & Em & En). unfold EmitSteps.decl, visit_ty. rewrite Et. cbn [depth_type map list_max fold_right].
    unfold bind at 1. unfold bind_res at 1. cbn [PeanoNat.Nat.add]. rewrite visit_S. unfold visit_node, standard.
    cbn [emit sr_emitter sr_emit]. unfold generic_type. unfold bind, bind_res. rewrite wvisit_eq, Em, visit_S. unfold visit_node, standard.
    cbn [emit sr_emitter sr_emit children]. unfold kid_of, bind, bind_res, ret. rewrite visit_wm_eq, En.
    destruct s as [[|[i|f|t] r] c]; try reflexivity.
    unfold ident_to_type, pop_type_definition, bind, bind_res. cbn -[type_from]. unfold field_of, sr_of_id. destruct (type_from _); reflexivity.
  Qed.

  (** what clean declarations leave behind, exactly *)
  Lemma again_exact ds fs : Forall2 (given debug []) ds fs -> forall s,
    each (step_again debug) ds s = Ret (Ok tt) (mkst (rev (map VariableDeclaration fs) ++ es_stack s) (es_contract s)).
  Proof.
    induction 1 as [|d f ds fs Hd _ IH]; intro s; [now destruct s|].
    cbn [each]. unfold step_again at 1, bind, bind_res. rewrite Hd, leftover_nil. cbn [push]. rewrite IH. cbn. rewrite <- app_assoc. reflexivity.
  Qed.
  Lemma params_exact ds fs : Forall2 (given debug []) ds fs -> forall s,
    each (step_param debug) ds s = Ret (Ok tt) (mkst (es_stack s) (param_done (es_contract s) fs)).
  Proof.
    induction 1 as [|d f ds fs Hd _ IH]; intro s.
    - destruct s as [st [a b c d]]. unfold param_done. cbn. rewrite app_nil_r. reflexivity.
    - cbn [each]. unfold step_param at 1, bind, bind_res. rewrite Hd, leftover_nil. cbn [upd]. rewrite IH. unfold param_done, add_init_param.
      cbn. rewrite <- app_assoc. reflexivity.
  Qed.
  Lemma fields_exact ds fs : Forall2 (given debug []) ds fs -> forall s,
    each (step_field debug) ds s = Ret (Ok tt) (mkst (es_stack s) (fields_added (es_contract s) fs)).
  Proof.
    induction 1 as [|d f ds fs Hd _ IH]; intro s.
    - destruct s as [st [a b c d]]. unfold fields_added. cbn. rewrite app_nil_r. reflexivity.
    - cbn [each]. unfold step_field at 1, bind, bind_res. rewrite Hd, leftover_nil. cbn [upd]. rewrite IH. unfold fields_added, add_field.
      cbn. rewrite <- app_assoc. reflexivity.
  Qed.
  Lemma each_app {A} (k : A -> EM unit) l1 l2 s s1 : each k l1 s = Ret (Ok tt) s1 -> each k (l1 ++ l2) s = each k l2 s1.
  Proof.
    revert s. induction l1 as [|a l1 IH]; intros s H; cbn [app each] in *.
    - injection H as ->. reflexivity.
    - unfold bind, bind_res in *. destruct (k a s) as [[x|m] s'| |]; try discriminate. now apply IH.
  Qed.

  (** ** Emission of contracts with one or two [Event] declarations, the
      others clean *)
  Notation C p := (match p with mkProgram _ _ _ c => node c end).

  (** the first [Event] field of a contract without parameters *)
  Theorem event_field p cn pre d post t fpre fpost ts :
    contract_param_decls (C p) = [] -> plain_name (contract_name_node (C p)) cn -> denotes (TName cn []) t ->
    field_decls (C p) = pre ++ d :: post -> event_type (typed_type d) ->
    Forall2 (given debug []) pre fpre -> Forall2 (given debug []) post fpost -> Forall2 (trans_given debug) (transition_decls (C p)) ts ->
    emit_program debug p = EOk (mkContract (declared_name (C p)) [] (fpre ++ mkField (typed_name d) t :: fpost) ts).
  Proof.
    intros Hp Hn Ht Hf He Hpre Hpost Hts. rewrite emit_steps. cbv zeta. set (c := C p) in *. unfold steps. rewrite Hp, Hf.
    unfold bind at 1. unfold bind_res at 1. cbn [each ret]. unfold bind at 1. unfold bind_res at 1. cbn [ret].
    unfold bind at 1. unfold bind_res at 1. rewrite (each_app _ _ _ _ _ (fields_exact _ _ Hpre _)). cbn [each].
    unfold bind at 1. unfold bind_res at 1. unfold step_field at 1. unfold bind at 1. unfold bind_res at 1.
    rewrite (event_decl d _ He). cbn [es_stack].
    assert (Es : es_stack (first_state c) = [IrIdentifier (mkId cn KUnknown)]) by (unfold first_state, name_stack; cbn; destruct Hn; reflexivity).
    rewrite Es. cbn [unresolved]. apply denote_iff in Ht. change (type_from (mkSr cn [] None) = Some t) in Ht. rewrite Ht. cbn [upd].
    rewrite (fields_exact _ _ Hpost). rewrite (transitions_given _ _ _ Hts). unfold first_state, fields_added, add_field. cbn.
    rewrite <- app_assoc. reflexivity.
  Qed.
  (** a second one is an error *)
  Theorem event_field_twice p cn pre d mid d2 post t fpre fmid :
    contract_param_decls (C p) = [] -> plain_name (contract_name_node (C p)) cn -> denotes (TName cn []) t ->
    field_decls (C p) = pre ++ d :: mid ++ d2 :: post -> event_type (typed_type d) -> event_type (typed_type d2) ->
    Forall2 (given debug []) pre fpre -> Forall2 (given debug []) mid fmid ->
    emit_program debug p = EErr (found None).
  Proof.
    intros Hp Hn Ht Hf He He2 Hpre Hmid. rewrite emit_steps. cbv zeta. set (c := C p) in *. unfold steps. rewrite Hp, Hf.
    unfold bind at 1. unfold bind_res at 1. cbn [each ret]. unfold bind at 1. unfold bind_res at 1. cbn [ret].
    unfold bind at 1. unfold bind_res at 1. rewrite (each_app _ _ _ _ _ (fields_exact _ _ Hpre _)). cbn [each].
    unfold bind at 1. unfold bind_res at 1. unfold step_field at 1. unfold bind at 1. unfold bind_res at 1.
    rewrite (event_decl d _ He). cbn [es_stack].
    assert (Es : es_stack (first_state c) = [IrIdentifier (mkId cn KUnknown)]) by (unfold first_state, name_stack; cbn; destruct Hn; reflexivity).
    rewrite Es. cbn [unresolved]. apply denote_iff in Ht. change (type_from (mkSr cn [] None) = Some t) in Ht. rewrite Ht. cbn [upd].
    rewrite (each_app _ _ _ _ _ (fields_exact _ _ Hmid _)). cbn [each]. unfold bind at 1. unfold bind_res at 1.
    unfold step_field at 1. unfold bind at 1. unfold bind_res at 1. rewrite (event_decl d2 _ He2). reflexivity.
  Qed.
  (** an [Event] field of a contract with parameters *)
  Theorem event_field_params p fps pn pre d post fpre :
    Forall2 (given debug []) (contract_param_decls (C p)) (fps ++ [pn]) ->
    field_decls (C p) = pre ++ d :: post -> event_type (typed_type d) -> Forall2 (given debug []) pre fpre ->
    emit_program debug p = EErr (found (Some (VariableDeclaration pn))).
  Proof.
    intros Hp Hf He Hpre. rewrite emit_steps. cbv zeta. set (c := C p) in *. unfold steps. rewrite Hf.
    unfold bind at 1. unfold bind_res at 1. rewrite (params_exact _ _ Hp).
    unfold bind at 1. unfold bind_res at 1. rewrite (again_exact _ _ Hp).
    unfold bind at 1. unfold bind_res at 1. rewrite (each_app _ _ _ _ _ (fields_exact _ _ Hpre _)). cbn [each].
    unfold bind at 1. unfold bind_res at 1. unfold step_field at 1. unfold bind at 1. unfold bind_res at 1.
    rewrite (event_decl d _ He). cbn [es_stack]. rewrite map_app, rev_app_distr. reflexivity.
  Qed.
  (** an [Event] parameter of the contract *)
  Theorem event_param p cn t pre d post fpre fpost :
    plain_name (contract_name_node (C p)) cn -> denotes (TName cn []) t ->
    contract_param_decls (C p) = pre ++ d :: post -> event_type (typed_type d) ->
    Forall2 (given debug []) pre fpre -> Forall2 (given debug []) post fpost ->
    emit_program debug p = EErr (found (option_map VariableDeclaration (hd_error (rev fpre)))).
  Proof.
    intros Hn Ht Hp He Hpre Hpost. rewrite emit_steps. cbv zeta. set (c := C p) in *. unfold steps. rewrite Hp.
    unfold bind at 1. unfold bind_res at 1. rewrite (each_app _ _ _ _ _ (params_exact _ _ Hpre _)). cbn [each].
    unfold bind at 1. unfold bind_res at 1. unfold step_param at 1. unfold bind at 1. unfold bind_res at 1.
    rewrite (event_decl d _ He). cbn [es_stack].
    assert (Es : es_stack (first_state c) = [IrIdentifier (mkId cn KUnknown)]) by (unfold first_state, name_stack; cbn; destruct Hn; reflexivity).
    rewrite Es. cbn [unresolved]. apply denote_iff in Ht. change (type_from (mkSr cn [] None) = Some t) in Ht. rewrite Ht. cbn [upd].
    rewrite (params_exact _ _ Hpost). unfold bind at 1. unfold bind_res at 1.
    rewrite (each_app _ _ _ _ _ (again_exact _ _ Hpre _)). cbn [each].
    unfold bind at 1. unfold bind_res at 1. unfold step_again at 1. unfold bind at 1. unfold bind_res at 1.
    rewrite (event_decl d _ He). cbn [es_stack]. rewrite <- map_rev. rewrite app_nil_r. destruct (rev fpre); reflexivity.
  Qed.
  (** an [Event] parameter of a transition *)
  Lemma decls_split pre d post fpre fpost s :
    Forall2 (given debug []) pre fpre -> Forall2 (given debug []) post fpost ->
    decls debug (pre ++ d :: post) s = (f <- decl debug d ;; ret (fpre ++ f :: fpost)) s.
  Proof.
    intros Hpre Hpost. revert s. induction Hpre as [|e f pre fpre He _ IH]; intro s; cbn [app decls].
    - unfold bind, bind_res. destruct (decl debug d s) as [[f|m] s1| |]; try reflexivity. rewrite (decls_given _ _ _ Hpost). reflexivity.
    - unfold bind at 1. unfold bind_res at 1. rewrite He, leftover_nil. unfold bind at 1. unfold bind_res at 1. rewrite IH.
      unfold bind, bind_res. destruct (decl debug d s) as [[g|m] s1| |]; reflexivity.
  Qed.
  Theorem event_transition p fps fs pre us n ds1 d ds2 f1 f2 post t :
    Forall2 (given debug []) (contract_param_decls (C p)) fps -> Forall2 (given debug []) (field_decls (C p)) fs ->
    transition_decls (C p) = pre ++ (n, ds1 ++ d :: ds2) :: post -> Forall2 (trans_given debug) pre us ->
    Forall2 (given debug []) ds1 f1 -> Forall2 (given debug []) ds2 f2 -> event_type (typed_type d) -> denotes (TName n []) t ->
    emit_program debug p =
      match hd_error (rev fps), name_stack (contract_name_node (C p)) with
      | Some f, _ => EErr (found (Some (VariableDeclaration f)))
      | None, [] => EErr (found None)
      | None, _ => EPanic
      end.
  Proof.
    intros Hp Hf Ht Hpre H1 H2 He Hn. rewrite emit_steps. cbv zeta. set (c := C p) in *. unfold steps.
    unfold bind at 1. unfold bind_res at 1. rewrite (params_exact _ _ Hp).
    unfold bind at 1. unfold bind_res at 1. rewrite (again_exact _ _ Hp).
    unfold bind at 1. unfold bind_res at 1. rewrite (fields_exact _ _ Hf). rewrite Ht.
    rewrite (each_app _ _ _ _ _ (transitions_given _ _ _ Hpre _)). cbn [each]. unfold bind at 1. unfold bind_res at 1.
    unfold step_transition at 1. unfold bind at 1. unfold bind_res at 1. cbn [push fst snd]. unfold bind at 1. unfold bind_res at 1.
    rewrite (decls_split _ _ _ _ _ _ H1 H2). unfold bind at 1. unfold bind_res at 1. rewrite (event_decl d _ He).
    cbn [es_stack unresolved]. apply denote_iff in Hn. change (type_from (mkSr n [] None) = Some t) in Hn. rewrite Hn. cbn [ret].
    unfold bind at 1. unfold bind_res at 1. unfold pop_ir_identifier. cbn [es_stack es_contract first_state]. rewrite <- map_rev.
    destruct (rev fps) as [|f l]; cbn [map app hd_error]; [|reflexivity].
    destruct (contract_name_node c) as [[b|b]| |b]; reflexivity.
  Qed.
End Event.
