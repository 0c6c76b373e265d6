(** C29 - C32: the traversal of the AST by a visitor. *)
From Verif Require Import Chars Lexer Ast Types Visitor Emitter Grammar Parser Contract PropLexer PropParse2 Trace TraceFacts Abort.
Local Open Scope nat_scope.

(** ** C30 *)

(** Whatever the emitter: what happens after [Enter], for every kind of node
    but [NodeAddressType]. *)

Theorem C30_skip {S} (E : emitter S) fuel n s s' : is_address n = false ->
  emit E (visit E fuel) Enter n s = Ret (Ok SkipChildren) s' ->
  visit E (Datatypes.S fuel) n s = Ret (Ok Continue) s'.
Proof.
  intros Ha He. destruct n; try discriminate Ha; cbn [visit visit_node]; unfold standard, bind, bind_res; now rewrite He.
Qed.

Theorem C30_enter_error {S} (E : emitter S) fuel n s s' msg : is_address n = false ->
  emit E (visit E fuel) Enter n s = Ret (Err msg) s' ->
  visit E (Datatypes.S fuel) n s = Ret (Err msg) s'.
Proof.
  intros Ha He. destruct n; try discriminate Ha; cbn [visit visit_node]; unfold standard, bind, bind_res; now rewrite He.
Qed.

Theorem C30_enter_panic {S} (E : emitter S) fuel n s :
  emit E (visit E fuel) Enter n s = Panic -> visit E (Datatypes.S fuel) n s = Panic.
Proof.
  intros He. destruct n; cbn [visit visit_node]; unfold standard, bind, bind_res; now rewrite He.
Qed.

(** An emitter that always continues gets the depth-first traversal of the
    node, each call exactly once and in order; the visit returns [Continue].
    (No library [let] below the node: see C32.) *)
Theorem C30_depth_first {S} (E : emitter S) f n s fuel : continues E f -> has_let n = false -> height n <= fuel ->
  exists calls, walk n calls /\ visit E fuel n s = Ret (Ok Continue) (play E f calls s).
Proof. intros Hc Hl Hf. exact (visit_goes E f Hc fuel n Hl Hf s). Qed.

(** [walk] determines the calls. *)
Theorem C30_one_traversal n : exists calls, walk n calls /\ forall calls', walk n calls' -> calls' = calls.
Proof.
  destruct (walk_exists n) as [e He]. exists e. split; [exact He|]. intros e' He'. exact (walk_unique n e' e He' He).
Qed.

Definition always_continue : list event -> mode -> anynode -> result tr := fun _ _ _ => Ok Continue.

Lemma recorder_continues : continues (recorder always_continue) (fun m n s => s ++ [EvEmit m n]).
Proof. intros v m n s. reflexivity. Qed.
Lemma recorder_play l s : play (recorder always_continue) (fun m n s => s ++ [EvEmit m n]) l s = s ++ l.
Proof.
  revert s. induction l as [|e l IH]; intro s; [symmetry; apply app_nil_r|]. unfold play in *. cbn [fold_left].
  rewrite IH. destruct e; cbn; now rewrite <- app_assoc.
Qed.

Theorem C30_recorded n : has_let n = false ->
  exists calls, walk n calls /\ visit (recorder always_continue) (height n) n [] = Ret (Ok Continue) calls.
Proof.
  intro Hl. destruct (C30_depth_first _ _ n [] (height n) recorder_continues Hl (le_n _)) as [e [W R]].
  exists e. split; [exact W|]. now rewrite recorder_play in R.
Qed.

(** ** C31 *)
Definition is_push (e : event) : bool := match e with EvPush _ _ => true | _ => false end.
Definition is_pop (e : event) : bool := match e with EvPop => true | _ => false end.
(** message variables, empty-map literals, statement-match clauses *)
Definition enters_unbalanced (e : event) : bool :=
  match e with
  | EvEmit Enter (AMessageEntry (MessageVariable _ _)) => true
  | EvEmit Enter (AValueLiteral (LiteralEmptyMap _ _)) => true
  | EvEmit Enter (APatternMatchClause _) => true
  | _ => false
  end.
Definition count (p : event -> bool) (l : list event) : nat := List.length (filter p l).
Lemma count_app p l1 l2 : count p (l1 ++ l2) = count p l1 + count p l2.
Proof. unfold count. now rewrite filter_app, app_length. Qed.
Lemma count_cons p e l : count p (e :: l) = (if p e then 1 else 0) + count p l.
Proof. unfold count. cbn. now destruct (p e). Qed.
Lemma count_nil p : count p [] = 0.
Proof. reflexivity. Qed.

Definition extras (l : list step) : nat :=
  List.length (filter (fun s => match s with Extra _ _ => true | _ => false end) l).
Lemma extras_ats {A} (inj : A -> anynode) l : extras (ats inj l) = 0.
Proof. unfold extras, ats. induction l as [|w l IH]; [reflexivity|]. cbn. exact IH. Qed.
Lemma extras_app l1 l2 : extras (l1 ++ l2) = extras l1 + extras l2.
Proof. unfold extras. now rewrite filter_app, app_length. Qed.
Lemma extras_kids n : extras (kids n) = if enters_unbalanced (EvEmit Enter n) then 1 else 0.
Proof.
  destruct n as [n|n|n|n|n|n|n|n|n|n|n|n|n|n|n|n|n|n|n|n|n|n|n|n|n|n|n|n|n|n|n|n|n|n|n|n|n|n|n|n|n|n|n|n|n|n]; destruct n;
    repeat match goal with
    | b : NodeByteStr |- _ => destruct b
    | o : option _ |- _ => destruct o
    end; try reflexivity; cbn [kids enters_unbalanced opt_at app];
    try apply extras_ats; try (unfold extras; cbn [filter at_]; apply extras_ats);
    try (unfold extras; cbn [filter at_]; fold (extras (ats AContractField fields ++ ats AComponentDefinition components));
         rewrite extras_app, !extras_ats; reflexivity).
  unfold extras. induction statements as [|st l IH]; [reflexivity|]. exact IH.
Qed.

Theorem C31_push_pop n calls : walk n calls ->
  count is_push calls = count is_pop calls + count enters_unbalanced calls.
Proof.
  assert (K : (forall n e, walk n e -> count is_push e = count is_pop e + count enters_unbalanced e) /\
              (forall l e, walks l e -> count is_push e = count is_pop e + count enters_unbalanced e + extras l));
    [|intro H; apply K in H; exact H].
  apply walk_mutind.
  - intros m body _ IH. rewrite !count_cons, !count_app, !count_cons. cbn [is_push is_pop].
    rewrite extras_kids in IH. change (enters_unbalanced (EvEmit Exit m)) with false. rewrite ?count_nil.
    destruct (enters_unbalanced (EvEmit Enter m)); lia.
  - reflexivity.
  - intros a b m l e es _ IH1 _ IH2. rewrite !count_app, !count_cons, !count_app, !count_cons.
    cbn [is_push is_pop enters_unbalanced]. rewrite ?count_nil.
    unfold extras in *. cbn [filter]. lia.
  - intros m l e es _ IH1 _ IH2. rewrite !count_app. unfold extras in *. cbn [filter]. lia.
  - intros a b l es _ IH. rewrite !count_cons. cbn [is_push is_pop enters_unbalanced]. unfold extras in *. cbn [filter List.length]. lia.
Qed.

(** As observed through [visit]. *)
Theorem C31_visit n : has_let n = false ->
  exists calls, visit (recorder always_continue) (height n) n [] = Ret (Ok Continue) calls /\
    count is_push calls = count is_pop calls + count enters_unbalanced calls.
Proof.
  intro Hl. destruct (C30_recorded n Hl) as [e [W R]]. exists e. split; [exact R|now apply (C31_push_pop n)].
Qed.

(** Types, names, patterns, parameters and declarations: no expression or
    statement below them. *)
Definition declarative (n : anynode) : bool :=
  match n with
  | AFullExpression _ | AMessageEntry _ | APatternMatchExpressionClause _ | AAtomicExpression _ | AValueLiteral _
  | APatternMatchClause _ | AStatement _ | AComponentBody _ | AStatementBlock _ | AProgram _ | ALibraryDefinition _
  | ALibrarySingleDefinition _ | AContractDefinition _ | AContractField _ | AWithConstraint _ | AComponentDefinition _
  | AProcedureDefinition _ | ATransitionDefinition _ => false
  | _ => true
  end.
Lemma declarative_kid n m : declarative n = true -> In m (kid_nodes n) -> declarative m = true.
Proof.
  intros Hl Hm. unfold kid_nodes in Hm.
  destruct n as [n|n|n|n|n|n|n|n|n|n|n|n|n|n|n|n|n|n|n|n|n|n|n|n|n|n|n|n|n|n|n|n|n|n|n|n|n|n|n|n|n|n|n|n|n|n];
    try discriminate Hl; destruct n;
    repeat match goal with
    | b : NodeByteStr |- _ => destruct b
    | o : option _ |- _ => destruct o
    end;
    cbn [kids opt_at app flat_map step_node at_ extra] in Hm;
    rewrite ?flat_map_app in Hm; cbn [flat_map step_node at_ app In] in Hm;
    rewrite ?in_app_iff in Hm;
    repeat match goal with
    | H : _ \/ _ |- _ => destruct H as [H|H]
    | H : False |- _ => destruct H
    | H : In _ (flat_map step_node (ats _ _)) |- _ => apply in_ats in H; destruct H as [? [? ->]]
    end; subst; reflexivity.
Qed.

(** Well-bracketed sequences of pushes and pops. *)
Inductive bracketed : list event -> Prop :=
| br_nil : bracketed []
| br_emit m n l : bracketed l -> bracketed (EvEmit m n :: l)
| br_pair a b l1 l2 : bracketed l1 -> bracketed l2 -> bracketed (EvPush a b :: l1 ++ EvPop :: l2).
Lemma bracketed_app l1 l2 : bracketed l1 -> bracketed l2 -> bracketed (l1 ++ l2).
Proof.
  induction 1; intro H2; cbn [app]; [exact H2|constructor; auto|].
  rewrite <- app_assoc. cbn [app]. constructor; auto.
Qed.

Theorem C31_declarations_bracketed n calls : declarative n = true -> walk n calls -> bracketed calls.
Proof.
  assert (K : (forall n e, walk n e -> declarative n = true -> bracketed e) /\
              (forall l e, walks l e -> extras l = 0 -> (forall m, In m (flat_map step_node l) -> declarative m = true) -> bracketed e));
    [|intros Hd Hw; exact (proj1 K n calls Hw Hd)].
  apply walk_mutind.
  - intros m body _ IH Hd. constructor. apply bracketed_app; [|repeat constructor]. apply IH.
    + rewrite extras_kids. destruct m; try reflexivity; discriminate Hd.
    + intros k Hk. exact (declarative_kid m k Hd Hk).
  - constructor.
  - intros a b m l e es _ IH1 _ IH2 Hx Hk. cbn [app]. rewrite <- app_assoc. cbn [app]. constructor.
    + apply IH1. apply Hk. now left.
    + apply IH2; [exact Hx|]. intros k Hk'. apply Hk. now right.
  - intros m l e es _ IH1 _ IH2 Hx Hk. apply bracketed_app.
    + apply IH1. apply Hk. now left.
    + apply IH2; [exact Hx|]. intros k Hk'. apply Hk. now right.
  - intros a b l es _ _ Hx. discriminate Hx.
Qed.
Lemma bracketed_balanced l : bracketed l -> count is_push l = count is_pop l.
Proof.
  induction 1; [reflexivity| |]; rewrite ?count_cons, ?count_app, ?count_cons; cbn [is_push is_pop]; lia.
Qed.
Theorem C31_declarations_balanced n calls : declarative n = true -> walk n calls -> count is_push calls = count is_pop calls.
Proof. intros Hd Hw. apply bracketed_balanced. exact (C31_declarations_bracketed n calls Hd Hw). Qed.

(** ** C32 *)
Theorem C32_let_panics {S} (E : emitter S) fuel x ty e s s1 t s2 :
  emit E (visit E fuel) Enter (ALibrarySingleDefinition (LetDefinition x ty e)) s = Ret (Ok Continue) s1 ->
  visit_wm E (visit E fuel) AFullExpression e s1 = Ret (Ok t) s2 ->
  visit E (Datatypes.S fuel) (ALibrarySingleDefinition (LetDefinition x ty e)) s = Panic.
Proof.
  intros He Hx. cbn [visit visit_node children]. unfold standard, bind, bind_res. rewrite He, Hx. reflexivity.
Qed.

(** So no emitter that always continues survives a library with a [let]. *)
Theorem C32_libraries {S} (E : emitter S) f n s fuel : continues E f -> has_let n = true -> height n <= fuel ->
  visit E fuel n s = Panic.
Proof.
  intros Hc. 
  assert (Hsingle : forall fuel d s, is_let d = true -> h_single d <= fuel -> visit E fuel (ALibrarySingleDefinition d) s = Panic).
  { intros fu d s' Hd Hf. destruct d as [x ty e|]; [|discriminate Hd]. destruct fu as [|fu]; [cbn in Hf; lia|].
    destruct (runs_at E f (visit E fu) AFullExpression e) with (s := f Enter (ALibrarySingleDefinition (LetDefinition x ty e)) s') as [ev [_ R]].
    - apply (visit_goes E f Hc); [reflexivity|cbn in *; lia].
    - eapply C32_let_panics; [apply Hc|exact R]. }
  assert (Hlib : forall fuel l s, lets_of l = true -> h_library l <= fuel -> visit E fuel (ALibraryDefinition l) s = Panic).
  { intros fu [nm ds] s' Hd Hf. destruct fu as [|fu]; [cbn in Hf; lia|]. cbn in Hd, Hf.
    cbn [visit visit_node children]. unfold standard. unfold bind_res at 1. rewrite Hc. unfold bind at 1, bind_res at 1.
    assert (G : forall ds s, existsb (fun d => is_let (node d)) ds = true -> maxs h_single ds <= fu ->
      visit_all E (visit E fu) ALibrarySingleDefinition ds s = Panic).
    { clear -Hc Hsingle. induction ds as [|d ds IH]; intros s H Hf; [discriminate H|]. cbn [visit_all existsb] in *.
      unfold maxs in *. cbn [map List.list_max fold_right] in Hf.
      destruct (is_let (node d)) eqn:Ed.
      - unfold bind, bind_res, visit_wm. rewrite Hsingle; [reflexivity|exact Ed|lia].
      - destruct (runs_at E f (visit E fu) ALibrarySingleDefinition d) with (s := s) as [ev [_ R]].
        + apply (visit_goes E f Hc); [exact Ed|cbn in *; lia].
        + unfold bind, bind_res. rewrite R. apply IH; [exact H|]. unfold List.list_max in *. lia. }
    unfold bind at 1, bind_res at 1. rewrite G; [reflexivity|exact Hd|lia]. }
  intros Hl Hf. destruct n; try discriminate Hl.
  - destruct n as [ver imp [lib|] c]; [|discriminate Hl]. cbn in Hl, Hf. destruct fuel as [|fu]; [lia|].
    cbn [visit visit_node children]. unfold standard. unfold bind_res at 1. rewrite Hc.
    assert (G : forall s, bind (visit_wm E (visit E fu) ALibraryDefinition lib)
        (fun t => match t with Continue => kcont | SkipChildren => ret (Early SkipChildren) end) s = Panic).
    { intro s'. unfold bind, bind_res, visit_wm. rewrite Hlib; [reflexivity|exact Hl|lia]. }
    destruct imp as [imp|].
    + destruct (runs_at E f (visit E fu) AImportDeclarations imp) with (s := f Enter (AProgram (mkProgram ver (Some imp) (Some lib) c)) s) as [ev [_ R]].
      * apply (visit_goes E f Hc); [reflexivity|cbn in *; unfold h_imports in *; lia].
      * unfold bind, bind_res in *. rewrite R. cbn. specialize (G (play E f ev (f Enter (AProgram (mkProgram ver (Some imp) (Some lib) c)) s))).
        cbn in *. now rewrite G.
    + unfold bind, bind_res in *. cbn. specialize (G (f Enter (AProgram (mkProgram ver None (Some lib) c)) s)). cbn in *. now rewrite G.
  - now apply Hlib.
  - now apply Hsingle.
Qed.

(** ** C29 *)

(** Any emitter answering by a function of the calls made so far ([recorder
    dec]), any node (but an explicit type-argument list, which nothing visits):
    - if the visit succeeds, every call that failed was tolerated, that is, it
      was [Enter] of an address type, or was among the arguments of a builtin
      with a message other than "Failure";
    - if the visit fails, it fails with the message of the first failure that
      is not tolerated, after which only positions are popped. *)
Theorem C29_errors_end_the_visit dec fuel n r calls : is_cta n = false ->
  visit (recorder dec) fuel n [] = Ret r calls ->
  match r with
  | Ok _ => only_tolerated dec calls
  | Err msg => exists before m k pops, calls = before ++ EvEmit m k :: repeat EvPop pops
      /\ dec before m k = Err msg /\ only_tolerated dec before
  end.
Proof.
  intros Hn Hv. assert (T0 : only_tolerated dec []).
  { intros h1 m k h2 msg H. destruct h1; discriminate H. }
  pose proof (safe_visit dec fuel n Hn [] T0) as H. rewrite Hv in H. destruct r as [t|msg]; [apply H|].
  destruct H as (e & m & k & p & H1 & H2 & H3). exists e, m, k, p. auto.
Qed.

(** Whatever the emitter: an error (or [SkipChildren]) on entering an address
    type is discarded; the visit goes on with [Exit]. *)
Theorem C29_address_types {S} (E : emitter S) fuel a s s' r : r <> Ok Continue ->
  emit E (visit E fuel) Enter (AAddressType a) s = Ret r s' ->
  visit E (Datatypes.S fuel) (AAddressType a) s = emit E (visit E fuel) Exit (AAddressType a) s'.
Proof.
  intros Hr He. cbn [visit visit_node]. unfold bind, bind_res. rewrite He. destruct r as [[]|m]; [congruence|reflexivity|reflexivity].
Qed.

(** Whatever the emitter: the failure of a builtin's argument ends the visit
    only if its message is "Failure". *)
Theorem C29_builtin_argument {S} (E : emitter S) fuel x s s1 s2 msg :
  let n := ABuiltinArguments (mkBuiltinArguments [x]) in
  emit E (visit E fuel) Enter n s = Ret (Ok Continue) s1 ->
  visit_wm E (visit E fuel) AVariableIdentifier x s1 = Ret (Err msg) s2 ->
  visit E (Datatypes.S fuel) n s =
    if str_eqb msg (lit "Failure") then Ret (Err msg) s2 else emit E (visit E fuel) Exit n s2.
Proof.
  intros n He Hx. cbn [visit]. unfold n. cbn [visit_node children visit_find]. unfold standard, bind, bind_res. 
  fold n. rewrite He, Hx. destruct (str_eqb msg (lit "Failure")); reflexivity.
Qed.

(** "An emitter error aborts the traversal" is false. *)
Definition p0 := mkpos 0 0 0.
Definition w00 {A} (a : A) : wm A := mkwm a p0 p0.
Definition an_address : NodeScillaType :=
  ScillaAddresseType (w00 (mkAddressType (w00 (TypeOrEnumLikeIdentifier (w00 (lit "ByStr20")))) (w00 (lit "contract"))
    [w00 (mkAddressTypeField (w00 (VariableName (w00 (lit "x"))))
       (w00 (GenericTypeWithArgs (w00 (MetaName (w00 (TypeOrEnumLikeIdentifier (w00 (lit "Int32")))))) [])))])).
Definition fails_on_address (_ : list event) (m : mode) (n : anynode) : result tr :=
  match m, n with Enter, AAddressType _ => Err (lit "no address please") | _, _ => Ok Continue end.
Theorem C29_every_error_aborts_refuted : exists dec n h, visit (recorder dec) (height n) n [] = Ret (Ok Continue) h
  /\ exists h1 m k h2 msg, h = h1 ++ EvEmit m k :: h2 /\ dec h1 m k = Err msg.
Proof.
  exists fails_on_address, (AScillaType an_address). eexists. split; [vm_compute; reflexivity|].
  eexists [_; _], Enter, (AAddressType _), _, _. split; reflexivity.
Qed.

(** Consequence for [from_str]: the declared fields of an address type whose
    name is a special identifier ([_x]) are replaced by contract parameters. *)
Theorem C29_address_field_stolen :
  from_str U_none no_debug (lit "scilla_version 0 contract C (a : Int32, b : String)
    field f : ByStr20 with contract field x : Bool, field _y : Uint128 end = e")
  = RValue (mkContract (lit "C") [mkField (lit "a") Int32; mkField (lit "b") TyString]
      [mkField (lit "f") (ByStr20With (lit "contract") [mkField (lit "x") TyBool; mkField (lit "b") TyString])] []).
Proof. vm_compute. reflexivity. Qed.

(** ** Witnesses *)

(** a node of each sort, as parsed *)
Definition vprogram := lit "scilla_version 0 import A library L type T = | B of Int32 contract C (a : Int32)
  field f : ByStr20 with contract field x : Bool end = Emp Int32 (Map String Bool)
  transition T (x : Bool) m = { _tag : ""t""; p : x }; match x with | True => accept | False => y = builtin add p q end end".
Definition summary (text : str) : option (bool * (nat * nat * nat)) :=
  match parse_str U_none Program text with
  | POk p =>
      match visit (recorder always_continue) (height (AProgram p)) (AProgram p) [] with
      | Ret (Ok Continue) calls => Some (has_let (AProgram p), (List.length calls, count is_push calls, count is_pop calls))
      | _ => None
      end
  | _ => None
  end.
Example C30_witness : summary vprogram = Some (false, (340, 85, 81)).
Proof. vm_compute. reflexivity. Qed.
(** balance refuted for expressions *)
Definition a_message := AFullExpression (Message [w00 (MessageVariable (w00 (VariableName (w00 (lit "k")))) (w00 (VariableName (w00 (lit "v")))))]).
Theorem C31_balance_refuted : exists calls, walk a_message calls /\ count is_push calls <> count is_pop calls.
Proof.
  destruct (C30_recorded a_message eq_refl) as [e [W R]]. exists e. split; [exact W|].
  vm_compute in R. injection R as <-. vm_compute. discriminate.
Qed.
Example C31_witness : declarative (AScillaType an_address) = true /\ exists calls, walk (AScillaType an_address) calls /\ count is_push calls = 7.
Proof.
  split; [reflexivity|]. destruct (C30_recorded (AScillaType an_address) eq_refl) as [e [W R]]. exists e. split; [exact W|].
  vm_compute in R. injection R as <-. reflexivity.
Qed.
Definition with_let := lit "scilla_version 0 library L type T let x = f a contract C ()".
Example C32_witness : exists p, parse_str U_none Program with_let = POk p /\ has_let (AProgram p) = true
  /\ visit (recorder always_continue) (height (AProgram p)) (AProgram p) [] = Panic.
Proof. eexists. split; [vm_compute; reflexivity|]. split; [reflexivity|]. vm_compute. reflexivity. Qed.
(** the two sides of [C29_errors_end_the_visit] *)
Definition fails_on_bool (_ : list event) (m : mode) (n : anynode) : result tr :=
  match n with
  | ATypeNameIdentifier (TypeOrEnumLikeIdentifier s) => if str_eqb (node s) (lit "Int32") then Err (lit "no") else Ok Continue
  | _ => Ok Continue
  end.
Example C29_witness : exists h, visit (recorder fails_on_bool) 20 (AScillaType an_address) [] = Ret (Err (lit "no")) h.
Proof. eexists. vm_compute. reflexivity. Qed.
