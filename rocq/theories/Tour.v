(** C47: the traversal for emitters that answer anything: a specification as
    one relation, by a table ([plan]) that says for each child of a node what
    its answer [SkipChildren] does. *)
From Verif Require Import Chars Lexer LexerProofs Ast Visitor Trace TraceFacts.
Local Open Scope nat_scope.

(** ** Specification *)

(** What happens in the visit of a node when the visit of a child comes back
    with [Ok(SkipChildren)]. *)
Inductive reaction :=
| Ignore   (* nothing: the next child is visited *)
| Finish   (* no further child is visited; then [Exit] as usual *)
| Stop     (* no further child, no [Exit]; the visit returns [Ok(Continue)] *)
| Return   (* no further child, no [Exit]; the visit returns [Ok(SkipChildren)] *).

(** One move in the visit of a node, after [Enter]. *)
Inductive move :=
| Child (r : reaction) (at_pos : option (source_position * source_position)) (n : anynode)
| PushOnly (a b : source_position)   (* a position pushed and never popped *)
| Crash.                             (* [unimplemented!()] *)

Definition one {A} (r : reaction) (inj : A -> anynode) (w : wm A) : move :=
  Child r (Some (wm_start w, wm_end w)) (inj (node w)).
Definition each {A} (r : reaction) (inj : A -> anynode) (l : list (wm A)) : list move := map (one r inj) l.
Definition maybe {A} (r : reaction) (inj : A -> anynode) (o : option (wm A)) : list move :=
  match o with Some w => [one r inj w] | None => [] end.
Definition bare (r : reaction) (n : anynode) : move := Child r None n.
Definition push_only {A} (w : wm A) : move := PushOnly (wm_start w) (wm_end w).

(** The children of every kind of node, in order. *)
Definition plan (n : anynode) : list move :=
  match n with
  | AByteStr _ => []
  | ATypeNameIdentifier (ByteStringType b) => [bare Stop (AByteStr b)]
  | ATypeNameIdentifier _ => []
  | AImportedName (RegularImport n) => [one Stop ATypeNameIdentifier n]
  | AImportedName (AliasedImport n a) => [one Ignore ATypeNameIdentifier n; one Stop ATypeNameIdentifier a]
  | AImportDeclarations (mkImportDeclarations l) => each Ignore AImportedName l
  | AMetaIdentifier (MetaName n) => [one Stop ATypeNameIdentifier n]
  | AMetaIdentifier (MetaNameInNamespace a b) => [one Ignore ATypeNameIdentifier a; one Stop ATypeNameIdentifier b]
  | AMetaIdentifier (MetaNameInHexspace _ n) => [one Stop ATypeNameIdentifier n]
  | AMetaIdentifier MetaByteString => []
  | AVariableIdentifier (VariableInNamespace ns _) => [one Stop ATypeNameIdentifier ns]
  | AVariableIdentifier _ => []
  | ABuiltinArguments (mkBuiltinArguments l) => each Ignore AVariableIdentifier l
  | ATypeMapKey (GenericMapKey m) | ATypeMapKey (EnclosedGenericId m) => [one Stop AMetaIdentifier m]
  | ATypeMapKey (EnclosedAddressMapKeyType a) | ATypeMapKey (AddressMapKeyType a) => [one Stop AAddressType a]
  | ATypeMapValue (MapValueTypeOrEnumLikeIdentifier m) => [one Stop AMetaIdentifier m]
  | ATypeMapValue (MapKeyValue e) => [one Stop ATypeMapEntry e]
  | ATypeMapValue (MapValueParenthesizedType t) => [one Stop ATypeMapValueAllowingTypeArguments t]
  | ATypeMapValue (MapValueAddressType a) => [one Stop AAddressType a]
  | ATypeArgument (EnclosedTypeArgument t) => [one Stop AScillaType t]
  | ATypeArgument (GenericTypeArgument m) => [one Stop AMetaIdentifier m]
  | ATypeArgument (TemplateTypeArgument _) => []
  | ATypeArgument (AddressTypeArgument a) => [one Stop AAddressType a]
  | ATypeArgument (MapTypeArgument k x) => [one Finish ATypeMapKey k; one Stop ATypeMapValue x]
  | AScillaType (GenericTypeWithArgs m args) => one Ignore AMetaIdentifier m :: each Ignore ATypeArgument args
  | AScillaType (MapType k x) => [one Ignore ATypeMapKey k; one Stop ATypeMapValue x]
  | AScillaType (FunctionType a b) => [one Ignore AScillaType a; one Stop AScillaType b]
  | AScillaType (PolyFunctionType _ t) => [one Stop AScillaType t]
  | AScillaType (EnclosedType t) => [one Stop AScillaType t]
  | AScillaType (ScillaAddresseType a) => [one Stop AAddressType a]
  | AScillaType (TypeVarType _) => []
  | ATypeMapEntry (mkTypeMapEntry k x) => [one Ignore ATypeMapKey k; one Stop ATypeMapValue x]
  | AAddressTypeField (mkAddressTypeField i t) => [one Ignore AVariableIdentifier i; one Stop AScillaType t]
  | AAddressType (mkAddressType i _ fs) => one Ignore ATypeNameIdentifier i :: each Ignore AAddressTypeField fs
  | AFullExpression (LocalVariableDeclaration _ e _ c) => [one Ignore AFullExpression e; one Stop AFullExpression c]
  | AFullExpression (FunctionDeclaration _ _ e) => [one Stop AFullExpression e]
  | AFullExpression (FunctionCall f args) => one Ignore AVariableIdentifier f :: each Ignore AVariableIdentifier args
  | AFullExpression (ExpressionAtomic a) => [one Stop AAtomicExpression a]
  | AFullExpression (ExpressionBuiltin _ _ xs) => [one Stop ABuiltinArguments xs]
  | AFullExpression (Message l) => each Ignore AMessageEntry l
  | AFullExpression (EMatch e cs) => one Ignore AVariableIdentifier e :: each Ignore APatternMatchExpressionClause cs
  | AFullExpression (ConstructorCall i _ args) => one Ignore AMetaIdentifier i :: each Ignore AVariableIdentifier args
  | AFullExpression (TemplateFunction _ e) => [one Stop AFullExpression e]
  | AFullExpression (TApp i args) => one Ignore AVariableIdentifier i :: each Ignore ATypeArgument args
  | AMessageEntry (MessageLiteral i x) => [one Ignore AVariableIdentifier i; one Stop AValueLiteral x]
  | AMessageEntry (MessageVariable i x) => [one Ignore AVariableIdentifier i; push_only x; one Stop AVariableIdentifier x]
  | APatternMatchExpressionClause (mkPatternMatchExpressionClause p e) => [one Stop APattern p; one Stop AFullExpression e]
  | AAtomicExpression (AtomicSid x) => [one Stop AVariableIdentifier x]
  | AAtomicExpression (AtomicLit x) => [one Stop AValueLiteral x]
  | AContractTypeArguments (mkContractTypeArguments l) => each Ignore ATypeArgument l
  | AValueLiteral (LiteralInt n _) => [one Stop ATypeNameIdentifier n]
  | AValueLiteral (LiteralEmptyMap k x) => [one Ignore ATypeMapKey k; push_only x; one Stop ATypeMapValue x]
  | AValueLiteral _ => []
  | AMapAccess (mkMapAccess i) => [one Stop AVariableIdentifier i]
  | APattern (PatConstructor m args) => one Ignore AMetaIdentifier m :: each Ignore AArgumentPattern args
  | APattern _ => []
  | AArgumentPattern (ConstructorArgument m) => [one Stop AMetaIdentifier m]
  | AArgumentPattern (PatternArgument p) => [one Stop APattern p]
  | AArgumentPattern _ => []
  | APatternMatchClause (mkPatternMatchClause p b) => push_only p :: one Ignore APattern p :: maybe Stop AStatementBlock b
  | ABlockchainFetchArguments (mkBlockchainFetchArguments l) => each Ignore AVariableIdentifier l
  | AStatement (Load _ x) | AStatement (Store _ x) => [one Stop AVariableIdentifier x]
  | AStatement (RemoteFetch r) => [bare Stop (ARemoteFetchStatement r)]
  | AStatement (Bind _ e) => [one Stop AFullExpression e]
  | AStatement (ReadFromBC _ _ (Some a)) => [bare Stop (ABlockchainFetchArguments a)]
  | AStatement (ReadFromBC _ _ None) => []
  | AStatement (MapGet _ l _) | AStatement (MapGetExists _ l _) => each Return AMapAccess l
  | AStatement (MapUpdate _ l _) | AStatement (MapUpdateDelete _ l) => each Return AMapAccess l
  | AStatement Accept => []
  | AStatement (Send i) | AStatement (CreateEvnt i) => [one Stop AVariableIdentifier i]
  | AStatement (Throw o) => maybe Stop AVariableIdentifier o
  | AStatement (MatchStmt x cs) => one Return AVariableIdentifier x :: each Return APatternMatchClause cs
  | AStatement (CallProc c args) => one Return AComponentId c :: each Return AVariableIdentifier args
  | AStatement (Iterate i c) => [one Return AVariableIdentifier i; one Stop AComponentId c]
  | ARemoteFetchStatement (ReadStateMutable _ _ x) => [one Stop AVariableIdentifier x]
  | ARemoteFetchStatement (ReadStateMutableSpecialId _ _ _) => []
  | ARemoteFetchStatement (ReadStateMutableMapAccess _ _ _ l)
  | ARemoteFetchStatement (ReadStateMutableMapAccessExists _ _ _ l) => each Ignore AMapAccess l
  | ARemoteFetchStatement (ReadStateMutableCastAddress _ x a) => [one Ignore AVariableIdentifier x; one Stop AAddressType a]
  | AComponentId (WithTypeLikeName n) => [one Stop ATypeNameIdentifier n]
  | AComponentId (WithRegularId _) => []
  | AComponentParameters (mkComponentParameters l) => each Ignore AParameterPair l
  | AParameterPair (mkParameterPair i) => [one Stop ATypedIdentifier i]
  | AComponentBody (mkComponentBody o) => maybe Stop AStatementBlock o
  | AStatementBlock (mkStatementBlock l) => map (fun st => bare Ignore (AStatement st)) l
  | ATypedIdentifier (mkTypedIdentifier _ a) => [one Stop ATypeAnnotation a]
  | ATypeAnnotation (mkTypeAnnotation t) => [one Stop AScillaType t]
  | AProgram (mkProgram _ imp lib c) =>
      maybe Return AImportDeclarations imp ++ maybe Return ALibraryDefinition lib ++ [one Stop AContractDefinition c]
  | ALibraryDefinition (mkLibraryDefinition _ l) => each Ignore ALibrarySingleDefinition l
  | ALibrarySingleDefinition (LetDefinition _ _ e) => [one Ignore AFullExpression e; Crash]
  | ALibrarySingleDefinition (TypeDefinition n cs) =>
      one Ignore ATypeNameIdentifier n :: match cs with Some cs => each Ignore ATypeAlternativeClause cs | None => [] end
  | AContractDefinition (mkContractDefinition _ ps con fs cs) =>
      one Ignore AComponentParameters ps :: maybe Ignore AWithConstraint con
        ++ each Ignore AContractField fs ++ each Ignore AComponentDefinition cs
  | AContractField (mkContractField i e) => [one Ignore ATypedIdentifier i; one Stop AFullExpression e]
  | AWithConstraint (mkWithConstraint e) => [one Stop AFullExpression e]
  | AComponentDefinition (TransitionComponent t) => [one Stop ATransitionDefinition t]
  | AComponentDefinition (ProcedureComponent p) => [one Stop AProcedureDefinition p]
  | AProcedureDefinition (mkProcedureDefinition n ps b)
  | ATransitionDefinition (mkTransitionDefinition n ps b) =>
      [one Ignore AComponentId n; one Ignore AComponentParameters ps; one Stop AComponentBody b]
  | ATypeAlternativeClause (ClauseType n) => [one Stop ATypeNameIdentifier n]
  | ATypeAlternativeClause (ClauseTypeWithArgs n args) => one Ignore ATypeNameIdentifier n :: each Ignore ATypeArgument args
  | ATypeMapValueArguments (EnclosedTypeMapValue t) => [one Stop ATypeMapValueAllowingTypeArguments t]
  | ATypeMapValueArguments (GenericMapValueArgument m) => [one Stop AMetaIdentifier m]
  | ATypeMapValueArguments (MapKeyValueType k x) => [one Ignore ATypeMapKey k; one Stop ATypeMapValue x]
  | ATypeMapValueAllowingTypeArguments (TypeMapValueNoArgs t) => [one Stop ATypeMapValue t]
  | ATypeMapValueAllowingTypeArguments (TypeMapValueWithArgs m args) =>
      one Stop AMetaIdentifier m :: each Stop ATypeMapValueArguments args
  end.

(** Failures of a child that the visit of the node does not hand on. *)
Definition tolerates (n : anynode) (msg : str) : Prop :=
  match n with
  | ABuiltinArguments _ => msg <> lit "Failure"
  | AContractTypeArguments _ => msg <> []
  | _ => False
  end.

(** How the visits of the children ended. *)
Inductive ending := Done | Stopped | Returned | Failed (msg : str) | Crashed.

Section Tour.
  (** The emitter: [push]/[pop] of positions and the callbacks, which may answer
      anything, fail or panic, but do not start visits themselves. *)
  Context {S : Type} (E : emitter S) (c : mode -> anynode -> M S tr).

  Inductive tours : anynode -> S -> outcome S tr -> Prop :=
  | to_panic n s : c Enter n s = Panic -> tours n s Panic
  | to_fail n s msg s' : is_address n = false -> c Enter n s = Ret (Err msg) s' -> tours n s (Ret (Err msg) s')
  | to_skip n s s' : is_address n = false -> c Enter n s = Ret (Ok SkipChildren) s' -> tours n s (Ret (Ok Continue) s')
  | to_address n s r s' : is_address n = true -> c Enter n s = Ret r s' -> r <> Ok Continue ->
      tours n s (c Exit n s')
  | to_enter n s s' k s'' : c Enter n s = Ret (Ok Continue) s' -> moves n (plan n) s' k s'' ->
      tours n s match k with
                | Done => c Exit n s''
                | Stopped => Ret (Ok Continue) s''
                | Returned => Ret (Ok SkipChildren) s''
                | Failed msg => Ret (Err msg) s''
                | Crashed => Panic
                end
  with moves : anynode -> list move -> S -> ending -> S -> Prop :=
  | mv_done n s : moves n [] s Done s
  | mv_push n a b l s k s' : moves n l (push_source_position E a b s) k s' -> moves n (PushOnly a b :: l) s k s'
  | mv_crash n l s : moves n (Crash :: l) s Crashed s
  | mv_child n r o m l s out k s' :
      tours m (match o with Some (a, b) => push_source_position E a b s | None => s end) out ->
      replies n r l out (match o with Some _ => pop_source_position E | None => fun s => s end) k s' ->
      moves n (Child r o m :: l) s k s'
  (** what follows the outcome of a child's visit; [pop] leaves its position *)
  with replies : anynode -> reaction -> list move -> outcome S tr -> (S -> S) -> ending -> S -> Prop :=
  | re_panic n r l pop s : replies n r l Panic pop Crashed s
  | re_fail n r l pop msg s : ~ tolerates n msg -> replies n r l (Ret (Err msg) s) pop (Failed msg) (pop s)
  | re_tolerate n r l pop msg s k s' : tolerates n msg -> moves n l (pop s) k s' ->
      replies n r l (Ret (Err msg) s) pop k s'
  | re_continue n r l pop s k s' : moves n l (pop s) k s' -> replies n r l (Ret (Ok Continue) s) pop k s'
  | re_ignore n l pop s k s' : moves n l (pop s) k s' -> replies n Ignore l (Ret (Ok SkipChildren) s) pop k s'
  | re_finish n l pop s : replies n Finish l (Ret (Ok SkipChildren) s) pop Done (pop s)
  | re_stop n l pop s : replies n Stop l (Ret (Ok SkipChildren) s) pop Stopped (pop s)
  | re_return n l pop s : replies n Return l (Ret (Ok SkipChildren) s) pop Returned (pop s).
End Tour.

(** The children of the table are those of Trace.v. *)
Definition move_step (m : move) : list step :=
  match m with
  | Child _ (Some (a, b)) n => [At a b n]
  | Child _ None n => [Bare n]
  | PushOnly a b => [Extra a b]
  | Crash => []
  end.
Lemma steps_each {A} r (inj : A -> anynode) l : flat_map move_step (each r inj l) = ats inj l.
Proof. unfold each, ats. induction l as [|w l IH]; [reflexivity|]. cbn. now rewrite IH. Qed.
Lemma plan_kids n : flat_map move_step (plan n) = kids n.
Proof.
  destruct n as [n|n|n|n|n|n|n|n|n|n|n|n|n|n|n|n|n|n|n|n|n|n|n|n|n|n|n|n|n|n|n|n|n|n|n|n|n|n|n|n|n|n|n|n|n|n]; destruct n;
    repeat match goal with
    | b : NodeByteStr |- _ => destruct b
    | o : option _ |- _ => destruct o
    end; try reflexivity; cbn [plan kids opt_at maybe app];
    cbn [flat_map move_step one app at_]; rewrite ?flat_map_app, ?steps_each; try reflexivity.
  induction statements as [|st l IH]; [reflexivity|]. cbn. now rewrite IH.
Qed.

(** ** The model follows the table *)
Definition tol (n : anynode) (msg : str) : bool :=
  match n with
  | ABuiltinArguments _ => negb (str_eqb msg (lit "Failure"))
  | AContractTypeArguments _ => negb (str_eqb msg [])
  | _ => false
  end.

Section Run.
  Context {S : Type} (E : emitter S).
  Section V.
  Context (v : anynode -> M S tr) (n : anynode).
  Definition child_visit (o : option (source_position * source_position)) (m : anynode) : M S tr :=
    match o with
    | None => v m
    | Some (a, b) => fun s => match v m (push_source_position E a b s) with
                              | Ret r s' => Ret r (pop_source_position E s')
                              | Panic => Panic
                              | Fuel => Fuel
                              end
    end.
  Fixpoint run (l : list move) : M S kid :=
    match l with
    | [] => ret (Kid Continue)
    | PushOnly a b :: l => fun s => run l (push_source_position E a b s)
    | Crash :: _ => panic
    | Child r o m :: l =>
        fun s => match child_visit o m s with
                 | Ret (Ok Continue) s' => run l s'
                 | Ret (Ok SkipChildren) s' =>
                     match r with
                     | Ignore => run l s'
                     | Finish => Ret (Ok (Kid Continue)) s'
                     | Stop => Ret (Ok (Kid SkipChildren)) s'
                     | Return => Ret (Ok (Early SkipChildren)) s'
                     end
                 | Ret (Err msg) s' => if tol n msg then run l s' else Ret (Err msg) s'
                 | Panic => Panic
                 | Fuel => Fuel
                 end
    end.

  Definition same {A} (m1 m2 : M S A) : Prop := forall s, m1 s = m2 s.
  Lemma same_kcont : same kcont (run []).
  Proof. intro s. reflexivity. Qed.
  Lemma same_ignore {A} (inj : A -> anynode) w k l : (forall msg, tol n msg = false) -> same k (run l) ->
    same (visit_wm E v inj w ;;; k) (run (one Ignore inj w :: l)).
  Proof.
    intros Ht Hk s. cbn [run one child_visit]. unfold bind, bind_res, visit_wm.
    destruct (v (inj (node w)) _) as [[[|]|msg] s'| |]; try reflexivity; try apply Hk. now rewrite Ht.
  Qed.
  Lemma same_each_ignore {A} (inj : A -> anynode) ws k l : (forall msg, tol n msg = false) -> same k (run l) ->
    same (visit_all E v inj ws ;;; k) (run (each Ignore inj ws ++ l)).
  Proof.
    intros Ht Hk. induction ws as [|w ws IH]; [intro s; apply Hk|]. intro s.
    change (each Ignore inj (w :: ws) ++ l) with (one Ignore inj w :: (each Ignore inj ws ++ l)).
    rewrite <- (same_ignore inj w _ _ Ht IH s). cbn [visit_all]. unfold bind, bind_res.
    destruct (visit_wm E v inj w s) as [[a|msg] s'| |]; reflexivity.
  Qed.
  Lemma same_each_last {A} (inj : A -> anynode) ws : (forall msg, tol n msg = false) ->
    same (visit_all E v inj ws ;;; kcont) (run (each Ignore inj ws)).
  Proof.
    intros Ht s. rewrite (same_each_ignore inj ws kcont [] Ht same_kcont s). now rewrite app_nil_r.
  Qed.
  Lemma same_last {A} (inj : A -> anynode) w : (forall msg, tol n msg = false) ->
    same (kid_of (visit_wm E v inj w)) (run [one Stop inj w]).
  Proof.
    intros Ht s. cbn [run one child_visit]. unfold kid_of, bind, bind_res, visit_wm.
    destruct (v (inj (node w)) _) as [[[|]|msg] s'| |]; try reflexivity. now rewrite Ht.
  Qed.
  Lemma same_bare m : (forall msg, tol n msg = false) -> same (kid_of (v m)) (run [bare Stop m]).
  Proof.
    intros Ht s. cbn [run bare child_visit]. unfold kid_of, bind, bind_res.
    destruct (v m s) as [[[|]|msg] s'| |]; try reflexivity. now rewrite Ht.
  Qed.
  Lemma same_push {A} (w : wm A) k l : same k (run l) -> same (push_pos E w ;;; k) (run (push_only w :: l)).
  Proof. intros Hk s. exact (Hk _). Qed.
  Lemma same_reaction {A} (inj : A -> anynode) w r k ks l : (forall msg, tol n msg = false) -> same k (run l) ->
    ks = match r with Ignore => k | Finish => ret (Kid Continue) | Stop => ret (Kid SkipChildren) | Return => ret (Early SkipChildren) end ->
    same (t <- visit_wm E v inj w ;; match t with Continue => k | SkipChildren => ks end) (run (one r inj w :: l)).
  Proof.
    intros Ht Hk -> s. cbn [run one child_visit]. unfold bind, bind_res, visit_wm.
    destruct (v (inj (node w)) _) as [[[|]|msg] s'| |]; try reflexivity; try apply Hk; [|now rewrite Ht].
    destruct r; try reflexivity. apply Hk.
  Qed.
  Lemma same_until {A} (inj : A -> anynode) ws : (forall msg, tol n msg = false) ->
    same (visit_until E v inj ws) (run (each Return inj ws)).
  Proof.
    intros Ht. induction ws as [|w ws IH]; [intro s; reflexivity|]. cbn [visit_until each map].
    now apply (same_reaction inj w Return).
  Qed.
  Lemma same_args {A} (inj : A -> anynode) ws : (forall msg, tol n msg = false) ->
    same (kid_of (visit_args E v inj ws)) (run (each Stop inj ws)).
  Proof.
    intros Ht. induction ws as [|w ws IH]; [intro s; reflexivity|]. intro s.
    change (each Stop inj (w :: ws)) with (one Stop inj w :: each Stop inj ws).
    rewrite <- (same_reaction inj w Stop _ _ _ Ht IH eq_refl s). cbn [visit_args].
    unfold kid_of, bind, bind_res. destruct (visit_wm E v inj w s) as [[[|]|msg] s'| |]; reflexivity.
  Qed.
  Lemma same_find {A} (inj : A -> anynode) msg ws : (forall m, tol n m = negb (str_eqb m msg)) ->
    same (visit_find E v inj msg ws) (run (each Ignore inj ws)).
  Proof.
    intros Ht. induction ws as [|w ws IH]; [intro s; reflexivity|]. intro s. cbn [visit_find each map run one child_visit].
    unfold bind_res, visit_wm. destruct (v (inj (node w)) _) as [[[|]|m] s'| |]; try reflexivity; try apply IH.
    rewrite Ht. destruct (str_eqb m msg); cbn [negb]; [reflexivity|apply IH].
  Qed.
  Lemma same_assoc {A B} (m1 : M S A) (m2 : M S B) (k : M S kid) x : same (m1 ;;; m2 ;;; k) x -> same ((m1 ;;; m2) ;;; k) x.
  Proof.
    intros H s. rewrite <- (H s). unfold bind, bind_res. destruct (m1 s) as [[a|m] s'| |]; reflexivity.
  Qed.
  Lemma same_crash l : same panic (run (Crash :: l)).
  Proof. intro s. reflexivity. Qed.
  Lemma same_program_none (k : M S kid) x :
    same k x -> same (k' <- kcont ;; match k' with Early t => ret (Early t) | Kid _ => k end) x.
  Proof. intros H s. apply H. Qed.
  End V.
  Lemma same_program_step {A} v p (inj : A -> anynode) w k l : same k (run v (AProgram p) l) ->
    same (k' <- (t <- visit_wm E v inj w ;; match t with Continue => kcont | SkipChildren => ret (Early SkipChildren) end) ;;
          match k' with Early t => ret (Early t) | Kid _ => k end) (run v (AProgram p) (one Return inj w :: l)).
  Proof.
    intros Hk s. cbn [run one child_visit tol]. unfold bind, bind_res, visit_wm.
    destruct (v (inj (node w)) _) as [[[|]|msg] s'| |]; try reflexivity. apply Hk.
  Qed.

  Lemma children_plan v n s : children E v n s = run v n (plan n) s.
  Proof.
    enough (H : same (children E v n) (run v n (plan n))) by apply H.
    destruct n as [n|n|n|n|n|n|n|n|n|n|n|n|n|n|n|n|n|n|n|n|n|n|n|n|n|n|n|n|n|n|n|n|n|n|n|n|n|n|n|n|n|n|n|n|n|n]; destruct n;
      repeat match goal with
      | b : NodeByteStr |- _ => destruct b
      | o : option _ |- _ => destruct o
      end; cbn [children plan maybe app];
      repeat first
        [ apply same_kcont | apply same_crash | apply same_last; [reflexivity] | apply same_bare; [reflexivity]
        | apply same_until; [reflexivity] | apply same_args; [reflexivity]
        | apply same_each_last; [reflexivity]
        | apply same_find; [reflexivity]
        | apply same_ignore; [reflexivity|] | apply same_each_ignore; [reflexivity|] | apply same_push
        | apply same_assoc
        | eapply same_reaction; [reflexivity| |reflexivity] ].
    - (* statement blocks *)
      assert (G : forall l (b : NodeStatementBlock), same ((fix go (l : list NodeStatement) : M S unit :=
         match l with [] => ret tt | st :: r => v (AStatement st) ;;; go r end) l ;;; kcont)
        (run v (AStatementBlock b) (map (fun st => bare Ignore (AStatement st)) l))); [|apply G].
      clear. intros l b. induction l as [|st l IH]; [intro s; reflexivity|]. intro s.
      cbn [map run bare child_visit]. unfold bind, bind_res in *.
      destruct (v (AStatement st) s) as [[[|]|msg] s'| |]; try reflexivity; apply IH.
    - apply same_program_step. apply same_program_step. apply same_last. reflexivity.
    - apply same_program_none. apply same_program_step. apply same_last. reflexivity.
    - apply same_program_step. apply same_program_none. apply same_last. reflexivity.
  Qed.
End Run.

(** ** The model meets the specification *)
Section Meets.
  Context {S : Type} (E : emitter S) (c : mode -> anynode -> M S tr).
  Hypothesis no_visits : forall v m n s, emit E v m n s = c m n s.
  Hypothesis no_fuel : forall m n s, c m n s <> Fuel.

  Lemma tours_fuel n s : ~ tours E c n s Fuel.
  Proof.
    intro H. inversion H; subst.
    - now apply (no_fuel Exit n s').
    - destruct k; try discriminate. now apply (no_fuel Exit n s'').
  Qed.
  Lemma tol_tolerates n msg : tol n msg = true <-> tolerates n msg.
  Proof.
    destruct n; cbn [tol tolerates]; try (split; [discriminate|tauto]);
      rewrite negb_true_iff; (split; [intros H ->; rewrite (proj2 (str_eqb_eq _ _) eq_refl) in H; discriminate H|intro H; destruct (str_eqb _ _) eqn:Es; [apply str_eqb_eq in Es; tauto|reflexivity]]).
  Qed.

  Definition kres (k : ending) (s : S) : outcome S kid :=
    match k with
    | Done => Ret (Ok (Kid Continue)) s
    | Stopped => Ret (Ok (Kid SkipChildren)) s
    | Returned => Ret (Ok (Early SkipChildren)) s
    | Failed m => Ret (Err m) s
    | Crashed => Panic
    end.

  Definition move_nodes (m : move) : list anynode := match m with Child _ _ n => [n] | _ => [] end.

  Lemma moves_run v n l : (forall m, In m (flat_map move_nodes l) -> forall s o, v m s = o <-> tours E c m s o) ->
    forall s x, run E v n l s = x <-> exists k s', moves E c n l s k s' /\ x = kres k s'.
  Proof.
    induction l as [|mv l IH]; intros H s x.
    - cbn [run]. split.
      + intros <-. exists Done, s. split; [constructor|reflexivity].
      + intros (k & s' & Hm & ->). inversion Hm; subst. reflexivity.
    - assert (IH' := IH (fun m Hm => H m (in_or_app (move_nodes mv) _ m (or_intror Hm)))).
      destruct mv as [r o m|a b|].
      + assert (Hm := H m (or_introl eq_refl)).
        assert (Ec : child_visit E v o m s = match v m (match o with Some (a, b) => push_source_position E a b s | None => s end) with
                  | Ret r s' => Ret r (match o with Some _ => pop_source_position E | None => fun s => s end s')
                  | Panic => Panic | Fuel => Fuel end).
        { destruct o as [[a b]|]; cbn [child_visit]; [reflexivity|]. now destruct (v m s). }
        assert (Nf : forall s, v m s <> Fuel) by (intros s0 Hf; apply Hm in Hf; exact (tours_fuel _ _ Hf)).
        cbn [run]. rewrite Ec. split.
        * intro Hx. remember (v m _) as out eqn:Eo. symmetry in Eo. assert (Ho := proj1 (Hm _ _) Eo).
          enough (G : exists k s', replies E c n r l out (match o with Some _ => pop_source_position E | None => fun s => s end) k s' /\ x = kres k s').
          { destruct G as (k & s' & G & ->). exists k, s'. split; [|reflexivity]. econstructor; eassumption. }
          destruct out as [[[|]|msg] s'| |].
          -- apply IH' in Hx. destruct Hx as (k & s2 & Hk & ->). exists k, s2. split; [now constructor|reflexivity].
          -- destruct r.
             ++ apply IH' in Hx. destruct Hx as (k & s2 & Hk & ->). exists k, s2. split; [now constructor|reflexivity].
             ++ subst x. eexists _, _. split; [apply re_finish|reflexivity].
             ++ subst x. eexists _, _. split; [apply re_stop|reflexivity].
             ++ subst x. eexists _, _. split; [apply re_return|reflexivity].
          -- destruct (tol n msg) eqn:Et.
             ++ apply IH' in Hx. destruct Hx as (k & s2 & Hk & ->). exists k, s2. split; [apply re_tolerate; [now apply tol_tolerates|exact Hk]|reflexivity].
             ++ subst x. eexists _, _. split; [apply re_fail; rewrite <- tol_tolerates, Et; discriminate|reflexivity].
          -- subst x. exists Crashed, s. split; [constructor|reflexivity].
          -- destruct (Nf _ Eo).
        * intros (k & s' & Hk & ->). inversion Hk; subst.
          match goal with Ht : tours _ _ _ _ _ |- _ => apply Hm in Ht; rewrite Ht end.
          match goal with Hr : replies _ _ _ _ _ _ _ _ _ |- _ => inversion Hr; subst end; try reflexivity.
          -- match goal with Ht : ~ tolerates _ _ |- _ => rewrite <- tol_tolerates in Ht end.
             destruct (tol n msg); [exfalso; tauto|reflexivity].
          -- match goal with Ht : tolerates _ _ |- _ => apply tol_tolerates in Ht; rewrite Ht end. apply IH'. eauto.
          -- apply IH'. eauto.
          -- apply IH'. eauto.
      + cbn [run]. rewrite IH'. split.
        * intros (k & s' & Hk & ->). exists k, s'. split; [now constructor|reflexivity].
        * intros (k & s' & Hk & ->). inversion Hk; subst. eauto.
      + cbn [run]. split.
        * intros <-. exists Crashed, s. split; [constructor|reflexivity].
        * intros (k & s' & Hk & ->). inversion Hk; subst. reflexivity.
  Qed.

  Lemma move_nodes_kids n : flat_map move_nodes (plan n) = kid_nodes n.
  Proof.
    unfold kid_nodes. rewrite <- plan_kids. induction (plan n) as [|m l IH]; [reflexivity|]. cbn [flat_map].
    rewrite flat_map_app, IH. f_equal. destruct m as [r [[a b]|] m|a b|]; reflexivity.
  Qed.
  Lemma height_pos n : height n <> 0.
  Proof.
    destruct n as [n|n|n|n|n|n|n|n|n|n|n|n|n|n|n|n|n|n|n|n|n|n|n|n|n|n|n|n|n|n|n|n|n|n|n|n|n|n|n|n|n|n|n|n|n|n];
      destruct n; discriminate.
  Qed.

  Lemma visit_tours fuel : forall n, height n <= fuel -> forall s o, visit E fuel n s = o <-> tours E c n s o.
  Proof.
    induction fuel as [|fuel IH]; intros n Hf; [pose proof (height_pos n); lia|].
    assert (K : forall s x, children E (visit E fuel) n s = x <-> exists k s', moves E c n (plan n) s k s' /\ x = kres k s').
    { intros s x. rewrite children_plan. apply moves_run. intros m Hm. apply IH.
      rewrite move_nodes_kids in Hm. pose proof (height_kid n m Hm). lia. }
    assert (V : forall s, visit E (Datatypes.S fuel) n s =
      match c Enter n s with
      | Panic => Panic
      | Fuel => Fuel
      | Ret (Ok Continue) s1 =>
          match children E (visit E fuel) n s1 with
          | Ret (Ok (Kid Continue)) s2 => c Exit n s2
          | Ret (Ok (Kid SkipChildren)) s2 => Ret (Ok Continue) s2
          | Ret (Ok (Early t)) s2 => Ret (Ok t) s2
          | Ret (Err m) s2 => Ret (Err m) s2
          | Panic => Panic
          | Fuel => Fuel
          end
      | Ret r s1 => if is_address n then c Exit n s1 else
          match r with Err m => Ret (Err m) s1 | _ => Ret (Ok Continue) s1 end
      end).
    { intro s. cbn [visit]. destruct n; cbn [visit_node is_address]; unfold standard, bind, bind_res; rewrite no_visits;
        destruct (c Enter _ s) as [[[|]|m] s1| |]; try reflexivity; try apply no_visits;
        destruct (children E (visit E fuel) _ s1) as [[[[|]|t]|m2] s2| |]; try reflexivity; apply no_visits. }
    intros s o. rewrite V. split.
    - intro Ho. destruct (c Enter n s) as [[[|]|m] s1| |] eqn:Ec.
      + destruct (children E (visit E fuel) n s1) as [[kd|m2] s2| |] eqn:Ek.
        * destruct (proj1 (K _ _) Ek) as (k & s' & Hk & Eq).
          pose proof (to_enter E c n s s1 k s' Ec Hk) as T. destruct k; cbn in Eq; inversion Eq; subst; exact T.
        * destruct (proj1 (K _ _) Ek) as (k & s' & Hk & Eq).
          pose proof (to_enter E c n s s1 k s' Ec Hk) as T. destruct k; cbn in Eq; inversion Eq; subst; exact T.
        * destruct (proj1 (K _ _) Ek) as (k & s' & Hk & Eq).
          pose proof (to_enter E c n s s1 k s' Ec Hk) as T. destruct k; cbn in Eq; inversion Eq; subst; exact T.
        * destruct (proj1 (K _ _) Ek) as (k & s' & Hk & Eq). destruct k; discriminate.
      + destruct (is_address n) eqn:Ea; subst o.
        * eapply to_address; [exact Ea|exact Ec|discriminate].
        * now apply to_skip.
      + destruct (is_address n) eqn:Ea; subst o.
        * eapply to_address; [exact Ea|exact Ec|discriminate].
        * now apply to_fail.
      + subst o. now apply to_panic.
      + destruct (no_fuel _ _ _ Ec).
    - intro T. inversion T; subst.
      + match goal with H : c Enter n s = _ |- _ => now rewrite H end.
      + match goal with H : c Enter n s = _ |- _ => rewrite H end. now rewrite H.
      + match goal with H : c Enter n s = _ |- _ => rewrite H end. now rewrite H.
      + rewrite H0, H. destruct r as [[|]|m]; try reflexivity. now destruct H1.
      + rewrite H. rewrite (proj2 (K s' (kres k s'')) (ex_intro _ k (ex_intro _ s'' (conj H0 eq_refl)))).
        now destruct k.
  Qed.
End Meets.
