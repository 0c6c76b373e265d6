(** The [Debug] texts of nodes are unambiguous: all names are words.  Generated
    from Ast.v. *)
From Verif Require Import Chars Lexer Ast Visitor Derive DeriveFacts View AstView AstViewFacts.
From Coq Require Import PeanoNat Lia.
Local Open Scope nat_scope.

Definition good_at {A} n (enc : A -> view) : Prop := forall a, vsize (enc a) <= n -> good (shown (enc a)).
Definition name_ok (n : str) : bool := match n with [] => false | c :: _ => alpha c end && forallb alnum n.
Lemma name_ok_good n : name_ok n = true -> good_name n.
Proof.
  unfold name_ok, good_name. intro H. apply andb_prop in H. destruct H as [H1 H2]. split; [destruct n; [discriminate|exact H1]|].
  apply Forall_forall. intros c Hc. exact (proj1 (forallb_forall _ _) H2 c Hc).
Qed.
Lemma good_con i n ls l : name_ok n = true -> forallb (forallb label) ls = true -> Forall (fun v => good (shown v)) l -> good (shown (VCon i n ls l)).
Proof.
  intros Hn Hl H. apply name_ok_good in Hn. destruct ls as [|a ls].
  - destruct l as [|v l]; cbn [shown]; [constructor; exact Hn|]. constructor; [exact Hn|]. apply (Forall_map shown (fun d => good d)), H.
  - cbn [shown]. constructor; [exact Hn|]. assert (G : forall ls, forallb (forallb label) ls = true -> forall l, Forall (fun v => good (shown v)) l ->
      Forall (fun f => Forall (fun c => label c = true) (fst f) /\ good (snd f)) (combine ls (map shown l))).
    { clear. induction ls as [|x ls IH]; intros Hx l Hl; [constructor|]. cbn [forallb] in Hx. apply andb_prop in Hx. destruct Hx as [Hx Hy].
      destruct Hl as [|v l Hv Hl]; [constructor|]. cbn [map combine]. constructor; [|apply IH; assumption]. cbn [fst snd]. split; [|exact Hv].
      apply Forall_forall. intros c Hc. exact (proj1 (forallb_forall _ _) Hx c Hc). }
    apply (G (a :: ls) Hl l H).
Qed.
Ltac con := apply good_con; [reflexivity|reflexivity|].
Ltac field := constructor.
Ltac size := cbn [vsize map list_sum fold_right] in *; lia.

Lemma good_text n : good_at n VText.
Proof. intros a _. constructor. Qed.
Lemma good_pos p : good (shown (view_pos p)).
Proof. unfold view_pos. con. repeat constructor. Qed.
Lemma good_wm {A} n (enc : A -> view) : good_at n enc -> good_at n (view_wm enc).
Proof. intros IH [a s e] Hs. cbn [view_wm] in *. con. constructor; [apply IH; size|]. repeat constructor; apply good_pos. Qed.
Lemma good_list {A} n (enc : A -> view) : good_at n enc -> good_at n (view_list enc).
Proof.
  intros IH l Hs. unfold view_list in *. cbn [shown vsize] in *. constructor. rewrite map_map in *. induction l as [|x l IHl]; [constructor|].
  cbn [map list_sum fold_right] in *. constructor; [apply IH; lia|]. apply IHl. unfold list_sum in *. lia.
Qed.
Lemma good_opt {A} n (enc : A -> view) : good_at n enc -> good_at n (view_opt enc).
Proof. intros IH [a|] Hs; cbn [view_opt] in *; con; [|constructor]. constructor; [apply IH; size|constructor]. Qed.

Lemma good_NodeByteStr n : good_at n view_NodeByteStr.
Proof.
  intros x Hs. destruct x; cbn [view_NodeByteStr] in *.
  - con. field; [apply (good_wm _ _ (good_text n)); size|]. constructor.
  - con. field; [apply (good_wm _ _ (good_text n)); size|]. constructor.
Qed.
Lemma good_NodeTypeNameIdentifier n : good_at n view_NodeTypeNameIdentifier.
Proof.
  intros x Hs. destruct x; cbn [view_NodeTypeNameIdentifier] in *.
  - con. field; [apply (good_NodeByteStr n); size|]. constructor.
  - con. constructor.
  - con. field; [apply (good_wm _ _ (good_text n)); size|]. constructor.
Qed.
Lemma good_NodeImportedName n : good_at n view_NodeImportedName.
Proof.
  intros x Hs. destruct x; cbn [view_NodeImportedName] in *.
  - con. field; [apply (good_wm _ _ (good_NodeTypeNameIdentifier n)); size|]. constructor.
  - con. field; [apply (good_wm _ _ (good_NodeTypeNameIdentifier n)); size|]. field; [apply (good_wm _ _ (good_NodeTypeNameIdentifier n)); size|]. constructor.
Qed.
Lemma good_NodeImportDeclarations n : good_at n view_NodeImportDeclarations.
Proof.
  intros x Hs. destruct x; cbn [view_NodeImportDeclarations] in *.
  - con. field; [apply (good_list _ _ (good_wm _ _ (good_NodeImportedName n))); size|]. constructor.
Qed.
Lemma good_NodeMetaIdentifier n : good_at n view_NodeMetaIdentifier.
Proof.
  intros x Hs. destruct x; cbn [view_NodeMetaIdentifier] in *.
  - con. field; [apply (good_wm _ _ (good_NodeTypeNameIdentifier n)); size|]. constructor.
  - con. field; [apply (good_wm _ _ (good_NodeTypeNameIdentifier n)); size|]. field; [apply (good_wm _ _ (good_NodeTypeNameIdentifier n)); size|]. constructor.
  - con. field; [apply (good_wm _ _ (good_text n)); size|]. field; [apply (good_wm _ _ (good_NodeTypeNameIdentifier n)); size|]. constructor.
  - con. constructor.
Qed.
Lemma good_NodeVariableIdentifier n : good_at n view_NodeVariableIdentifier.
Proof.
  intros x Hs. destruct x; cbn [view_NodeVariableIdentifier] in *.
  - con. field; [apply (good_wm _ _ (good_text n)); size|]. constructor.
  - con. field; [apply (good_wm _ _ (good_text n)); size|]. constructor.
  - con. field; [apply (good_wm _ _ (good_NodeTypeNameIdentifier n)); size|]. field; [apply (good_wm _ _ (good_text n)); size|]. constructor.
Qed.
Lemma good_NodeBuiltinArguments n : good_at n view_NodeBuiltinArguments.
Proof.
  intros x Hs. destruct x; cbn [view_NodeBuiltinArguments] in *.
  - con. field; [apply (good_list _ _ (good_wm _ _ (good_NodeVariableIdentifier n))); size|]. constructor.
Qed.
Lemma goods_NodeTypeMapKey n : good_at n view_NodeTypeMapKey /\ good_at n view_NodeTypeMapValue /\ good_at n view_NodeTypeArgument /\ good_at n view_NodeScillaType /\ good_at n view_NodeTypeMapEntry /\ good_at n view_NodeAddressTypeField /\ good_at n view_NodeAddressType /\ good_at n view_NodeTypeMapValueArguments /\ good_at n view_NodeTypeMapValueAllowingTypeArguments.
Proof.
  induction n as [|n IH]; [repeat split; intros x Hs; destruct x; inversion Hs|]. destruct IH as (IH_NodeTypeMapKey & IH_NodeTypeMapValue & IH_NodeTypeArgument & IH_NodeScillaType & IH_NodeTypeMapEntry & IH_NodeAddressTypeField & IH_NodeAddressType & IH_NodeTypeMapValueArguments & IH_NodeTypeMapValueAllowingTypeArguments).
  repeat split.
  + intros x Hs. destruct x; cbn [view_NodeTypeMapKey] in *.
    * con. field; [apply (good_wm _ _ (good_NodeMetaIdentifier n)); size|]. constructor.
    * con. field; [apply (good_wm _ _ (good_NodeMetaIdentifier n)); size|]. constructor.
    * con. field; [apply (good_wm _ _ (IH_NodeAddressType)); size|]. constructor.
    * con. field; [apply (good_wm _ _ (IH_NodeAddressType)); size|]. constructor.
  + intros x Hs. destruct x; cbn [view_NodeTypeMapValue] in *.
    * con. field; [apply (good_wm _ _ (good_NodeMetaIdentifier n)); size|]. constructor.
    * con. field; [apply (good_wm _ _ (IH_NodeTypeMapEntry)); size|]. constructor.
    * con. field; [apply (good_wm _ _ (IH_NodeTypeMapValueAllowingTypeArguments)); size|]. constructor.
    * con. field; [apply (good_wm _ _ (IH_NodeAddressType)); size|]. constructor.
  + intros x Hs. destruct x; cbn [view_NodeTypeArgument] in *.
    * con. field; [apply (good_wm _ _ (IH_NodeScillaType)); size|]. constructor.
    * con. field; [apply (good_wm _ _ (good_NodeMetaIdentifier n)); size|]. constructor.
    * con. field; [apply (good_wm _ _ (good_text n)); size|]. constructor.
    * con. field; [apply (good_wm _ _ (IH_NodeAddressType)); size|]. constructor.
    * con. field; [apply (good_wm _ _ (IH_NodeTypeMapKey)); size|]. field; [apply (good_wm _ _ (IH_NodeTypeMapValue)); size|]. constructor.
  + intros x Hs. destruct x; cbn [view_NodeScillaType] in *.
    * con. field; [apply (good_wm _ _ (good_NodeMetaIdentifier n)); size|]. field; [apply (good_list _ _ (good_wm _ _ (IH_NodeTypeArgument))); size|]. constructor.
    * con. field; [apply (good_wm _ _ (IH_NodeTypeMapKey)); size|]. field; [apply (good_wm _ _ (IH_NodeTypeMapValue)); size|]. constructor.
    * con. field; [apply (good_wm _ _ (IH_NodeScillaType)); size|]. field; [apply (good_wm _ _ (IH_NodeScillaType)); size|]. constructor.
    * con. field; [apply (good_wm _ _ (IH_NodeScillaType)); size|]. constructor.
    * con. field; [apply (good_wm _ _ (IH_NodeAddressType)); size|]. constructor.
    * con. field; [apply (good_wm _ _ (good_text n)); size|]. field; [apply (good_wm _ _ (IH_NodeScillaType)); size|]. constructor.
    * con. field; [apply (good_wm _ _ (good_text n)); size|]. constructor.
  + intros x Hs. destruct x; cbn [view_NodeTypeMapEntry] in *.
    * con. field; [apply (good_wm _ _ (IH_NodeTypeMapKey)); size|]. field; [apply (good_wm _ _ (IH_NodeTypeMapValue)); size|]. constructor.
  + intros x Hs. destruct x; cbn [view_NodeAddressTypeField] in *.
    * con. field; [apply (good_wm _ _ (good_NodeVariableIdentifier n)); size|]. field; [apply (good_wm _ _ (IH_NodeScillaType)); size|]. constructor.
  + intros x Hs. destruct x; cbn [view_NodeAddressType] in *.
    * con. field; [apply (good_wm _ _ (good_NodeTypeNameIdentifier n)); size|]. field; [apply (good_wm _ _ (good_text n)); size|]. field; [apply (good_list _ _ (good_wm _ _ (IH_NodeAddressTypeField))); size|]. constructor.
  + intros x Hs. destruct x; cbn [view_NodeTypeMapValueArguments] in *.
    * con. field; [apply (good_wm _ _ (IH_NodeTypeMapValueAllowingTypeArguments)); size|]. constructor.
    * con. field; [apply (good_wm _ _ (good_NodeMetaIdentifier n)); size|]. constructor.
    * con. field; [apply (good_wm _ _ (IH_NodeTypeMapKey)); size|]. field; [apply (good_wm _ _ (IH_NodeTypeMapValue)); size|]. constructor.
  + intros x Hs. destruct x; cbn [view_NodeTypeMapValueAllowingTypeArguments] in *.
    * con. field; [apply (good_wm _ _ (IH_NodeTypeMapValue)); size|]. constructor.
    * con. field; [apply (good_wm _ _ (good_NodeMetaIdentifier n)); size|]. field; [apply (good_list _ _ (good_wm _ _ (IH_NodeTypeMapValueArguments))); size|]. constructor.
Qed.
Lemma good_NodeTypeMapKey n : good_at n view_NodeTypeMapKey.
Proof. apply goods_NodeTypeMapKey. Qed.
Lemma good_NodeTypeMapValue n : good_at n view_NodeTypeMapValue.
Proof. apply goods_NodeTypeMapKey. Qed.
Lemma good_NodeTypeArgument n : good_at n view_NodeTypeArgument.
Proof. apply goods_NodeTypeMapKey. Qed.
Lemma good_NodeScillaType n : good_at n view_NodeScillaType.
Proof. apply goods_NodeTypeMapKey. Qed.
Lemma good_NodeTypeMapEntry n : good_at n view_NodeTypeMapEntry.
Proof. apply goods_NodeTypeMapKey. Qed.
Lemma good_NodeAddressTypeField n : good_at n view_NodeAddressTypeField.
Proof. apply goods_NodeTypeMapKey. Qed.
Lemma good_NodeAddressType n : good_at n view_NodeAddressType.
Proof. apply goods_NodeTypeMapKey. Qed.
Lemma good_NodeTypeMapValueArguments n : good_at n view_NodeTypeMapValueArguments.
Proof. apply goods_NodeTypeMapKey. Qed.
Lemma good_NodeTypeMapValueAllowingTypeArguments n : good_at n view_NodeTypeMapValueAllowingTypeArguments.
Proof. apply goods_NodeTypeMapKey. Qed.
Lemma good_NodeTypeAnnotation n : good_at n view_NodeTypeAnnotation.
Proof.
  intros x Hs. destruct x; cbn [view_NodeTypeAnnotation] in *.
  - con. field; [apply (good_wm _ _ (good_NodeScillaType n)); size|]. constructor.
Qed.
Lemma good_NodeContractTypeArguments n : good_at n view_NodeContractTypeArguments.
Proof.
  intros x Hs. destruct x; cbn [view_NodeContractTypeArguments] in *.
  - con. field; [apply (good_list _ _ (good_wm _ _ (good_NodeTypeArgument n))); size|]. constructor.
Qed.
Lemma good_NodeValueLiteral n : good_at n view_NodeValueLiteral.
Proof.
  intros x Hs. destruct x; cbn [view_NodeValueLiteral] in *.
  - con. field; [apply (good_wm _ _ (good_NodeTypeNameIdentifier n)); size|]. field; [apply (good_wm _ _ (good_text n)); size|]. constructor.
  - con. field; [apply (good_wm _ _ (good_text n)); size|]. constructor.
  - con. field; [apply (good_wm _ _ (good_text n)); size|]. constructor.
  - con. field; [apply (good_wm _ _ (good_NodeTypeMapKey n)); size|]. field; [apply (good_wm _ _ (good_NodeTypeMapValue n)); size|]. constructor.
Qed.
Lemma good_NodeAtomicExpression n : good_at n view_NodeAtomicExpression.
Proof.
  intros x Hs. destruct x; cbn [view_NodeAtomicExpression] in *.
  - con. field; [apply (good_wm _ _ (good_NodeVariableIdentifier n)); size|]. constructor.
  - con. field; [apply (good_wm _ _ (good_NodeValueLiteral n)); size|]. constructor.
Qed.
Lemma good_NodeMessageEntry n : good_at n view_NodeMessageEntry.
Proof.
  intros x Hs. destruct x; cbn [view_NodeMessageEntry] in *.
  - con. field; [apply (good_wm _ _ (good_NodeVariableIdentifier n)); size|]. field; [apply (good_wm _ _ (good_NodeValueLiteral n)); size|]. constructor.
  - con. field; [apply (good_wm _ _ (good_NodeVariableIdentifier n)); size|]. field; [apply (good_wm _ _ (good_NodeVariableIdentifier n)); size|]. constructor.
Qed.
Lemma good_NodeMapAccess n : good_at n view_NodeMapAccess.
Proof.
  intros x Hs. destruct x; cbn [view_NodeMapAccess] in *.
  - con. field; [apply (good_wm _ _ (good_NodeVariableIdentifier n)); size|]. constructor.
Qed.
Lemma goods_NodePattern n : good_at n view_NodePattern /\ good_at n view_NodeArgumentPattern.
Proof.
  induction n as [|n IH]; [repeat split; intros x Hs; destruct x; inversion Hs|]. destruct IH as (IH_NodePattern & IH_NodeArgumentPattern).
  repeat split.
  + intros x Hs. destruct x; cbn [view_NodePattern] in *.
    * con. constructor.
    * con. field; [apply (good_wm _ _ (good_text n)); size|]. constructor.
    * con. field; [apply (good_wm _ _ (good_NodeMetaIdentifier n)); size|]. field; [apply (good_list _ _ (good_wm _ _ (IH_NodeArgumentPattern))); size|]. constructor.
  + intros x Hs. destruct x; cbn [view_NodeArgumentPattern] in *.
    * con. constructor.
    * con. field; [apply (good_wm _ _ (good_text n)); size|]. constructor.
    * con. field; [apply (good_wm _ _ (good_NodeMetaIdentifier n)); size|]. constructor.
    * con. field; [apply (good_wm _ _ (IH_NodePattern)); size|]. constructor.
Qed.
Lemma good_NodePattern n : good_at n view_NodePattern.
Proof. apply goods_NodePattern. Qed.
Lemma good_NodeArgumentPattern n : good_at n view_NodeArgumentPattern.
Proof. apply goods_NodePattern. Qed.
Lemma goods_NodeFullExpression n : good_at n view_NodeFullExpression /\ good_at n view_NodePatternMatchExpressionClause.
Proof.
  induction n as [|n IH]; [repeat split; intros x Hs; destruct x; inversion Hs|]. destruct IH as (IH_NodeFullExpression & IH_NodePatternMatchExpressionClause).
  repeat split.
  + intros x Hs. destruct x; cbn [view_NodeFullExpression] in *.
    * con. field; [apply (good_wm _ _ (good_text n)); size|]. field; [apply (good_wm _ _ (IH_NodeFullExpression)); size|]. field; [apply (good_opt _ _ (good_wm _ _ (good_NodeTypeAnnotation n))); size|]. field; [apply (good_wm _ _ (IH_NodeFullExpression)); size|]. constructor.
    * con. field; [apply (good_wm _ _ (good_text n)); size|]. field; [apply (good_wm _ _ (good_NodeTypeAnnotation n)); size|]. field; [apply (good_wm _ _ (IH_NodeFullExpression)); size|]. constructor.
    * con. field; [apply (good_wm _ _ (good_NodeVariableIdentifier n)); size|]. field; [apply (good_list _ _ (good_wm _ _ (good_NodeVariableIdentifier n))); size|]. constructor.
    * con. field; [apply (good_wm _ _ (good_NodeAtomicExpression n)); size|]. constructor.
    * con. field; [apply (good_wm _ _ (good_text n)); size|]. field; [apply (good_opt _ _ (good_wm _ _ (good_NodeContractTypeArguments n))); size|]. field; [apply (good_wm _ _ (good_NodeBuiltinArguments n)); size|]. constructor.
    * con. field; [apply (good_list _ _ (good_wm _ _ (good_NodeMessageEntry n))); size|]. constructor.
    * con. field; [apply (good_wm _ _ (good_NodeVariableIdentifier n)); size|]. field; [apply (good_list _ _ (good_wm _ _ (IH_NodePatternMatchExpressionClause))); size|]. constructor.
    * con. field; [apply (good_wm _ _ (good_NodeMetaIdentifier n)); size|]. field; [apply (good_opt _ _ (good_wm _ _ (good_NodeContractTypeArguments n))); size|]. field; [apply (good_list _ _ (good_wm _ _ (good_NodeVariableIdentifier n))); size|]. constructor.
    * con. field; [apply (good_wm _ _ (good_text n)); size|]. field; [apply (good_wm _ _ (IH_NodeFullExpression)); size|]. constructor.
    * con. field; [apply (good_wm _ _ (good_NodeVariableIdentifier n)); size|]. field; [apply (good_list _ _ (good_wm _ _ (good_NodeTypeArgument n))); size|]. constructor.
  + intros x Hs. destruct x; cbn [view_NodePatternMatchExpressionClause] in *.
    * con. field; [apply (good_wm _ _ (good_NodePattern n)); size|]. field; [apply (good_wm _ _ (IH_NodeFullExpression)); size|]. constructor.
Qed.
Lemma good_NodeFullExpression n : good_at n view_NodeFullExpression.
Proof. apply goods_NodeFullExpression. Qed.
Lemma good_NodePatternMatchExpressionClause n : good_at n view_NodePatternMatchExpressionClause.
Proof. apply goods_NodeFullExpression. Qed.
Lemma good_NodeBlockchainFetchArguments n : good_at n view_NodeBlockchainFetchArguments.
Proof.
  intros x Hs. destruct x; cbn [view_NodeBlockchainFetchArguments] in *.
  - con. field; [apply (good_list _ _ (good_wm _ _ (good_NodeVariableIdentifier n))); size|]. constructor.
Qed.
Lemma good_NodeComponentId n : good_at n view_NodeComponentId.
Proof.
  intros x Hs. destruct x; cbn [view_NodeComponentId] in *.
  - con. field; [apply (good_wm _ _ (good_NodeTypeNameIdentifier n)); size|]. constructor.
  - con. field; [apply (good_wm _ _ (good_text n)); size|]. constructor.
Qed.
Lemma good_NodeRemoteFetchStatement n : good_at n view_NodeRemoteFetchStatement.
Proof.
  intros x Hs. destruct x; cbn [view_NodeRemoteFetchStatement] in *.
  - con. field; [apply (good_wm _ _ (good_text n)); size|]. field; [apply (good_wm _ _ (good_text n)); size|]. field; [apply (good_wm _ _ (good_NodeVariableIdentifier n)); size|]. constructor.
  - con. field; [apply (good_wm _ _ (good_text n)); size|]. field; [apply (good_wm _ _ (good_text n)); size|]. field; [apply (good_wm _ _ (good_text n)); size|]. constructor.
  - con. field; [apply (good_wm _ _ (good_text n)); size|]. field; [apply (good_wm _ _ (good_text n)); size|]. field; [apply (good_wm _ _ (good_text n)); size|]. field; [apply (good_list _ _ (good_wm _ _ (good_NodeMapAccess n))); size|]. constructor.
  - con. field; [apply (good_wm _ _ (good_text n)); size|]. field; [apply (good_wm _ _ (good_text n)); size|]. field; [apply (good_wm _ _ (good_text n)); size|]. field; [apply (good_list _ _ (good_wm _ _ (good_NodeMapAccess n))); size|]. constructor.
  - con. field; [apply (good_wm _ _ (good_text n)); size|]. field; [apply (good_wm _ _ (good_NodeVariableIdentifier n)); size|]. field; [apply (good_wm _ _ (good_NodeAddressType n)); size|]. constructor.
Qed.
Lemma goods_NodeStatement n : good_at n view_NodeStatement /\ good_at n view_NodePatternMatchClause /\ good_at n view_NodeStatementBlock.
Proof.
  induction n as [|n IH]; [repeat split; intros x Hs; destruct x; inversion Hs|]. destruct IH as (IH_NodeStatement & IH_NodePatternMatchClause & IH_NodeStatementBlock).
  repeat split.
  + intros x Hs. destruct x; cbn [view_NodeStatement] in *.
    * con. field; [apply (good_wm _ _ (good_text n)); size|]. field; [apply (good_wm _ _ (good_NodeVariableIdentifier n)); size|]. constructor.
    * con. field; [apply (good_NodeRemoteFetchStatement n); size|]. constructor.
    * con. field; [apply (good_wm _ _ (good_text n)); size|]. field; [apply (good_wm _ _ (good_NodeVariableIdentifier n)); size|]. constructor.
    * con. field; [apply (good_wm _ _ (good_text n)); size|]. field; [apply (good_wm _ _ (good_NodeFullExpression n)); size|]. constructor.
    * con. field; [apply (good_wm _ _ (good_text n)); size|]. field; [apply (good_wm _ _ (good_NodeTypeNameIdentifier n)); size|]. field; [apply (good_opt _ _ (good_NodeBlockchainFetchArguments n)); size|]. constructor.
    * con. field; [apply (good_wm _ _ (good_text n)); size|]. field; [apply (good_list _ _ (good_wm _ _ (good_NodeMapAccess n))); size|]. field; [apply (good_wm _ _ (good_text n)); size|]. constructor.
    * con. field; [apply (good_wm _ _ (good_text n)); size|]. field; [apply (good_list _ _ (good_wm _ _ (good_NodeMapAccess n))); size|]. field; [apply (good_wm _ _ (good_text n)); size|]. constructor.
    * con. field; [apply (good_wm _ _ (good_text n)); size|]. field; [apply (good_list _ _ (good_wm _ _ (good_NodeMapAccess n))); size|]. field; [apply (good_wm _ _ (good_NodeVariableIdentifier n)); size|]. constructor.
    * con. field; [apply (good_wm _ _ (good_text n)); size|]. field; [apply (good_list _ _ (good_wm _ _ (good_NodeMapAccess n))); size|]. constructor.
    * con. constructor.
    * con. field; [apply (good_wm _ _ (good_NodeVariableIdentifier n)); size|]. constructor.
    * con. field; [apply (good_wm _ _ (good_NodeVariableIdentifier n)); size|]. constructor.
    * con. field; [apply (good_opt _ _ (good_wm _ _ (good_NodeVariableIdentifier n))); size|]. constructor.
    * con. field; [apply (good_wm _ _ (good_NodeVariableIdentifier n)); size|]. field; [apply (good_list _ _ (good_wm _ _ (IH_NodePatternMatchClause))); size|]. constructor.
    * con. field; [apply (good_wm _ _ (good_NodeComponentId n)); size|]. field; [apply (good_list _ _ (good_wm _ _ (good_NodeVariableIdentifier n))); size|]. constructor.
    * con. field; [apply (good_wm _ _ (good_NodeVariableIdentifier n)); size|]. field; [apply (good_wm _ _ (good_NodeComponentId n)); size|]. constructor.
  + intros x Hs. destruct x; cbn [view_NodePatternMatchClause] in *.
    * con. field; [apply (good_wm _ _ (good_NodePattern n)); size|]. field; [apply (good_opt _ _ (good_wm _ _ (IH_NodeStatementBlock))); size|]. constructor.
  + intros x Hs. destruct x; cbn [view_NodeStatementBlock] in *.
    * con. field; [apply (good_list _ _ (IH_NodeStatement)); size|]. constructor.
Qed.
Lemma good_NodeStatement n : good_at n view_NodeStatement.
Proof. apply goods_NodeStatement. Qed.
Lemma good_NodePatternMatchClause n : good_at n view_NodePatternMatchClause.
Proof. apply goods_NodeStatement. Qed.
Lemma good_NodeStatementBlock n : good_at n view_NodeStatementBlock.
Proof. apply goods_NodeStatement. Qed.
Lemma good_NodeTypedIdentifier n : good_at n view_NodeTypedIdentifier.
Proof.
  intros x Hs. destruct x; cbn [view_NodeTypedIdentifier] in *.
  - con. field; [apply (good_wm _ _ (good_text n)); size|]. field; [apply (good_wm _ _ (good_NodeTypeAnnotation n)); size|]. constructor.
Qed.
Lemma good_NodeParameterPair n : good_at n view_NodeParameterPair.
Proof.
  intros x Hs. destruct x; cbn [view_NodeParameterPair] in *.
  - con. field; [apply (good_wm _ _ (good_NodeTypedIdentifier n)); size|]. constructor.
Qed.
Lemma good_NodeComponentParameters n : good_at n view_NodeComponentParameters.
Proof.
  intros x Hs. destruct x; cbn [view_NodeComponentParameters] in *.
  - con. field; [apply (good_list _ _ (good_wm _ _ (good_NodeParameterPair n))); size|]. constructor.
Qed.
Lemma good_NodeComponentBody n : good_at n view_NodeComponentBody.
Proof.
  intros x Hs. destruct x; cbn [view_NodeComponentBody] in *.
  - con. field; [apply (good_opt _ _ (good_wm _ _ (good_NodeStatementBlock n))); size|]. constructor.
Qed.
Lemma good_NodeTypeAlternativeClause n : good_at n view_NodeTypeAlternativeClause.
Proof.
  intros x Hs. destruct x; cbn [view_NodeTypeAlternativeClause] in *.
  - con. field; [apply (good_wm _ _ (good_NodeTypeNameIdentifier n)); size|]. constructor.
  - con. field; [apply (good_wm _ _ (good_NodeTypeNameIdentifier n)); size|]. field; [apply (good_list _ _ (good_wm _ _ (good_NodeTypeArgument n))); size|]. constructor.
Qed.
Lemma good_NodeLibrarySingleDefinition n : good_at n view_NodeLibrarySingleDefinition.
Proof.
  intros x Hs. destruct x; cbn [view_NodeLibrarySingleDefinition] in *.
  - con. field; [apply (good_wm _ _ (good_text n)); size|]. field; [apply (good_opt _ _ (good_wm _ _ (good_NodeTypeAnnotation n))); size|]. field; [apply (good_wm _ _ (good_NodeFullExpression n)); size|]. constructor.
  - con. field; [apply (good_wm _ _ (good_NodeTypeNameIdentifier n)); size|]. field; [apply (good_opt _ _ (good_list _ _ (good_wm _ _ (good_NodeTypeAlternativeClause n)))); size|]. constructor.
Qed.
Lemma good_NodeLibraryDefinition n : good_at n view_NodeLibraryDefinition.
Proof.
  intros x Hs. destruct x; cbn [view_NodeLibraryDefinition] in *.
  - con. field; [apply (good_wm _ _ (good_NodeTypeNameIdentifier n)); size|]. field; [apply (good_list _ _ (good_wm _ _ (good_NodeLibrarySingleDefinition n))); size|]. constructor.
Qed.
Lemma good_NodeContractField n : good_at n view_NodeContractField.
Proof.
  intros x Hs. destruct x; cbn [view_NodeContractField] in *.
  - con. field; [apply (good_wm _ _ (good_NodeTypedIdentifier n)); size|]. field; [apply (good_wm _ _ (good_NodeFullExpression n)); size|]. constructor.
Qed.
Lemma good_NodeWithConstraint n : good_at n view_NodeWithConstraint.
Proof.
  intros x Hs. destruct x; cbn [view_NodeWithConstraint] in *.
  - con. field; [apply (good_wm _ _ (good_NodeFullExpression n)); size|]. constructor.
Qed.
Lemma good_NodeProcedureDefinition n : good_at n view_NodeProcedureDefinition.
Proof.
  intros x Hs. destruct x; cbn [view_NodeProcedureDefinition] in *.
  - con. field; [apply (good_wm _ _ (good_NodeComponentId n)); size|]. field; [apply (good_wm _ _ (good_NodeComponentParameters n)); size|]. field; [apply (good_wm _ _ (good_NodeComponentBody n)); size|]. constructor.
Qed.
Lemma good_NodeTransitionDefinition n : good_at n view_NodeTransitionDefinition.
Proof.
  intros x Hs. destruct x; cbn [view_NodeTransitionDefinition] in *.
  - con. field; [apply (good_wm _ _ (good_NodeComponentId n)); size|]. field; [apply (good_wm _ _ (good_NodeComponentParameters n)); size|]. field; [apply (good_wm _ _ (good_NodeComponentBody n)); size|]. constructor.
Qed.
Lemma good_NodeComponentDefinition n : good_at n view_NodeComponentDefinition.
Proof.
  intros x Hs. destruct x; cbn [view_NodeComponentDefinition] in *.
  - con. field; [apply (good_wm _ _ (good_NodeTransitionDefinition n)); size|]. constructor.
  - con. field; [apply (good_wm _ _ (good_NodeProcedureDefinition n)); size|]. constructor.
Qed.
Lemma good_NodeContractDefinition n : good_at n view_NodeContractDefinition.
Proof.
  intros x Hs. destruct x; cbn [view_NodeContractDefinition] in *.
  - con. field; [apply (good_wm _ _ (good_NodeTypeNameIdentifier n)); size|]. field; [apply (good_wm _ _ (good_NodeComponentParameters n)); size|]. field; [apply (good_opt _ _ (good_wm _ _ (good_NodeWithConstraint n))); size|]. field; [apply (good_list _ _ (good_wm _ _ (good_NodeContractField n))); size|]. field; [apply (good_list _ _ (good_wm _ _ (good_NodeComponentDefinition n))); size|]. constructor.
Qed.
Lemma good_NodeProgram n : good_at n view_NodeProgram.
Proof.
  intros x Hs. destruct x; cbn [view_NodeProgram] in *.
  - con. field; [apply (good_wm _ _ (good_text n)); size|]. field; [apply (good_opt _ _ (good_wm _ _ (good_NodeImportDeclarations n))); size|]. field; [apply (good_opt _ _ (good_wm _ _ (good_NodeLibraryDefinition n))); size|]. field; [apply (good_wm _ _ (good_NodeContractDefinition n)); size|]. constructor.
Qed.
Theorem good_node a : good (shown (view_node a)).
Proof.
  destruct a; cbn [view_node].
  - apply (good_NodeByteStr _ _ (le_n _)).
  - apply (good_NodeTypeNameIdentifier _ _ (le_n _)).
  - apply (good_NodeImportedName _ _ (le_n _)).
  - apply (good_NodeImportDeclarations _ _ (le_n _)).
  - apply (good_NodeMetaIdentifier _ _ (le_n _)).
  - apply (good_NodeVariableIdentifier _ _ (le_n _)).
  - apply (good_NodeBuiltinArguments _ _ (le_n _)).
  - apply (good_NodeTypeMapKey _ _ (le_n _)).
  - apply (good_NodeTypeMapValue _ _ (le_n _)).
  - apply (good_NodeTypeArgument _ _ (le_n _)).
  - apply (good_NodeScillaType _ _ (le_n _)).
  - apply (good_NodeTypeMapEntry _ _ (le_n _)).
  - apply (good_NodeAddressTypeField _ _ (le_n _)).
  - apply (good_NodeAddressType _ _ (le_n _)).
  - apply (good_NodeFullExpression _ _ (le_n _)).
  - apply (good_NodeMessageEntry _ _ (le_n _)).
  - apply (good_NodePatternMatchExpressionClause _ _ (le_n _)).
  - apply (good_NodeAtomicExpression _ _ (le_n _)).
  - apply (good_NodeContractTypeArguments _ _ (le_n _)).
  - apply (good_NodeValueLiteral _ _ (le_n _)).
  - apply (good_NodeMapAccess _ _ (le_n _)).
  - apply (good_NodePattern _ _ (le_n _)).
  - apply (good_NodeArgumentPattern _ _ (le_n _)).
  - apply (good_NodePatternMatchClause _ _ (le_n _)).
  - apply (good_NodeBlockchainFetchArguments _ _ (le_n _)).
  - apply (good_NodeStatement _ _ (le_n _)).
  - apply (good_NodeRemoteFetchStatement _ _ (le_n _)).
  - apply (good_NodeComponentId _ _ (le_n _)).
  - apply (good_NodeComponentParameters _ _ (le_n _)).
  - apply (good_NodeParameterPair _ _ (le_n _)).
  - apply (good_NodeComponentBody _ _ (le_n _)).
  - apply (good_NodeStatementBlock _ _ (le_n _)).
  - apply (good_NodeTypedIdentifier _ _ (le_n _)).
  - apply (good_NodeTypeAnnotation _ _ (le_n _)).
  - apply (good_NodeProgram _ _ (le_n _)).
  - apply (good_NodeLibraryDefinition _ _ (le_n _)).
  - apply (good_NodeLibrarySingleDefinition _ _ (le_n _)).
  - apply (good_NodeContractDefinition _ _ (le_n _)).
  - apply (good_NodeContractField _ _ (le_n _)).
  - apply (good_NodeWithConstraint _ _ (le_n _)).
  - apply (good_NodeComponentDefinition _ _ (le_n _)).
  - apply (good_NodeProcedureDefinition _ _ (le_n _)).
  - apply (good_NodeTransitionDefinition _ _ (le_n _)).
  - apply (good_NodeTypeAlternativeClause _ _ (le_n _)).
  - apply (good_NodeTypeMapValueArguments _ _ (le_n _)).
  - apply (good_NodeTypeMapValueAllowingTypeArguments _ _ (le_n _)).
Qed.
