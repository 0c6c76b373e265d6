(** Nodes with the same view are the same, and so are nodes with the same [Debug]
    text.  Section [Inj] is generated from Ast.v. *)
From Verif Require Import Chars Lexer Ast Visitor Derive View AstView.
From Coq Require Import PeanoNat Lia.
Local Open Scope nat_scope.

Fixpoint vsize (v : view) : nat :=
  match v with
  | VSeq l | VCon _ _ _ l => S (list_sum (map vsize l))
  | _ => 1
  end.

Section Inj.
  Context {T : Type} (f : view -> T).
  Definition inj_at {A} n (enc : A -> view) : Prop := forall a b, vsize (enc a) <= n -> f (enc a) = f (enc b) -> a = b.
  Hypothesis f_text : forall s t, f (VText s) = f (VText t) -> s = t.
  Hypothesis f_num : forall s t, f (VNum s) = f (VNum t) -> s = t.
  Hypothesis f_seq : forall l m, f (VSeq l) = f (VSeq m) -> map f l = map f m.
  Hypothesis f_other : forall i n ls l j m ls' l', f (VCon i n ls l) = f (VCon j m ls' l') -> i = j \/ n = m.
  Hypothesis f_same : forall i n ls l l', ls = [] \/ List.length ls = List.length l -> List.length l = List.length l' ->
    f (VCon i n ls l) = f (VCon i n ls l') -> map f l = map f l'.

  Ltac other H := exfalso; apply f_other in H; destruct H as [H|H]; discriminate H.
  Ltac same H := apply f_same in H; [cbn [map] in H|first [left; reflexivity|right; reflexivity]|reflexivity].
  Ltac size := cbn [vsize map list_sum fold_right] in *; lia.

  Lemma inj_text n : inj_at n VText.
  Proof. intros a b _ H. apply f_text, H. Qed.
  Lemma pos_inj p q : f (view_pos p) = f (view_pos q) -> p = q.
  Proof.
    destruct p as [a b c], q as [a1 b1 c1]. unfold view_pos. cbn [position line column]. intro H. same H. injection H as H0 H1 H2.
    apply f_num in H0, H1, H2. subst. reflexivity.
  Qed.
  Lemma inj_wm {A} n (enc : A -> view) : inj_at n enc -> inj_at n (view_wm enc).
  Proof.
    intros IH [a s e] [b s' e'] Hs H. cbn [view_wm] in *. same H. injection H as H0 H1 H2. apply IH in H0; [|size].
    apply pos_inj in H1, H2. subst. reflexivity.
  Qed.
  Lemma inj_list {A} n (enc : A -> view) : inj_at n enc -> inj_at n (view_list enc).
  Proof.
    intros IH l m Hs H. unfold view_list in *. apply f_seq in H. rewrite !map_map in H. cbn [vsize] in Hs. rewrite map_map in Hs.
    revert m H Hs. induction l as [|x l IHl]; intros [|y m] H Hs; try discriminate; [reflexivity|]. cbn [map list_sum fold_right] in *.
    injection H as H0 H1. apply IH in H0; [|lia]. subst y. f_equal. apply IHl; [exact H1|]. unfold list_sum in *. lia.
  Qed.
  Lemma inj_opt {A} n (enc : A -> view) : inj_at n enc -> inj_at n (view_opt enc).
  Proof.
    intros IH [a|] [b|] Hs H; cbn [view_opt] in *; [|other H|other H|reflexivity]. same H. injection H as H. apply IH in H; [subst; reflexivity|size].
  Qed.

  Lemma inj_NodeByteStr n : inj_at n view_NodeByteStr.
  Proof.
    intros x y Hs H. destruct x, y; cbn [view_NodeByteStr] in *.
    - same H. injection H as H0. apply (inj_wm _ _ (inj_text n)) in H0; [subst|size]. reflexivity.
    - other H.
    - other H.
    - same H. injection H as H0. apply (inj_wm _ _ (inj_text n)) in H0; [subst|size]. reflexivity.
  Qed.
  Lemma inj_NodeTypeNameIdentifier n : inj_at n view_NodeTypeNameIdentifier.
  Proof.
    intros x y Hs H. destruct x, y; cbn [view_NodeTypeNameIdentifier] in *.
    - same H. injection H as H0. apply (inj_NodeByteStr n) in H0; [subst|size]. reflexivity.
    - other H.
    - other H.
    - other H.
    - reflexivity.
    - other H.
    - other H.
    - other H.
    - same H. injection H as H0. apply (inj_wm _ _ (inj_text n)) in H0; [subst|size]. reflexivity.
  Qed.
  Lemma inj_NodeImportedName n : inj_at n view_NodeImportedName.
  Proof.
    intros x y Hs H. destruct x, y; cbn [view_NodeImportedName] in *.
    - same H. injection H as H0. apply (inj_wm _ _ (inj_NodeTypeNameIdentifier n)) in H0; [subst|size]. reflexivity.
    - other H.
    - other H.
    - same H. injection H as H0 H1. apply (inj_wm _ _ (inj_NodeTypeNameIdentifier n)) in H0; [subst|size]. apply (inj_wm _ _ (inj_NodeTypeNameIdentifier n)) in H1; [subst|size]. reflexivity.
  Qed.
  Lemma inj_NodeImportDeclarations n : inj_at n view_NodeImportDeclarations.
  Proof.
    intros x y Hs H. destruct x, y; cbn [view_NodeImportDeclarations] in *.
    - same H. injection H as H0. apply (inj_list _ _ (inj_wm _ _ (inj_NodeImportedName n))) in H0; [subst|size]. reflexivity.
  Qed.
  Lemma inj_NodeMetaIdentifier n : inj_at n view_NodeMetaIdentifier.
  Proof.
    intros x y Hs H. destruct x, y; cbn [view_NodeMetaIdentifier] in *.
    - same H. injection H as H0. apply (inj_wm _ _ (inj_NodeTypeNameIdentifier n)) in H0; [subst|size]. reflexivity.
    - other H.
    - other H.
    - other H.
    - other H.
    - same H. injection H as H0 H1. apply (inj_wm _ _ (inj_NodeTypeNameIdentifier n)) in H0; [subst|size]. apply (inj_wm _ _ (inj_NodeTypeNameIdentifier n)) in H1; [subst|size]. reflexivity.
    - other H.
    - other H.
    - other H.
    - other H.
    - same H. injection H as H0 H1. apply (inj_wm _ _ (inj_text n)) in H0; [subst|size]. apply (inj_wm _ _ (inj_NodeTypeNameIdentifier n)) in H1; [subst|size]. reflexivity.
    - other H.
    - other H.
    - other H.
    - other H.
    - reflexivity.
  Qed.
  Lemma inj_NodeVariableIdentifier n : inj_at n view_NodeVariableIdentifier.
  Proof.
    intros x y Hs H. destruct x, y; cbn [view_NodeVariableIdentifier] in *.
    - same H. injection H as H0. apply (inj_wm _ _ (inj_text n)) in H0; [subst|size]. reflexivity.
    - other H.
    - other H.
    - other H.
    - same H. injection H as H0. apply (inj_wm _ _ (inj_text n)) in H0; [subst|size]. reflexivity.
    - other H.
    - other H.
    - other H.
    - same H. injection H as H0 H1. apply (inj_wm _ _ (inj_NodeTypeNameIdentifier n)) in H0; [subst|size]. apply (inj_wm _ _ (inj_text n)) in H1; [subst|size]. reflexivity.
  Qed.
  Lemma inj_NodeBuiltinArguments n : inj_at n view_NodeBuiltinArguments.
  Proof.
    intros x y Hs H. destruct x, y; cbn [view_NodeBuiltinArguments] in *.
    - same H. injection H as H0. apply (inj_list _ _ (inj_wm _ _ (inj_NodeVariableIdentifier n))) in H0; [subst|size]. reflexivity.
  Qed.
  Lemma injs_NodeTypeMapKey n : inj_at n view_NodeTypeMapKey /\ inj_at n view_NodeTypeMapValue /\ inj_at n view_NodeTypeArgument /\ inj_at n view_NodeScillaType /\ inj_at n view_NodeTypeMapEntry /\ inj_at n view_NodeAddressTypeField /\ inj_at n view_NodeAddressType /\ inj_at n view_NodeTypeMapValueArguments /\ inj_at n view_NodeTypeMapValueAllowingTypeArguments.
  Proof.
    induction n as [|n IH]; [repeat split; intros x y Hs; destruct x; inversion Hs|]. destruct IH as (IH_NodeTypeMapKey & IH_NodeTypeMapValue & IH_NodeTypeArgument & IH_NodeScillaType & IH_NodeTypeMapEntry & IH_NodeAddressTypeField & IH_NodeAddressType & IH_NodeTypeMapValueArguments & IH_NodeTypeMapValueAllowingTypeArguments).
    repeat split.
    + intros x y Hs H. destruct x, y; cbn [view_NodeTypeMapKey] in *.
      * same H. injection H as H0. apply (inj_wm _ _ (inj_NodeMetaIdentifier n)) in H0; [subst|size]. reflexivity.
      * other H.
      * other H.
      * other H.
      * other H.
      * same H. injection H as H0. apply (inj_wm _ _ (inj_NodeMetaIdentifier n)) in H0; [subst|size]. reflexivity.
      * other H.
      * other H.
      * other H.
      * other H.
      * same H. injection H as H0. apply (inj_wm _ _ (IH_NodeAddressType)) in H0; [subst|size]. reflexivity.
      * other H.
      * other H.
      * other H.
      * other H.
      * same H. injection H as H0. apply (inj_wm _ _ (IH_NodeAddressType)) in H0; [subst|size]. reflexivity.
    + intros x y Hs H. destruct x, y; cbn [view_NodeTypeMapValue] in *.
      * same H. injection H as H0. apply (inj_wm _ _ (inj_NodeMetaIdentifier n)) in H0; [subst|size]. reflexivity.
      * other H.
      * other H.
      * other H.
      * other H.
      * same H. injection H as H0. apply (inj_wm _ _ (IH_NodeTypeMapEntry)) in H0; [subst|size]. reflexivity.
      * other H.
      * other H.
      * other H.
      * other H.
      * same H. injection H as H0. apply (inj_wm _ _ (IH_NodeTypeMapValueAllowingTypeArguments)) in H0; [subst|size]. reflexivity.
      * other H.
      * other H.
      * other H.
      * other H.
      * same H. injection H as H0. apply (inj_wm _ _ (IH_NodeAddressType)) in H0; [subst|size]. reflexivity.
    + intros x y Hs H. destruct x, y; cbn [view_NodeTypeArgument] in *.
      * same H. injection H as H0. apply (inj_wm _ _ (IH_NodeScillaType)) in H0; [subst|size]. reflexivity.
      * other H.
      * other H.
      * other H.
      * other H.
      * other H.
      * same H. injection H as H0. apply (inj_wm _ _ (inj_NodeMetaIdentifier n)) in H0; [subst|size]. reflexivity.
      * other H.
      * other H.
      * other H.
      * other H.
      * other H.
      * same H. injection H as H0. apply (inj_wm _ _ (inj_text n)) in H0; [subst|size]. reflexivity.
      * other H.
      * other H.
      * other H.
      * other H.
      * other H.
      * same H. injection H as H0. apply (inj_wm _ _ (IH_NodeAddressType)) in H0; [subst|size]. reflexivity.
      * other H.
      * other H.
      * other H.
      * other H.
      * other H.
      * same H. injection H as H0 H1. apply (inj_wm _ _ (IH_NodeTypeMapKey)) in H0; [subst|size]. apply (inj_wm _ _ (IH_NodeTypeMapValue)) in H1; [subst|size]. reflexivity.
    + intros x y Hs H. destruct x, y; cbn [view_NodeScillaType] in *.
      * same H. injection H as H0 H1. apply (inj_wm _ _ (inj_NodeMetaIdentifier n)) in H0; [subst|size]. apply (inj_list _ _ (inj_wm _ _ (IH_NodeTypeArgument))) in H1; [subst|size]. reflexivity.
      * other H.
      * other H.
      * other H.
      * other H.
      * other H.
      * other H.
      * other H.
      * same H. injection H as H0 H1. apply (inj_wm _ _ (IH_NodeTypeMapKey)) in H0; [subst|size]. apply (inj_wm _ _ (IH_NodeTypeMapValue)) in H1; [subst|size]. reflexivity.
      * other H.
      * other H.
      * other H.
      * other H.
      * other H.
      * other H.
      * other H.
      * same H. injection H as H0 H1. apply (inj_wm _ _ (IH_NodeScillaType)) in H0; [subst|size]. apply (inj_wm _ _ (IH_NodeScillaType)) in H1; [subst|size]. reflexivity.
      * other H.
      * other H.
      * other H.
      * other H.
      * other H.
      * other H.
      * other H.
      * same H. injection H as H0. apply (inj_wm _ _ (IH_NodeScillaType)) in H0; [subst|size]. reflexivity.
      * other H.
      * other H.
      * other H.
      * other H.
      * other H.
      * other H.
      * other H.
      * same H. injection H as H0. apply (inj_wm _ _ (IH_NodeAddressType)) in H0; [subst|size]. reflexivity.
      * other H.
      * other H.
      * other H.
      * other H.
      * other H.
      * other H.
      * other H.
      * same H. injection H as H0 H1. apply (inj_wm _ _ (inj_text n)) in H0; [subst|size]. apply (inj_wm _ _ (IH_NodeScillaType)) in H1; [subst|size]. reflexivity.
      * other H.
      * other H.
      * other H.
      * other H.
      * other H.
      * other H.
      * other H.
      * same H. injection H as H0. apply (inj_wm _ _ (inj_text n)) in H0; [subst|size]. reflexivity.
    + intros x y Hs H. destruct x, y; cbn [view_NodeTypeMapEntry] in *.
      * same H. injection H as H0 H1. apply (inj_wm _ _ (IH_NodeTypeMapKey)) in H0; [subst|size]. apply (inj_wm _ _ (IH_NodeTypeMapValue)) in H1; [subst|size]. reflexivity.
    + intros x y Hs H. destruct x, y; cbn [view_NodeAddressTypeField] in *.
      * same H. injection H as H0 H1. apply (inj_wm _ _ (inj_NodeVariableIdentifier n)) in H0; [subst|size]. apply (inj_wm _ _ (IH_NodeScillaType)) in H1; [subst|size]. reflexivity.
    + intros x y Hs H. destruct x, y; cbn [view_NodeAddressType] in *.
      * same H. injection H as H0 H1 H2. apply (inj_wm _ _ (inj_NodeTypeNameIdentifier n)) in H0; [subst|size]. apply (inj_wm _ _ (inj_text n)) in H1; [subst|size]. apply (inj_list _ _ (inj_wm _ _ (IH_NodeAddressTypeField))) in H2; [subst|size]. reflexivity.
    + intros x y Hs H. destruct x, y; cbn [view_NodeTypeMapValueArguments] in *.
      * same H. injection H as H0. apply (inj_wm _ _ (IH_NodeTypeMapValueAllowingTypeArguments)) in H0; [subst|size]. reflexivity.
      * other H.
      * other H.
      * other H.
      * same H. injection H as H0. apply (inj_wm _ _ (inj_NodeMetaIdentifier n)) in H0; [subst|size]. reflexivity.
      * other H.
      * other H.
      * other H.
      * same H. injection H as H0 H1. apply (inj_wm _ _ (IH_NodeTypeMapKey)) in H0; [subst|size]. apply (inj_wm _ _ (IH_NodeTypeMapValue)) in H1; [subst|size]. reflexivity.
    + intros x y Hs H. destruct x, y; cbn [view_NodeTypeMapValueAllowingTypeArguments] in *.
      * same H. injection H as H0. apply (inj_wm _ _ (IH_NodeTypeMapValue)) in H0; [subst|size]. reflexivity.
      * other H.
      * other H.
      * same H. injection H as H0 H1. apply (inj_wm _ _ (inj_NodeMetaIdentifier n)) in H0; [subst|size]. apply (inj_list _ _ (inj_wm _ _ (IH_NodeTypeMapValueArguments))) in H1; [subst|size]. reflexivity.
  Qed.
  Lemma inj_NodeTypeMapKey n : inj_at n view_NodeTypeMapKey.
  Proof. apply injs_NodeTypeMapKey. Qed.
  Lemma inj_NodeTypeMapValue n : inj_at n view_NodeTypeMapValue.
  Proof. apply injs_NodeTypeMapKey. Qed.
  Lemma inj_NodeTypeArgument n : inj_at n view_NodeTypeArgument.
  Proof. apply injs_NodeTypeMapKey. Qed.
  Lemma inj_NodeScillaType n : inj_at n view_NodeScillaType.
  Proof. apply injs_NodeTypeMapKey. Qed.
  Lemma inj_NodeTypeMapEntry n : inj_at n view_NodeTypeMapEntry.
  Proof. apply injs_NodeTypeMapKey. Qed.
  Lemma inj_NodeAddressTypeField n : inj_at n view_NodeAddressTypeField.
  Proof. apply injs_NodeTypeMapKey. Qed.
  Lemma inj_NodeAddressType n : inj_at n view_NodeAddressType.
  Proof. apply injs_NodeTypeMapKey. Qed.
  Lemma inj_NodeTypeMapValueArguments n : inj_at n view_NodeTypeMapValueArguments.
  Proof. apply injs_NodeTypeMapKey. Qed.
  Lemma inj_NodeTypeMapValueAllowingTypeArguments n : inj_at n view_NodeTypeMapValueAllowingTypeArguments.
  Proof. apply injs_NodeTypeMapKey. Qed.
  Lemma inj_NodeTypeAnnotation n : inj_at n view_NodeTypeAnnotation.
  Proof.
    intros x y Hs H. destruct x, y; cbn [view_NodeTypeAnnotation] in *.
    - same H. injection H as H0. apply (inj_wm _ _ (inj_NodeScillaType n)) in H0; [subst|size]. reflexivity.
  Qed.
  Lemma inj_NodeContractTypeArguments n : inj_at n view_NodeContractTypeArguments.
  Proof.
    intros x y Hs H. destruct x, y; cbn [view_NodeContractTypeArguments] in *.
    - same H. injection H as H0. apply (inj_list _ _ (inj_wm _ _ (inj_NodeTypeArgument n))) in H0; [subst|size]. reflexivity.
  Qed.
  Lemma inj_NodeValueLiteral n : inj_at n view_NodeValueLiteral.
  Proof.
    intros x y Hs H. destruct x, y; cbn [view_NodeValueLiteral] in *.
    - same H. injection H as H0 H1. apply (inj_wm _ _ (inj_NodeTypeNameIdentifier n)) in H0; [subst|size]. apply (inj_wm _ _ (inj_text n)) in H1; [subst|size]. reflexivity.
    - other H.
    - other H.
    - other H.
    - other H.
    - same H. injection H as H0. apply (inj_wm _ _ (inj_text n)) in H0; [subst|size]. reflexivity.
    - other H.
    - other H.
    - other H.
    - other H.
    - same H. injection H as H0. apply (inj_wm _ _ (inj_text n)) in H0; [subst|size]. reflexivity.
    - other H.
    - other H.
    - other H.
    - other H.
    - same H. injection H as H0 H1. apply (inj_wm _ _ (inj_NodeTypeMapKey n)) in H0; [subst|size]. apply (inj_wm _ _ (inj_NodeTypeMapValue n)) in H1; [subst|size]. reflexivity.
  Qed.
  Lemma inj_NodeAtomicExpression n : inj_at n view_NodeAtomicExpression.
  Proof.
    intros x y Hs H. destruct x, y; cbn [view_NodeAtomicExpression] in *.
    - same H. injection H as H0. apply (inj_wm _ _ (inj_NodeVariableIdentifier n)) in H0; [subst|size]. reflexivity.
    - other H.
    - other H.
    - same H. injection H as H0. apply (inj_wm _ _ (inj_NodeValueLiteral n)) in H0; [subst|size]. reflexivity.
  Qed.
  Lemma inj_NodeMessageEntry n : inj_at n view_NodeMessageEntry.
  Proof.
    intros x y Hs H. destruct x, y; cbn [view_NodeMessageEntry] in *.
    - same H. injection H as H0 H1. apply (inj_wm _ _ (inj_NodeVariableIdentifier n)) in H0; [subst|size]. apply (inj_wm _ _ (inj_NodeValueLiteral n)) in H1; [subst|size]. reflexivity.
    - other H.
    - other H.
    - same H. injection H as H0 H1. apply (inj_wm _ _ (inj_NodeVariableIdentifier n)) in H0; [subst|size]. apply (inj_wm _ _ (inj_NodeVariableIdentifier n)) in H1; [subst|size]. reflexivity.
  Qed.
  Lemma inj_NodeMapAccess n : inj_at n view_NodeMapAccess.
  Proof.
    intros x y Hs H. destruct x, y; cbn [view_NodeMapAccess] in *.
    - same H. injection H as H0. apply (inj_wm _ _ (inj_NodeVariableIdentifier n)) in H0; [subst|size]. reflexivity.
  Qed.
  Lemma injs_NodePattern n : inj_at n view_NodePattern /\ inj_at n view_NodeArgumentPattern.
  Proof.
    induction n as [|n IH]; [repeat split; intros x y Hs; destruct x; inversion Hs|]. destruct IH as (IH_NodePattern & IH_NodeArgumentPattern).
    repeat split.
    + intros x y Hs H. destruct x, y; cbn [view_NodePattern] in *.
      * reflexivity.
      * other H.
      * other H.
      * other H.
      * same H. injection H as H0. apply (inj_wm _ _ (inj_text n)) in H0; [subst|size]. reflexivity.
      * other H.
      * other H.
      * other H.
      * same H. injection H as H0 H1. apply (inj_wm _ _ (inj_NodeMetaIdentifier n)) in H0; [subst|size]. apply (inj_list _ _ (inj_wm _ _ (IH_NodeArgumentPattern))) in H1; [subst|size]. reflexivity.
    + intros x y Hs H. destruct x, y; cbn [view_NodeArgumentPattern] in *.
      * reflexivity.
      * other H.
      * other H.
      * other H.
      * other H.
      * same H. injection H as H0. apply (inj_wm _ _ (inj_text n)) in H0; [subst|size]. reflexivity.
      * other H.
      * other H.
      * other H.
      * other H.
      * same H. injection H as H0. apply (inj_wm _ _ (inj_NodeMetaIdentifier n)) in H0; [subst|size]. reflexivity.
      * other H.
      * other H.
      * other H.
      * other H.
      * same H. injection H as H0. apply (inj_wm _ _ (IH_NodePattern)) in H0; [subst|size]. reflexivity.
  Qed.
  Lemma inj_NodePattern n : inj_at n view_NodePattern.
  Proof. apply injs_NodePattern. Qed.
  Lemma inj_NodeArgumentPattern n : inj_at n view_NodeArgumentPattern.
  Proof. apply injs_NodePattern. Qed.
  Lemma injs_NodeFullExpression n : inj_at n view_NodeFullExpression /\ inj_at n view_NodePatternMatchExpressionClause.
  Proof.
    induction n as [|n IH]; [repeat split; intros x y Hs; destruct x; inversion Hs|]. destruct IH as (IH_NodeFullExpression & IH_NodePatternMatchExpressionClause).
    repeat split.
    + intros x y Hs H. destruct x, y; cbn [view_NodeFullExpression] in *.
      * same H. injection H as H0 H1 H2 H3. apply (inj_wm _ _ (inj_text n)) in H0; [subst|size]. apply (inj_wm _ _ (IH_NodeFullExpression)) in H1; [subst|size]. apply (inj_opt _ _ (inj_wm _ _ (inj_NodeTypeAnnotation n))) in H2; [subst|size]. apply (inj_wm _ _ (IH_NodeFullExpression)) in H3; [subst|size]. reflexivity.
      * other H.
      * other H.
      * other H.
      * other H.
      * other H.
      * other H.
      * other H.
      * other H.
      * other H.
      * other H.
      * same H. injection H as H0 H1 H2. apply (inj_wm _ _ (inj_text n)) in H0; [subst|size]. apply (inj_wm _ _ (inj_NodeTypeAnnotation n)) in H1; [subst|size]. apply (inj_wm _ _ (IH_NodeFullExpression)) in H2; [subst|size]. reflexivity.
      * other H.
      * other H.
      * other H.
      * other H.
      * other H.
      * other H.
      * other H.
      * other H.
      * other H.
      * other H.
      * same H. injection H as H0 H1. apply (inj_wm _ _ (inj_NodeVariableIdentifier n)) in H0; [subst|size]. apply (inj_list _ _ (inj_wm _ _ (inj_NodeVariableIdentifier n))) in H1; [subst|size]. reflexivity.
      * other H.
      * other H.
      * other H.
      * other H.
      * other H.
      * other H.
      * other H.
      * other H.
      * other H.
      * other H.
      * same H. injection H as H0. apply (inj_wm _ _ (inj_NodeAtomicExpression n)) in H0; [subst|size]. reflexivity.
      * other H.
      * other H.
      * other H.
      * other H.
      * other H.
      * other H.
      * other H.
      * other H.
      * other H.
      * other H.
      * same H. injection H as H0 H1 H2. apply (inj_wm _ _ (inj_text n)) in H0; [subst|size]. apply (inj_opt _ _ (inj_wm _ _ (inj_NodeContractTypeArguments n))) in H1; [subst|size]. apply (inj_wm _ _ (inj_NodeBuiltinArguments n)) in H2; [subst|size]. reflexivity.
      * other H.
      * other H.
      * other H.
      * other H.
      * other H.
      * other H.
      * other H.
      * other H.
      * other H.
      * other H.
      * same H. injection H as H0. apply (inj_list _ _ (inj_wm _ _ (inj_NodeMessageEntry n))) in H0; [subst|size]. reflexivity.
      * other H.
      * other H.
      * other H.
      * other H.
      * other H.
      * other H.
      * other H.
      * other H.
      * other H.
      * other H.
      * same H. injection H as H0 H1. apply (inj_wm _ _ (inj_NodeVariableIdentifier n)) in H0; [subst|size]. apply (inj_list _ _ (inj_wm _ _ (IH_NodePatternMatchExpressionClause))) in H1; [subst|size]. reflexivity.
      * other H.
      * other H.
      * other H.
      * other H.
      * other H.
      * other H.
      * other H.
      * other H.
      * other H.
      * other H.
      * same H. injection H as H0 H1 H2. apply (inj_wm _ _ (inj_NodeMetaIdentifier n)) in H0; [subst|size]. apply (inj_opt _ _ (inj_wm _ _ (inj_NodeContractTypeArguments n))) in H1; [subst|size]. apply (inj_list _ _ (inj_wm _ _ (inj_NodeVariableIdentifier n))) in H2; [subst|size]. reflexivity.
      * other H.
      * other H.
      * other H.
      * other H.
      * other H.
      * other H.
      * other H.
      * other H.
      * other H.
      * other H.
      * same H. injection H as H0 H1. apply (inj_wm _ _ (inj_text n)) in H0; [subst|size]. apply (inj_wm _ _ (IH_NodeFullExpression)) in H1; [subst|size]. reflexivity.
      * other H.
      * other H.
      * other H.
      * other H.
      * other H.
      * other H.
      * other H.
      * other H.
      * other H.
      * other H.
      * same H. injection H as H0 H1. apply (inj_wm _ _ (inj_NodeVariableIdentifier n)) in H0; [subst|size]. apply (inj_list _ _ (inj_wm _ _ (inj_NodeTypeArgument n))) in H1; [subst|size]. reflexivity.
    + intros x y Hs H. destruct x, y; cbn [view_NodePatternMatchExpressionClause] in *.
      * same H. injection H as H0 H1. apply (inj_wm _ _ (inj_NodePattern n)) in H0; [subst|size]. apply (inj_wm _ _ (IH_NodeFullExpression)) in H1; [subst|size]. reflexivity.
  Qed.
  Lemma inj_NodeFullExpression n : inj_at n view_NodeFullExpression.
  Proof. apply injs_NodeFullExpression. Qed.
  Lemma inj_NodePatternMatchExpressionClause n : inj_at n view_NodePatternMatchExpressionClause.
  Proof. apply injs_NodeFullExpression. Qed.
  Lemma inj_NodeBlockchainFetchArguments n : inj_at n view_NodeBlockchainFetchArguments.
  Proof.
    intros x y Hs H. destruct x, y; cbn [view_NodeBlockchainFetchArguments] in *.
    - same H. injection H as H0. apply (inj_list _ _ (inj_wm _ _ (inj_NodeVariableIdentifier n))) in H0; [subst|size]. reflexivity.
  Qed.
  Lemma inj_NodeComponentId n : inj_at n view_NodeComponentId.
  Proof.
    intros x y Hs H. destruct x, y; cbn [view_NodeComponentId] in *.
    - same H. injection H as H0. apply (inj_wm _ _ (inj_NodeTypeNameIdentifier n)) in H0; [subst|size]. reflexivity.
    - other H.
    - other H.
    - same H. injection H as H0. apply (inj_wm _ _ (inj_text n)) in H0; [subst|size]. reflexivity.
  Qed.
  Lemma inj_NodeRemoteFetchStatement n : inj_at n view_NodeRemoteFetchStatement.
  Proof.
    intros x y Hs H. destruct x, y; cbn [view_NodeRemoteFetchStatement] in *.
    - same H. injection H as H0 H1 H2. apply (inj_wm _ _ (inj_text n)) in H0; [subst|size]. apply (inj_wm _ _ (inj_text n)) in H1; [subst|size]. apply (inj_wm _ _ (inj_NodeVariableIdentifier n)) in H2; [subst|size]. reflexivity.
    - other H.
    - other H.
    - other H.
    - other H.
    - other H.
    - same H. injection H as H0 H1 H2. apply (inj_wm _ _ (inj_text n)) in H0; [subst|size]. apply (inj_wm _ _ (inj_text n)) in H1; [subst|size]. apply (inj_wm _ _ (inj_text n)) in H2; [subst|size]. reflexivity.
    - other H.
    - other H.
    - other H.
    - other H.
    - other H.
    - same H. injection H as H0 H1 H2 H3. apply (inj_wm _ _ (inj_text n)) in H0; [subst|size]. apply (inj_wm _ _ (inj_text n)) in H1; [subst|size]. apply (inj_wm _ _ (inj_text n)) in H2; [subst|size]. apply (inj_list _ _ (inj_wm _ _ (inj_NodeMapAccess n))) in H3; [subst|size]. reflexivity.
    - other H.
    - other H.
    - other H.
    - other H.
    - other H.
    - same H. injection H as H0 H1 H2 H3. apply (inj_wm _ _ (inj_text n)) in H0; [subst|size]. apply (inj_wm _ _ (inj_text n)) in H1; [subst|size]. apply (inj_wm _ _ (inj_text n)) in H2; [subst|size]. apply (inj_list _ _ (inj_wm _ _ (inj_NodeMapAccess n))) in H3; [subst|size]. reflexivity.
    - other H.
    - other H.
    - other H.
    - other H.
    - other H.
    - same H. injection H as H0 H1 H2. apply (inj_wm _ _ (inj_text n)) in H0; [subst|size]. apply (inj_wm _ _ (inj_NodeVariableIdentifier n)) in H1; [subst|size]. apply (inj_wm _ _ (inj_NodeAddressType n)) in H2; [subst|size]. reflexivity.
  Qed.
  Lemma injs_NodeStatement n : inj_at n view_NodeStatement /\ inj_at n view_NodePatternMatchClause /\ inj_at n view_NodeStatementBlock.
  Proof.
    induction n as [|n IH]; [repeat split; intros x y Hs; destruct x; inversion Hs|]. destruct IH as (IH_NodeStatement & IH_NodePatternMatchClause & IH_NodeStatementBlock).
    repeat split.
    + intros x y Hs H. destruct x, y; cbn [view_NodeStatement] in *.
      * same H. injection H as H0 H1. apply (inj_wm _ _ (inj_text n)) in H0; [subst|size]. apply (inj_wm _ _ (inj_NodeVariableIdentifier n)) in H1; [subst|size]. reflexivity.
      * other H.
      * other H.
      * other H.
      * other H.
      * other H.
      * other H.
      * other H.
      * other H.
      * other H.
      * other H.
      * other H.
      * other H.
      * other H.
      * other H.
      * other H.
      * other H.
      * same H. injection H as H0. apply (inj_NodeRemoteFetchStatement n) in H0; [subst|size]. reflexivity.
      * other H.
      * other H.
      * other H.
      * other H.
      * other H.
      * other H.
      * other H.
      * other H.
      * other H.
      * other H.
      * other H.
      * other H.
      * other H.
      * other H.
      * other H.
      * other H.
      * same H. injection H as H0 H1. apply (inj_wm _ _ (inj_text n)) in H0; [subst|size]. apply (inj_wm _ _ (inj_NodeVariableIdentifier n)) in H1; [subst|size]. reflexivity.
      * other H.
      * other H.
      * other H.
      * other H.
      * other H.
      * other H.
      * other H.
      * other H.
      * other H.
      * other H.
      * other H.
      * other H.
      * other H.
      * other H.
      * other H.
      * other H.
      * same H. injection H as H0 H1. apply (inj_wm _ _ (inj_text n)) in H0; [subst|size]. apply (inj_wm _ _ (inj_NodeFullExpression n)) in H1; [subst|size]. reflexivity.
      * other H.
      * other H.
      * other H.
      * other H.
      * other H.
      * other H.
      * other H.
      * other H.
      * other H.
      * other H.
      * other H.
      * other H.
      * other H.
      * other H.
      * other H.
      * other H.
      * same H. injection H as H0 H1 H2. apply (inj_wm _ _ (inj_text n)) in H0; [subst|size]. apply (inj_wm _ _ (inj_NodeTypeNameIdentifier n)) in H1; [subst|size]. apply (inj_opt _ _ (inj_NodeBlockchainFetchArguments n)) in H2; [subst|size]. reflexivity.
      * other H.
      * other H.
      * other H.
      * other H.
      * other H.
      * other H.
      * other H.
      * other H.
      * other H.
      * other H.
      * other H.
      * other H.
      * other H.
      * other H.
      * other H.
      * other H.
      * same H. injection H as H0 H1 H2. apply (inj_wm _ _ (inj_text n)) in H0; [subst|size]. apply (inj_list _ _ (inj_wm _ _ (inj_NodeMapAccess n))) in H1; [subst|size]. apply (inj_wm _ _ (inj_text n)) in H2; [subst|size]. reflexivity.
      * other H.
      * other H.
      * other H.
      * other H.
      * other H.
      * other H.
      * other H.
      * other H.
      * other H.
      * other H.
      * other H.
      * other H.
      * other H.
      * other H.
      * other H.
      * other H.
      * same H. injection H as H0 H1 H2. apply (inj_wm _ _ (inj_text n)) in H0; [subst|size]. apply (inj_list _ _ (inj_wm _ _ (inj_NodeMapAccess n))) in H1; [subst|size]. apply (inj_wm _ _ (inj_text n)) in H2; [subst|size]. reflexivity.
      * other H.
      * other H.
      * other H.
      * other H.
      * other H.
      * other H.
      * other H.
      * other H.
      * other H.
      * other H.
      * other H.
      * other H.
      * other H.
      * other H.
      * other H.
      * other H.
      * same H. injection H as H0 H1 H2. apply (inj_wm _ _ (inj_text n)) in H0; [subst|size]. apply (inj_list _ _ (inj_wm _ _ (inj_NodeMapAccess n))) in H1; [subst|size]. apply (inj_wm _ _ (inj_NodeVariableIdentifier n)) in H2; [subst|size]. reflexivity.
      * other H.
      * other H.
      * other H.
      * other H.
      * other H.
      * other H.
      * other H.
      * other H.
      * other H.
      * other H.
      * other H.
      * other H.
      * other H.
      * other H.
      * other H.
      * other H.
      * same H. injection H as H0 H1. apply (inj_wm _ _ (inj_text n)) in H0; [subst|size]. apply (inj_list _ _ (inj_wm _ _ (inj_NodeMapAccess n))) in H1; [subst|size]. reflexivity.
      * other H.
      * other H.
      * other H.
      * other H.
      * other H.
      * other H.
      * other H.
      * other H.
      * other H.
      * other H.
      * other H.
      * other H.
      * other H.
      * other H.
      * other H.
      * other H.
      * reflexivity.
      * other H.
      * other H.
      * other H.
      * other H.
      * other H.
      * other H.
      * other H.
      * other H.
      * other H.
      * other H.
      * other H.
      * other H.
      * other H.
      * other H.
      * other H.
      * other H.
      * same H. injection H as H0. apply (inj_wm _ _ (inj_NodeVariableIdentifier n)) in H0; [subst|size]. reflexivity.
      * other H.
      * other H.
      * other H.
      * other H.
      * other H.
      * other H.
      * other H.
      * other H.
      * other H.
      * other H.
      * other H.
      * other H.
      * other H.
      * other H.
      * other H.
      * other H.
      * same H. injection H as H0. apply (inj_wm _ _ (inj_NodeVariableIdentifier n)) in H0; [subst|size]. reflexivity.
      * other H.
      * other H.
      * other H.
      * other H.
      * other H.
      * other H.
      * other H.
      * other H.
      * other H.
      * other H.
      * other H.
      * other H.
      * other H.
      * other H.
      * other H.
      * other H.
      * same H. injection H as H0. apply (inj_opt _ _ (inj_wm _ _ (inj_NodeVariableIdentifier n))) in H0; [subst|size]. reflexivity.
      * other H.
      * other H.
      * other H.
      * other H.
      * other H.
      * other H.
      * other H.
      * other H.
      * other H.
      * other H.
      * other H.
      * other H.
      * other H.
      * other H.
      * other H.
      * other H.
      * same H. injection H as H0 H1. apply (inj_wm _ _ (inj_NodeVariableIdentifier n)) in H0; [subst|size]. apply (inj_list _ _ (inj_wm _ _ (IH_NodePatternMatchClause))) in H1; [subst|size]. reflexivity.
      * other H.
      * other H.
      * other H.
      * other H.
      * other H.
      * other H.
      * other H.
      * other H.
      * other H.
      * other H.
      * other H.
      * other H.
      * other H.
      * other H.
      * other H.
      * other H.
      * same H. injection H as H0 H1. apply (inj_wm _ _ (inj_NodeComponentId n)) in H0; [subst|size]. apply (inj_list _ _ (inj_wm _ _ (inj_NodeVariableIdentifier n))) in H1; [subst|size]. reflexivity.
      * other H.
      * other H.
      * other H.
      * other H.
      * other H.
      * other H.
      * other H.
      * other H.
      * other H.
      * other H.
      * other H.
      * other H.
      * other H.
      * other H.
      * other H.
      * other H.
      * same H. injection H as H0 H1. apply (inj_wm _ _ (inj_NodeVariableIdentifier n)) in H0; [subst|size]. apply (inj_wm _ _ (inj_NodeComponentId n)) in H1; [subst|size]. reflexivity.
    + intros x y Hs H. destruct x, y; cbn [view_NodePatternMatchClause] in *.
      * same H. injection H as H0 H1. apply (inj_wm _ _ (inj_NodePattern n)) in H0; [subst|size]. apply (inj_opt _ _ (inj_wm _ _ (IH_NodeStatementBlock))) in H1; [subst|size]. reflexivity.
    + intros x y Hs H. destruct x, y; cbn [view_NodeStatementBlock] in *.
      * same H. injection H as H0. apply (inj_list _ _ (IH_NodeStatement)) in H0; [subst|size]. reflexivity.
  Qed.
  Lemma inj_NodeStatement n : inj_at n view_NodeStatement.
  Proof. apply injs_NodeStatement. Qed.
  Lemma inj_NodePatternMatchClause n : inj_at n view_NodePatternMatchClause.
  Proof. apply injs_NodeStatement. Qed.
  Lemma inj_NodeStatementBlock n : inj_at n view_NodeStatementBlock.
  Proof. apply injs_NodeStatement. Qed.
  Lemma inj_NodeTypedIdentifier n : inj_at n view_NodeTypedIdentifier.
  Proof.
    intros x y Hs H. destruct x, y; cbn [view_NodeTypedIdentifier] in *.
    - same H. injection H as H0 H1. apply (inj_wm _ _ (inj_text n)) in H0; [subst|size]. apply (inj_wm _ _ (inj_NodeTypeAnnotation n)) in H1; [subst|size]. reflexivity.
  Qed.
  Lemma inj_NodeParameterPair n : inj_at n view_NodeParameterPair.
  Proof.
    intros x y Hs H. destruct x, y; cbn [view_NodeParameterPair] in *.
    - same H. injection H as H0. apply (inj_wm _ _ (inj_NodeTypedIdentifier n)) in H0; [subst|size]. reflexivity.
  Qed.
  Lemma inj_NodeComponentParameters n : inj_at n view_NodeComponentParameters.
  Proof.
    intros x y Hs H. destruct x, y; cbn [view_NodeComponentParameters] in *.
    - same H. injection H as H0. apply (inj_list _ _ (inj_wm _ _ (inj_NodeParameterPair n))) in H0; [subst|size]. reflexivity.
  Qed.
  Lemma inj_NodeComponentBody n : inj_at n view_NodeComponentBody.
  Proof.
    intros x y Hs H. destruct x, y; cbn [view_NodeComponentBody] in *.
    - same H. injection H as H0. apply (inj_opt _ _ (inj_wm _ _ (inj_NodeStatementBlock n))) in H0; [subst|size]. reflexivity.
  Qed.
  Lemma inj_NodeTypeAlternativeClause n : inj_at n view_NodeTypeAlternativeClause.
  Proof.
    intros x y Hs H. destruct x, y; cbn [view_NodeTypeAlternativeClause] in *.
    - same H. injection H as H0. apply (inj_wm _ _ (inj_NodeTypeNameIdentifier n)) in H0; [subst|size]. reflexivity.
    - other H.
    - other H.
    - same H. injection H as H0 H1. apply (inj_wm _ _ (inj_NodeTypeNameIdentifier n)) in H0; [subst|size]. apply (inj_list _ _ (inj_wm _ _ (inj_NodeTypeArgument n))) in H1; [subst|size]. reflexivity.
  Qed.
  Lemma inj_NodeLibrarySingleDefinition n : inj_at n view_NodeLibrarySingleDefinition.
  Proof.
    intros x y Hs H. destruct x, y; cbn [view_NodeLibrarySingleDefinition] in *.
    - same H. injection H as H0 H1 H2. apply (inj_wm _ _ (inj_text n)) in H0; [subst|size]. apply (inj_opt _ _ (inj_wm _ _ (inj_NodeTypeAnnotation n))) in H1; [subst|size]. apply (inj_wm _ _ (inj_NodeFullExpression n)) in H2; [subst|size]. reflexivity.
    - other H.
    - other H.
    - same H. injection H as H0 H1. apply (inj_wm _ _ (inj_NodeTypeNameIdentifier n)) in H0; [subst|size]. apply (inj_opt _ _ (inj_list _ _ (inj_wm _ _ (inj_NodeTypeAlternativeClause n)))) in H1; [subst|size]. reflexivity.
  Qed.
  Lemma inj_NodeLibraryDefinition n : inj_at n view_NodeLibraryDefinition.
  Proof.
    intros x y Hs H. destruct x, y; cbn [view_NodeLibraryDefinition] in *.
    - same H. injection H as H0 H1. apply (inj_wm _ _ (inj_NodeTypeNameIdentifier n)) in H0; [subst|size]. apply (inj_list _ _ (inj_wm _ _ (inj_NodeLibrarySingleDefinition n))) in H1; [subst|size]. reflexivity.
  Qed.
  Lemma inj_NodeContractField n : inj_at n view_NodeContractField.
  Proof.
    intros x y Hs H. destruct x, y; cbn [view_NodeContractField] in *.
    - same H. injection H as H0 H1. apply (inj_wm _ _ (inj_NodeTypedIdentifier n)) in H0; [subst|size]. apply (inj_wm _ _ (inj_NodeFullExpression n)) in H1; [subst|size]. reflexivity.
  Qed.
  Lemma inj_NodeWithConstraint n : inj_at n view_NodeWithConstraint.
  Proof.
    intros x y Hs H. destruct x, y; cbn [view_NodeWithConstraint] in *.
    - same H. injection H as H0. apply (inj_wm _ _ (inj_NodeFullExpression n)) in H0; [subst|size]. reflexivity.
  Qed.
  Lemma inj_NodeProcedureDefinition n : inj_at n view_NodeProcedureDefinition.
  Proof.
    intros x y Hs H. destruct x, y; cbn [view_NodeProcedureDefinition] in *.
    - same H. injection H as H0 H1 H2. apply (inj_wm _ _ (inj_NodeComponentId n)) in H0; [subst|size]. apply (inj_wm _ _ (inj_NodeComponentParameters n)) in H1; [subst|size]. apply (inj_wm _ _ (inj_NodeComponentBody n)) in H2; [subst|size]. reflexivity.
  Qed.
  Lemma inj_NodeTransitionDefinition n : inj_at n view_NodeTransitionDefinition.
  Proof.
    intros x y Hs H. destruct x, y; cbn [view_NodeTransitionDefinition] in *.
    - same H. injection H as H0 H1 H2. apply (inj_wm _ _ (inj_NodeComponentId n)) in H0; [subst|size]. apply (inj_wm _ _ (inj_NodeComponentParameters n)) in H1; [subst|size]. apply (inj_wm _ _ (inj_NodeComponentBody n)) in H2; [subst|size]. reflexivity.
  Qed.
  Lemma inj_NodeComponentDefinition n : inj_at n view_NodeComponentDefinition.
  Proof.
    intros x y Hs H. destruct x, y; cbn [view_NodeComponentDefinition] in *.
    - same H. injection H as H0. apply (inj_wm _ _ (inj_NodeTransitionDefinition n)) in H0; [subst|size]. reflexivity.
    - other H.
    - other H.
    - same H. injection H as H0. apply (inj_wm _ _ (inj_NodeProcedureDefinition n)) in H0; [subst|size]. reflexivity.
  Qed.
  Lemma inj_NodeContractDefinition n : inj_at n view_NodeContractDefinition.
  Proof.
    intros x y Hs H. destruct x, y; cbn [view_NodeContractDefinition] in *.
    - same H. injection H as H0 H1 H2 H3 H4. apply (inj_wm _ _ (inj_NodeTypeNameIdentifier n)) in H0; [subst|size]. apply (inj_wm _ _ (inj_NodeComponentParameters n)) in H1; [subst|size]. apply (inj_opt _ _ (inj_wm _ _ (inj_NodeWithConstraint n))) in H2; [subst|size]. apply (inj_list _ _ (inj_wm _ _ (inj_NodeContractField n))) in H3; [subst|size]. apply (inj_list _ _ (inj_wm _ _ (inj_NodeComponentDefinition n))) in H4; [subst|size]. reflexivity.
  Qed.
  Lemma inj_NodeProgram n : inj_at n view_NodeProgram.
  Proof.
    intros x y Hs H. destruct x, y; cbn [view_NodeProgram] in *.
    - same H. injection H as H0 H1 H2 H3. apply (inj_wm _ _ (inj_text n)) in H0; [subst|size]. apply (inj_opt _ _ (inj_wm _ _ (inj_NodeImportDeclarations n))) in H1; [subst|size]. apply (inj_opt _ _ (inj_wm _ _ (inj_NodeLibraryDefinition n))) in H2; [subst|size]. apply (inj_wm _ _ (inj_NodeContractDefinition n)) in H3; [subst|size]. reflexivity.
  Qed.

  Theorem node_inj a b : node_type a = node_type b -> f (view_node a) = f (view_node b) -> a = b.
  Proof.
    destruct a, b; cbn [node_type view_node]; intros Ht H; try discriminate Ht; f_equal.
    - apply (inj_NodeByteStr _ _ _ (le_n _) H).
    - apply (inj_NodeTypeNameIdentifier _ _ _ (le_n _) H).
    - apply (inj_NodeImportedName _ _ _ (le_n _) H).
    - apply (inj_NodeImportDeclarations _ _ _ (le_n _) H).
    - apply (inj_NodeMetaIdentifier _ _ _ (le_n _) H).
    - apply (inj_NodeVariableIdentifier _ _ _ (le_n _) H).
    - apply (inj_NodeBuiltinArguments _ _ _ (le_n _) H).
    - apply (inj_NodeTypeMapKey _ _ _ (le_n _) H).
    - apply (inj_NodeTypeMapValue _ _ _ (le_n _) H).
    - apply (inj_NodeTypeArgument _ _ _ (le_n _) H).
    - apply (inj_NodeScillaType _ _ _ (le_n _) H).
    - apply (inj_NodeTypeMapEntry _ _ _ (le_n _) H).
    - apply (inj_NodeAddressTypeField _ _ _ (le_n _) H).
    - apply (inj_NodeAddressType _ _ _ (le_n _) H).
    - apply (inj_NodeFullExpression _ _ _ (le_n _) H).
    - apply (inj_NodeMessageEntry _ _ _ (le_n _) H).
    - apply (inj_NodePatternMatchExpressionClause _ _ _ (le_n _) H).
    - apply (inj_NodeAtomicExpression _ _ _ (le_n _) H).
    - apply (inj_NodeContractTypeArguments _ _ _ (le_n _) H).
    - apply (inj_NodeValueLiteral _ _ _ (le_n _) H).
    - apply (inj_NodeMapAccess _ _ _ (le_n _) H).
    - apply (inj_NodePattern _ _ _ (le_n _) H).
    - apply (inj_NodeArgumentPattern _ _ _ (le_n _) H).
    - apply (inj_NodePatternMatchClause _ _ _ (le_n _) H).
    - apply (inj_NodeBlockchainFetchArguments _ _ _ (le_n _) H).
    - apply (inj_NodeStatement _ _ _ (le_n _) H).
    - apply (inj_NodeRemoteFetchStatement _ _ _ (le_n _) H).
    - apply (inj_NodeComponentId _ _ _ (le_n _) H).
    - apply (inj_NodeComponentParameters _ _ _ (le_n _) H).
    - apply (inj_NodeParameterPair _ _ _ (le_n _) H).
    - apply (inj_NodeComponentBody _ _ _ (le_n _) H).
    - apply (inj_NodeStatementBlock _ _ _ (le_n _) H).
    - apply (inj_NodeTypedIdentifier _ _ _ (le_n _) H).
    - apply (inj_NodeTypeAnnotation _ _ _ (le_n _) H).
    - apply (inj_NodeProgram _ _ _ (le_n _) H).
    - apply (inj_NodeLibraryDefinition _ _ _ (le_n _) H).
    - apply (inj_NodeLibrarySingleDefinition _ _ _ (le_n _) H).
    - apply (inj_NodeContractDefinition _ _ _ (le_n _) H).
    - apply (inj_NodeContractField _ _ _ (le_n _) H).
    - apply (inj_NodeWithConstraint _ _ _ (le_n _) H).
    - apply (inj_NodeComponentDefinition _ _ _ (le_n _) H).
    - apply (inj_NodeProcedureDefinition _ _ _ (le_n _) H).
    - apply (inj_NodeTransitionDefinition _ _ _ (le_n _) H).
    - apply (inj_NodeTypeAlternativeClause _ _ _ (le_n _) H).
    - apply (inj_NodeTypeMapValueArguments _ _ _ (le_n _) H).
    - apply (inj_NodeTypeMapValueAllowingTypeArguments _ _ _ (le_n _) H).
  Qed.
End Inj.
