(** The messages with which the emitter fails. *)
From Verif Require Import Chars Lexer Ast Types Visitor Emitter EmitSpec TypeFacts EmitTypes EmitProgram EmitInv EmitErase EmitSig EmitOk EmitSteps.
Local Open Scope nat_scope.

Section Errs.
  Context (debug : stack_object -> str).
  Notation E := (sr_emitter debug).
  Notation vis := (visit E).

  Definition emit_message (m : str) : Prop := exists what found,
    m = lit "Expected " ++ what ++ lit ", but found " ++ found ++ lit "."
    /\ In what [lit "symbol name"; lit "variable declaration"; lit "type definition"]
    /\ (found = lit "nothing" \/ exists o, found = debug o).

  Definition says {A} (m : EM A) : Prop := forall s e s', m s = Ret (Err e) s' -> emit_message e.
  Lemma says_ret {A} (a : A) : says (ret a).
  Proof. intros s e s' H. discriminate. Qed.
  Lemma says_panic {A} : says (panic (A:=A)).
  Proof. intros s e s' H. discriminate. Qed.
  Lemma says_push o : says (push o).
  Proof. intros s e s' H. discriminate. Qed.
  Lemma says_upd o : says (upd o).
  Proof. intros s e s' H. discriminate. Qed.
  Lemma says_raise {A} m : emit_message m -> says (raise (A:=A) m).
  Proof. intros Hm s e s' H. injection H as <- <-. exact Hm. Qed.
  Lemma says_bind {A B} (m : EM A) (k : A -> EM B) : says m -> (forall a, says (k a)) -> says (bind m k).
  Proof.
    intros Hm Hk s e s' H. unfold bind, bind_res in H. destruct (m s) as [[a|e1] s1| |] eqn:E1; try discriminate.
    - eapply Hk, H.
    - injection H as <- <-. eapply Hm, E1.
  Qed.
  Lemma says_bind_res {A B} (m : EM A) (k : result A -> EM B) :
    says m -> (forall a, says (k (Ok a))) -> (forall e, emit_message e -> says (k (Err e))) -> says (bind_res m k).
  Proof.
    intros Hm Hk Hk' s e s' H. unfold bind_res in H. destruct (m s) as [[a|e1] s1| |] eqn:E1; try discriminate.
    - eapply Hk, H.
    - eapply Hk'; [eapply Hm, E1|exact H].
  Qed.
  Ltac spop := intros s e s' H; destruct s as [st c]; cbn in H; destruct st as [|[i|d|t] st]; injection H as <- <-;
    try discriminate; unfold emit_message.
  Lemma says_pop_type : says (pop_type_definition debug).
  Proof.
    intros s e s' H. unfold pop_type_definition in H. destruct s as [st c]. cbn -[lit] in H.
    destruct st as [|[i|d|t] st]; try discriminate; injection H as <- <-; exists (lit "type definition");
      [exists (lit "nothing")|exists (debug (IrIdentifier i))|exists (debug (VariableDeclaration d))];
      (split; [reflexivity|]; split; [cbn -[lit]; tauto|eauto]).
  Qed.
  Lemma says_pop_ident : says (pop_ir_identifier debug).
  Proof.
    intros s e s' H. unfold pop_ir_identifier in H. destruct s as [st c]. cbn -[lit] in H.
    destruct st as [|[i|d|t] st]; try discriminate; injection H as <- <-; exists (lit "symbol name");
      [exists (lit "nothing")|exists (debug (VariableDeclaration d))|exists (debug (SoTypeDefinition t))];
      (split; [reflexivity|]; split; [cbn -[lit]; tauto|eauto]).
  Qed.
  Lemma says_pop_decl : says (pop_variable_declaration debug).
  Proof.
    intros s e s' H. unfold pop_variable_declaration in H. destruct s as [st c]. cbn -[lit] in H.
    destruct st as [|[i|d|t] st]; try discriminate; injection H as <- <-; exists (lit "variable declaration");
      [exists (lit "nothing")|exists (debug (IrIdentifier i))|exists (debug (SoTypeDefinition t))];
      (split; [reflexivity|]; split; [cbn -[lit]; tauto|eauto]).
  Qed.
  Lemma says_field n t : says (field_of n t).
  Proof. unfold field_of. destruct (type_from t); [apply says_ret|apply says_panic]. Qed.

  Section Level.
    Context (v : anynode -> EM tr) (Hv : forall n, quiet_kind n = true -> says (v n)).
    Lemma says_wm {A} (inj : A -> anynode) w : (forall x, quiet_kind (inj x) = true) -> says (visit_wm E v inj w).
    Proof. intros Hi s r s'. rewrite visit_wm_eq. apply Hv, Hi. Qed.
    Lemma says_w {A} (inj : A -> anynode) w : (forall x, quiet_kind (inj x) = true) -> says (wvisit v inj w).
    Proof. intros Hi s r s'. rewrite wvisit_eq. apply Hv, Hi. Qed.

    Ltac qt :=
      repeat first
        [ apply says_ret | apply says_panic | apply says_pop_type | apply says_pop_ident
        | apply says_pop_decl | apply says_push; reflexivity | apply says_field
        | apply says_raise; assumption
        | apply says_wm; reflexivity | apply says_w; reflexivity
        | apply Hv; reflexivity
        | match goal with |- says (bind _ _) => apply says_bind; [|intro] end
        | match goal with |- says (match ?x with _ => _ end) => destruct x end
        | progress unfold ident_to_type, pops_to_map, kid_of, kcont ].

    Lemma says_collect {A} (inj : A -> anynode) l main : (forall x, quiet_kind (inj x) = true) ->
      says (collect_sub_types debug v inj l main).
    Proof.
      intro Hi. revert main. induction l as [|a l IH]; intro main; [apply says_ret|]. cbn [collect_sub_types].
      apply says_bind; [apply says_w, Hi|]. intros _. qt. apply IH.
    Qed.
    Lemma says_generic {A} (inj : A -> anynode) m l : (forall x, quiet_kind (inj x) = true) ->
      says (generic_type debug v inj m l).
    Proof. intro Hi. unfold generic_type. qt. apply says_collect, Hi. Qed.
    Lemma says_afields l : says (collect_address_fields debug v l).
    Proof. induction l as [|a l IH]; [apply says_ret|]. cbn [collect_address_fields]. qt. exact IH. Qed.
    Lemma says_all {A} (inj : A -> anynode) l : (forall x, quiet_kind (inj x) = true) -> says (visit_all E v inj l).
    Proof.
      intro Hi. induction l as [|a l IH]; [apply says_ret|]. cbn [visit_all].
      apply says_bind; [apply says_wm, Hi|]. intros _. exact IH.
    Qed.
    Lemma says_args {A} (inj : A -> anynode) l : (forall x, quiet_kind (inj x) = true) -> says (visit_args E v inj l).
    Proof.
      intro Hi. induction l as [|a l IH]; [apply says_ret|]. cbn [visit_args].
      apply says_bind; [apply says_wm, Hi|]. intros []; [exact IH|apply says_ret].
    Qed.

    Lemma says_children n : quiet_kind n = true -> says (children E v n).
    Proof.
      destruct n as [n|n|n|n|n|n|n|n|n|n|n|n|n|n|n|n|n|n|n|n|n|n|n|n|n|n|n|n|n|n|n|n|n|n|n|n|n|n|n|n|n|n|n|n|n|n];
        try discriminate; intros _; destruct n; cbn [children];
        repeat first [apply says_all; reflexivity | apply says_args; reflexivity | progress qt].
    Qed.
    Lemma says_emit m n : quiet_kind n = true -> says (sr_emit debug v m n).
    Proof.
      destruct n as [n|n|n|n|n|n|n|n|n|n|n|n|n|n|n|n|n|n|n|n|n|n|n|n|n|n|n|n|n|n|n|n|n|n|n|n|n|n|n|n|n|n|n|n|n|n];
        try discriminate; intros _; destruct n; cbn [sr_emit];
        repeat first [apply says_generic; reflexivity | apply says_afields | progress qt].
    Qed.
    Lemma says_node n : quiet_kind n = true -> says (visit_node E v n).
    Proof.
      intro Hn. pose proof (says_children n Hn) as Hch.
      assert (He : forall m, says (emit E v m n)) by (intro m; apply says_emit, Hn).
      destruct n; try discriminate Hn; cbn [visit_node]; unfold standard;
        (apply says_bind_res; [apply He|intros r|intros e Hm]; apply says_bind;
         [try destruct r; try exact Hch; first [apply says_ret|apply says_raise; assumption]
         |intros [[]|]; [apply He| |]; apply says_ret
         |try destruct r; try exact Hch; first [apply says_ret|apply says_raise; assumption]
         |intros [[]|]; [apply He| |]; apply says_ret]).
    Qed.
  End Level.

  Lemma says_visit f n : quiet_kind n = true -> says (vis f n).
  Proof.
    revert n. induction f as [|f IH]; intros n Hn; [intros s r s' H; discriminate|].
    rewrite visit_S. apply says_node; assumption.
  Qed.

  Lemma says_decl d : says (decl debug d).
  Proof.
    unfold decl, visit_ty. apply says_bind; [apply says_visit; reflexivity|]. intros _.
    apply says_bind; [apply says_pop_type|]. intro. apply says_field.
  Qed.
  Lemma says_each {A} (k : A -> EM unit) l : (forall a, says (k a)) -> says (each k l).
  Proof. intro Hk. induction l as [|a l IH]; [apply says_ret|]. cbn [each]. apply says_bind; [apply Hk|]. intros _. exact IH. Qed.
  Lemma says_decls l : says (decls debug l).
  Proof.
    induction l as [|a l IH]; [apply says_ret|]. cbn [decls]. apply says_bind; [apply says_decl|]. intro f.
    apply says_bind; [exact IH|]. intro. apply says_ret.
  Qed.

  Theorem emit_messages p m : emit_program debug p = EErr m -> emit_message m.
  Proof.
    rewrite emit_steps. cbv zeta. set (c := match p with mkProgram _ _ _ c => node c end).
    assert (H : says (steps debug c)).
    { unfold steps. repeat (apply says_bind; [apply says_each; intro a|intros _]); [..|apply says_each; intro a].
      - apply says_bind; [apply says_decl|]. intro. apply says_upd.
      - apply says_bind; [apply says_decl|]. intro. apply says_push.
      - apply says_bind; [apply says_decl|]. intro. apply says_upd.
      - unfold step_transition. apply says_bind; [apply says_push|]. intros _.
        apply says_bind; [apply says_decls|]. intro. apply says_bind; [apply says_pop_ident|]. intro i.
        destruct (kind i); [apply says_panic|apply says_upd|apply says_panic]. }
    specialize (H (first_state c)). destruct (steps debug c (first_state c)) as [[u|e] s| |]; try discriminate.
    intros [= <-]. eapply H. reflexivity.
  Qed.
End Errs.
