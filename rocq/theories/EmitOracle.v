(** The emitter under two renderings of the objects in its messages: the same
    run, the message of a failure excepted. *)
From Verif Require Import Chars Lexer Ast Types Visitor Emitter EmitSpec TypeFacts EmitTypes EmitProgram EmitInv EmitErase EmitSig EmitOk EmitSteps.
Local Open Scope nat_scope.

Definition alike_res {A} (r r' : outcome sr_state A) : Prop :=
  match r, r' with
  | Ret (Ok a) s, Ret (Ok a') s' => a = a' /\ s = s'
  | Ret (Err _) s, Ret (Err _) s' => s = s'
  | Panic, Panic | Fuel, Fuel => True
  | _, _ => False
  end.
Definition alike {A} (m m' : EM A) : Prop := forall s, alike_res (m s) (m' s).

Lemma alike_refl {A} (m : EM A) : alike m m.
Proof. intro s. destruct (m s) as [[]| |]; cbn; auto. Qed.
Lemma alike_raise {A} e e' : alike (raise (A:=A) e) (raise e').
Proof. intro s. reflexivity. Qed.
Lemma alike_bind_res {A B} (m m' : EM A) (k k' : result A -> EM B) : alike m m' ->
  (forall a, alike (k (Ok a)) (k' (Ok a))) -> (forall e e', alike (k (Err e)) (k' (Err e'))) ->
  alike (bind_res m k) (bind_res m' k').
Proof.
  intros Hm Hk He s. unfold bind_res. specialize (Hm s).
  destruct (m s) as [[a|e] s1| |], (m' s) as [[a'|e'] s1'| |]; cbn in Hm; try contradiction; cbn; auto.
  - destruct Hm as [-> ->]. apply Hk.
  - subst. apply He.
Qed.
Lemma alike_bind {A B} (m m' : EM A) (k k' : A -> EM B) : alike m m' -> (forall a, alike (k a) (k' a)) ->
  alike (bind m k) (bind m' k').
Proof. intros Hm Hk. apply alike_bind_res; [exact Hm|exact Hk|]. intros. apply alike_raise. Qed.

Section Two.
  Context (d d' : stack_object -> str).
  Notation E := (sr_emitter d).
  Notation E' := (sr_emitter d').
  Lemma alike_pop_type : alike (pop_type_definition d) (pop_type_definition d').
  Proof. intros [[|[i|f|t] st] c]; cbn; auto. Qed.
  Lemma alike_pop_ident : alike (pop_ir_identifier d) (pop_ir_identifier d').
  Proof. intros [[|[i|f|t] st] c]; cbn; auto. Qed.
  Lemma alike_pop_decl : alike (pop_variable_declaration d) (pop_variable_declaration d').
  Proof. intros [[|[i|f|t] st] c]; cbn; auto. Qed.

  Section Level.
    Context (v v' : anynode -> EM tr) (Hv : forall n, quiet_kind n = true -> alike (v n) (v' n)).
    Lemma alike_wm {A} (inj : A -> anynode) w : (forall x, quiet_kind (inj x) = true) -> alike (visit_wm E v inj w) (visit_wm E' v' inj w).
    Proof. intros Hi s. rewrite !visit_wm_eq. apply Hv, Hi. Qed.
    Lemma alike_w {A} (inj : A -> anynode) w : (forall x, quiet_kind (inj x) = true) -> alike (wvisit v inj w) (wvisit v' inj w).
    Proof. intros Hi s. rewrite !wvisit_eq. apply Hv, Hi. Qed.

    Ltac qt :=
      repeat first
        [ apply alike_refl | apply alike_pop_type | apply alike_pop_ident | apply alike_pop_decl | apply alike_raise
        | apply alike_wm; reflexivity | apply alike_w; reflexivity
        | apply Hv; reflexivity
        | match goal with |- alike (bind _ _) _ => apply alike_bind; [|intro] end
        | match goal with |- alike (match ?x with _ => _ end) _ => destruct x end
        | progress unfold ident_to_type, pops_to_map, kid_of, kcont ].

    Lemma alike_collect {A} (inj : A -> anynode) l main : (forall x, quiet_kind (inj x) = true) ->
      alike (collect_sub_types d v inj l main) (collect_sub_types d' v' inj l main).
    Proof.
      intro Hi. revert main. induction l as [|a l IH]; intro main; [apply alike_refl|]. cbn [collect_sub_types].
      apply alike_bind; [apply alike_w, Hi|]. intros _. qt. apply IH.
    Qed.
    Lemma alike_generic {A} (inj : A -> anynode) m l : (forall x, quiet_kind (inj x) = true) ->
      alike (generic_type d v inj m l) (generic_type d' v' inj m l).
    Proof. intro Hi. unfold generic_type. qt. apply alike_collect, Hi. Qed.
    Lemma alike_afields l : alike (collect_address_fields d v l) (collect_address_fields d' v' l).
    Proof. induction l as [|a l IH]; [apply alike_refl|]. cbn [collect_address_fields]. qt. exact IH. Qed.
    Lemma alike_all {A} (inj : A -> anynode) l : (forall x, quiet_kind (inj x) = true) -> alike (visit_all E v inj l) (visit_all E' v' inj l).
    Proof.
      intro Hi. induction l as [|a l IH]; [apply alike_refl|]. cbn [visit_all].
      apply alike_bind; [apply alike_wm, Hi|]. intros _. exact IH.
    Qed.
    Lemma alike_args {A} (inj : A -> anynode) l : (forall x, quiet_kind (inj x) = true) -> alike (visit_args E v inj l) (visit_args E' v' inj l).
    Proof.
      intro Hi. induction l as [|a l IH]; [apply alike_refl|]. cbn [visit_args].
      apply alike_bind; [apply alike_wm, Hi|]. intros []; [exact IH|apply alike_refl].
    Qed.
    Lemma alike_children n : quiet_kind n = true -> alike (children E v n) (children E' v' n).
    Proof.
      destruct n as [n|n|n|n|n|n|n|n|n|n|n|n|n|n|n|n|n|n|n|n|n|n|n|n|n|n|n|n|n|n|n|n|n|n|n|n|n|n|n|n|n|n|n|n|n|n];
        try discriminate; intros _; destruct n; cbn [children];
        repeat first [apply alike_all; reflexivity | apply alike_args; reflexivity | progress qt].
    Qed.
    Lemma alike_emit m n : quiet_kind n = true -> alike (sr_emit d v m n) (sr_emit d' v' m n).
    Proof.
      destruct n as [n|n|n|n|n|n|n|n|n|n|n|n|n|n|n|n|n|n|n|n|n|n|n|n|n|n|n|n|n|n|n|n|n|n|n|n|n|n|n|n|n|n|n|n|n|n];
        try discriminate; intros _; destruct n; cbn [sr_emit];
        repeat first [apply alike_generic; reflexivity | apply alike_afields | progress qt].
    Qed.
    Lemma alike_node n : quiet_kind n = true -> alike (visit_node E v n) (visit_node E' v' n).
    Proof.
      intro Hn. pose proof (alike_children n Hn) as Hch.
      assert (He : forall m, alike (emit E v m n) (emit E' v' m n)) by (intro m; apply alike_emit, Hn).
      destruct n; try discriminate Hn; cbn [visit_node]; unfold standard;
        (apply alike_bind_res; [apply He|intros r|intros e e']; apply alike_bind;
         [try destruct r; try exact Hch; first [apply alike_refl|apply alike_raise]
         |intros [[]|]; [apply He| |]; apply alike_refl
         |try destruct r; try exact Hch; first [apply alike_refl|apply alike_raise]
         |intros [[]|]; [apply He| |]; apply alike_refl]).
    Qed.
  End Level.

  Lemma alike_visit f n : quiet_kind n = true -> alike (visit E f n) (visit E' f n).
  Proof.
    revert n. induction f as [|f IH]; intros n Hn; [intro s; exact I|].
    rewrite !visit_S. apply alike_node; assumption.
  Qed.

  Lemma alike_decl x : alike (decl d x) (decl d' x).
  Proof.
    unfold decl, visit_ty. apply alike_bind; [apply alike_visit; reflexivity|]. intros _.
    apply alike_bind; [apply alike_pop_type|]. intro. apply alike_refl.
  Qed.
  Lemma alike_each {A} (k k' : A -> EM unit) l : (forall a, alike (k a) (k' a)) -> alike (each k l) (each k' l).
  Proof. intro Hk. induction l as [|a l IH]; [apply alike_refl|]. cbn [each]. apply alike_bind; [apply Hk|]. intros _. exact IH. Qed.
  Lemma alike_decls l : alike (decls d l) (decls d' l).
  Proof.
    induction l as [|a l IH]; [apply alike_refl|]. cbn [decls]. apply alike_bind; [apply alike_decl|]. intro f.
    apply alike_bind; [exact IH|]. intro. apply alike_refl.
  Qed.

  Theorem emit_oracle p : match emit_program d p, emit_program d' p with
    | EOk c, EOk c' => c = c' | EErr _, EErr _ => True | EPanic, EPanic => True | EFuel, EFuel => True | _, _ => False end.
  Proof.
    rewrite !emit_steps. cbv zeta. set (c := match p with mkProgram _ _ _ c => node c end).
    assert (H : alike (steps d c) (steps d' c)).
    { unfold steps. repeat (apply alike_bind; [apply alike_each; intro a|intros _]); [..|apply alike_each; intro a].
      - apply alike_bind; [apply alike_decl|]. intro. apply alike_refl.
      - apply alike_bind; [apply alike_decl|]. intro. apply alike_refl.
      - apply alike_bind; [apply alike_decl|]. intro. apply alike_refl.
      - unfold step_transition. apply alike_bind; [apply alike_refl|]. intros _.
        apply alike_bind; [apply alike_decls|]. intro. apply alike_bind; [apply alike_pop_ident|]. intro i.
        apply alike_refl. }
    specialize (H (first_state c)).
    destruct (steps d c (first_state c)) as [[u|e] s| |], (steps d' c (first_state c)) as [[u'|e'] s'| |]; cbn in H; try contradiction; auto.
    destruct H as [_ ->]. reflexivity.
  Qed.
End Two.
