(** The first declaration that fails decides the result. *)
From Verif Require Import Chars Lexer Ast Types Visitor Emitter EmitSpec TypeFacts EmitTypes EmitProgram EmitInv EmitErase EmitSig EmitOk EmitSteps.
Local Open Scope nat_scope.

(** The declarations of a contract in the order in which they are treated. *)
Definition all_decls (c : NodeContractDefinition) : list NodeTypedIdentifier :=
  contract_param_decls c ++ field_decls c ++ flat_map snd (transition_decls c).

Section Fail.
  Context (debug : stack_object -> str).
  Notation decl := (decl debug).

  Lemma decl_described d nx s : says_decl d nx ->
    decl d s = match denote (snd nx) with Some t => Ret (Ok (mkField (fst nx) t)) s | None => Panic end.
  Proof.
    intros [Hn Ht]. unfold EmitSteps.decl, visit_ty. unfold bind at 1. unfold bind_res at 1.
    rewrite (visit_type debug _ _ (snd nx)) by (exact Ht || lia). unfold type_out, denote. destruct (soundb (snd nx)); [|reflexivity].
    rewrite (bind_ok _ _ _ _ _ (pop_type_pushed _ _ _)). unfold field_of. rewrite Hn. destruct (type_from (sr (snd nx))); reflexivity.
  Qed.

  (** a declaration that succeeds in every state, leaving the state alone *)
  Definition clean (d : NodeTypedIdentifier) : Prop := exists f, forall s, decl d s = Ret (Ok f) s.
  Definition fails_with (r : emit_out) {A} (o : outcome sr_state A) : Prop :=
    match r with
    | EPanic => o = Panic
    | EErr m => exists s, o = Ret (Err m) s
    | _ => False
    end.

  Lemma clean_described d n x t : says_decl d (n, x) -> denotes x t -> clean d.
  Proof.
    intros H Ht. exists (mkField n t). intro s. rewrite (decl_described d (n, x) s H). cbn [fst snd].
    apply denote_iff in Ht. rewrite Ht. reflexivity.
  Qed.
  Lemma clean_list ds xs fs : Forall2 says_decl ds xs -> denote_fields xs fs -> Forall clean ds.
  Proof.
    intros H. revert fs. induction H as [|d [n x] ds xs Hd Hds IH]; intros fs Hf; [constructor|].
    inversion Hf as [|n' x' t l l' Ht Hl]; subst. constructor; [eapply clean_described; eassumption|eapply IH, Hl].
  Qed.

  (** [k] treats a declaration: it runs [decl d], then does something that succeeds *)
  Definition treats (k : NodeTypedIdentifier -> EM unit) : Prop :=
    forall d, (clean d -> forall s, exists s', k d s = Ret (Ok tt) s')
      /\ (forall r s, fails_with r (decl d s) -> fails_with r (k d s)).
  Lemma treats_of (h : field -> EM unit) : (forall f s, exists s', h f s = Ret (Ok tt) s') -> treats (fun d => f <- decl d ;; h f).
  Proof.
    intros Hh d. split.
    - intros [f Hd] s. unfold bind, bind_res. rewrite Hd. apply Hh.
    - intros r s. destruct r; cbn [fails_with]; try tauto.
      + intros (s' & H). unfold bind, bind_res. rewrite H. exists s'. reflexivity.
      + intro H. unfold bind, bind_res. rewrite H. reflexivity.
  Qed.
  Lemma treats_param : treats (step_param debug).
  Proof. apply (treats_of (fun f => upd (add_init_param f))). intros f s. eexists. reflexivity. Qed.
  Lemma treats_again : treats (step_again debug).
  Proof. apply (treats_of (fun f => push (VariableDeclaration f))). intros f s. eexists. reflexivity. Qed.
  Lemma treats_field : treats (step_field debug).
  Proof. apply (treats_of (fun f => upd (add_field f))). intros f s. eexists. reflexivity. Qed.

  Lemma each_clean k ds s : treats k -> Forall clean ds -> exists s', each k ds s = Ret (Ok tt) s'.
  Proof.
    intros Hk H. revert s. induction H as [|d ds Hd Hds IH]; intro s; [eexists; reflexivity|].
    destruct (proj1 (Hk d) Hd s) as (s1 & E1). cbn [each]. unfold bind, bind_res. rewrite E1. apply IH.
  Qed.
  Lemma fails_bind {A B} r (m : EM A) (h : A -> EM B) s : fails_with r (m s) -> fails_with r (bind m h s).
  Proof.
    destruct r; cbn [fails_with]; try tauto.
    - intros (s' & H). unfold bind, bind_res. rewrite H. exists s'. reflexivity.
    - intro H. unfold bind, bind_res. rewrite H. reflexivity.
  Qed.
  Lemma fails_after {A B} r (m : EM A) (h : A -> EM B) s a s' : m s = Ret (Ok a) s' -> fails_with r (h a s') -> fails_with r (bind m h s).
  Proof. intros Hm Hf. unfold bind, bind_res. rewrite Hm. exact Hf. Qed.
  Lemma each_fails k pre d post r s : treats k -> Forall clean pre -> (forall s, fails_with r (decl d s)) ->
    fails_with r (each k (pre ++ d :: post) s).
  Proof.
    intros Hk H Hd. revert s. induction H as [|e pre He Hpre IH]; intro s.
    - cbn [app each]. apply fails_bind. apply (proj2 (Hk d)), Hd.
    - cbn [app each]. destruct (proj1 (Hk e) He s) as (s1 & E1). eapply fails_after; [exact E1|]. apply IH.
  Qed.
  Lemma decls_clean ds s : Forall clean ds -> exists fs, decls debug ds s = Ret (Ok fs) s.
  Proof.
    intro H. revert s. induction H as [|d ds [f Hd] Hds IH]; intro s; [eexists; reflexivity|].
    destruct (IH s) as (fs & E). exists (f :: fs). cbn [decls]. unfold bind, bind_res. rewrite Hd, E. reflexivity.
  Qed.
  Lemma decls_fails pre d post r s : Forall clean pre -> (forall s, fails_with r (decl d s)) ->
    fails_with r (decls debug (pre ++ d :: post) s).
  Proof.
    intros H Hd. revert s. induction H as [|e pre [f He] Hpre IH]; intro s; cbn [app decls].
    - apply fails_bind, Hd.
    - eapply fails_after; [apply He|]. apply fails_bind, IH.
  Qed.
  Lemma transition_clean t s : Forall clean (snd t) -> exists s', step_transition debug t s = Ret (Ok tt) s'.
  Proof.
    intro H. unfold step_transition. unfold bind at 1. unfold bind_res at 1. cbn [push].
    destruct (decls_clean (snd t) (mkst (IrIdentifier (mkId (fst t) KComponentName) :: es_stack s) (es_contract s)) H) as (fs & E).
    unfold bind at 1. unfold bind_res at 1. rewrite E. unfold bind, bind_res. cbn. eexists. reflexivity.
  Qed.

  Lemma app_split {A} (l1 l2 pre post : list A) d : l1 ++ l2 = pre ++ d :: post ->
    (exists m, l1 = pre ++ d :: m /\ post = m ++ l2) \/ (exists m, pre = l1 ++ m /\ l2 = m ++ d :: post).
  Proof.
    revert pre. induction l1 as [|a l1 IH]; intros pre H.
    - right. exists pre. auto.
    - destruct pre as [|b pre].
      + injection H as -> <-. left. exists l1. auto.
      + injection H as -> H. destruct (IH pre H) as [(m & -> & ->)|(m & -> & E)]; [left|right]; exists m; auto.
  Qed.

  Lemma transitions_fail ts pre d post r s : flat_map snd ts = pre ++ d :: post -> Forall clean pre ->
    (forall s, fails_with r (decl d s)) -> fails_with r (each (step_transition debug) ts s).
  Proof.
    intros H Hp Hd. revert pre s H Hp. induction ts as [|t ts IH]; intros pre s H Hp.
    - destruct pre; discriminate.
    - cbn [flat_map] in H. cbn [each]. apply app_split in H. destruct H as [(m & E & _)|(m & -> & E)].
      + apply fails_bind. unfold step_transition. unfold bind at 1. unfold bind_res at 1. cbn [push].
        apply fails_bind. rewrite E. apply decls_fails; assumption.
      + apply Forall_app in Hp. destruct Hp as [H1 H2]. destruct (transition_clean t s H1) as (s1 & E1).
        eapply fails_after; [exact E1|]. apply (IH m); assumption.
  Qed.

  Theorem emit_first_failure p pre d post r :
    all_decls (match p with mkProgram _ _ _ c => node c end) = pre ++ d :: post ->
    Forall clean pre -> (forall s, fails_with r (decl d s)) -> emit_program debug p = r.
  Proof.
    intros H Hp Hd. rewrite emit_steps. cbv zeta. set (c := match p with mkProgram _ _ _ c => node c end) in *.
    set (s0 := first_state c). assert (Hf : fails_with r (steps debug c s0)).
    { unfold steps. unfold all_decls in H. apply app_split in H. destruct H as [(m & E & _)|(m & -> & H)].
      - rewrite E. apply fails_bind. apply each_fails; [apply treats_param|assumption|assumption].
      - apply Forall_app in Hp. destruct Hp as [H1 H2].
        destruct (each_clean _ _ s0 treats_param H1) as (s1 & E1). eapply fails_after; [exact E1|].
        destruct (each_clean _ _ s1 treats_again H1) as (s2 & E2). eapply fails_after; [exact E2|].
        apply app_split in H. destruct H as [(m' & E & _)|(m' & -> & H)].
        + rewrite E. apply fails_bind. apply each_fails; [apply treats_field|assumption|assumption].
        + apply Forall_app in H2. destruct H2 as [H2 H3].
          destruct (each_clean _ _ s2 treats_field H2) as (s3 & E3). eapply fails_after; [exact E3|].
          eapply transitions_fail; eassumption. }
    destruct r; cbn [fails_with] in Hf; try contradiction.
    - destruct Hf as (s' & ->). reflexivity.
    - rewrite Hf. reflexivity.
  Qed.
End Fail.
