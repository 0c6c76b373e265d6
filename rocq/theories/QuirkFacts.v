(** Running the emitter on declarations that leave something behind. *)
From Verif Require Import Chars Lexer Ast Types Visitor Emitter EmitSpec TypeFacts EmitTypes EmitProgram EmitInv EmitErase EmitSig EmitOk EmitSteps EmitFail Reads ReadsFacts.
Local Open Scope nat_scope.

Section Quirks.
  Context (debug : stack_object -> str).
  Notation decl := (decl debug).

  Definition given (ks : list str) (d : NodeTypedIdentifier) (f : field) : Prop := forall s, decl d s = Ret (Ok f) (leftover ks s).
  Definition given_some (d : NodeTypedIdentifier) (f : field) : Prop := exists ks, given ks d f.
  Definition param_done (c : contract) (fs : list field) : contract :=
    mkContract (c_name c) (c_init_params c ++ fs) (c_fields c) (c_transitions c).
  Definition fields_added (c : contract) (fs : list field) : contract :=
    mkContract (c_name c) (c_init_params c) (c_fields c ++ fs) (c_transitions c).

  Lemma params_given ds fs : Forall2 given_some ds fs -> forall s,
    exists s', each (step_param debug) ds s = Ret (Ok tt) s' /\ es_contract s' = param_done (es_contract s) fs.
  Proof.
    induction 1 as [|d f ds fs [ks Hd] _ IH]; intro s.
    - exists s. split; [reflexivity|]. unfold param_done. rewrite app_nil_r. now destruct (es_contract s).
    - cbn [each]. unfold step_param at 1, bind, bind_res. rewrite Hd. cbn [upd].
      destruct (IH (mkst (es_stack (leftover ks s)) (add_init_param f (es_contract (leftover ks s))))) as [s' [H1 H2]].
      exists s'. split; [exact H1|]. rewrite H2. unfold param_done, add_init_param. cbn. now rewrite <- app_assoc.
  Qed.
  Lemma again_given ds fs : Forall2 given_some ds fs -> forall s,
    exists s', each (step_again debug) ds s = Ret (Ok tt) s' /\ es_contract s' = es_contract s.
  Proof.
    induction 1 as [|d f ds fs [ks Hd] _ IH]; intro s; [exists s; auto|].
    cbn [each]. unfold step_again at 1, bind, bind_res. rewrite Hd. cbn [push].
    destruct (IH (mkst (VariableDeclaration f :: es_stack (leftover ks s)) (es_contract (leftover ks s)))) as [s' [H1 H2]].
    exists s'. split; [exact H1|]. rewrite H2. reflexivity.
  Qed.
  Lemma fields_given ds fs : Forall2 given_some ds fs -> forall s,
    exists s', each (step_field debug) ds s = Ret (Ok tt) s' /\ es_contract s' = fields_added (es_contract s) fs.
  Proof.
    induction 1 as [|d f ds fs [ks Hd] _ IH]; intro s.
    - exists s. split; [reflexivity|]. unfold fields_added. rewrite app_nil_r. now destruct (es_contract s).
    - cbn [each]. unfold step_field at 1, bind, bind_res. rewrite Hd. cbn [upd].
      destruct (IH (mkst (es_stack (leftover ks s)) (add_field f (es_contract (leftover ks s))))) as [s' [H1 H2]].
      exists s'. split; [exact H1|]. rewrite H2. unfold fields_added, add_field. cbn. now rewrite <- app_assoc.
  Qed.
  Lemma decls_given ds fs : Forall2 (given []) ds fs -> forall s, decls debug ds s = Ret (Ok fs) s.
  Proof.
    induction 1 as [|d f ds fs Hd _ IH]; intro s; [reflexivity|]. cbn [decls]. unfold bind, bind_res.
    rewrite Hd, leftover_nil, IH. reflexivity.
  Qed.
  Definition trans_given (t : str * list NodeTypedIdentifier) (u : transition) : Prop :=
    t_name u = fst t /\ Forall2 (given []) (snd t) (t_params u).
  Lemma transition_given t u s : trans_given t u ->
    step_transition debug t s = Ret (Ok tt) (mkst (es_stack s) (add_transition u (es_contract s))).
  Proof.
    intros [Hn Hp]. unfold step_transition, bind, bind_res. cbn [push]. rewrite (decls_given _ _ Hp).
    cbn. rewrite <- Hn. now destruct u.
  Qed.
  Lemma transitions_given ts us : Forall2 trans_given ts us -> forall s,
    each (step_transition debug) ts s = Ret (Ok tt)
      (mkst (es_stack s) (mkContract (c_name (es_contract s)) (c_init_params (es_contract s)) (c_fields (es_contract s)) (c_transitions (es_contract s) ++ us))).
  Proof.
    induction 1 as [|t u ts us Ht _ IH]; intro s.
    - rewrite app_nil_r. destruct s as [st [a b c d]]. reflexivity.
    - cbn [each]. unfold bind, bind_res. rewrite (transition_given _ _ _ Ht), IH. cbn. rewrite <- app_assoc. reflexivity.
  Qed.

  Lemma given_reads d n x ks t : reads_decl d (n, x) ks -> denotes x t -> given ks d (mkField n t).
  Proof.
    intros H Ht s. rewrite (decl_reads debug d (n, x) ks s H). cbn [fst snd]. apply denote_iff in Ht. now rewrite Ht.
  Qed.
  Lemma given_says d n x t : says_decl d (n, x) -> denotes x t -> given [] d (mkField n t).
  Proof.
    intros H Ht s. rewrite (decl_described debug d (n, x) s H), leftover_nil. cbn [fst snd]. apply denote_iff in Ht. now rewrite Ht.
  Qed.

  (** everything given, nothing left behind by transitions *)
  Theorem emit_given p ps fs ts : let c := match p with mkProgram _ _ _ c => node c end in
    Forall2 given_some (contract_param_decls c) ps -> Forall2 given_some (field_decls c) fs ->
    Forall2 trans_given (transition_decls c) ts ->
    emit_program debug p = EOk (mkContract (declared_name c) ps fs ts).
  Proof.
    intros c Hp Hf Ht. rewrite emit_steps. fold c. cbv zeta. unfold steps, bind, bind_res.
    destruct (params_given _ _ Hp (first_state c)) as [s1 [E1 C1]]. rewrite E1.
    destruct (again_given _ _ Hp s1) as [s2 [E2 C2]]. rewrite E2.
    destruct (fields_given _ _ Hf s2) as [s3 [E3 C3]]. rewrite E3, (transitions_given _ _ Ht).
    cbn. rewrite C3, C2, C1. reflexivity.
  Qed.

  (** a transition whose parameters leave a namespace behind *)
  Lemma decls_leftover ds : forall s, (exists nxks, Forall2 (fun d a => reads_decl d (fst a) (snd a)) ds nxks /\
      exists k ks, List.concat (rev (map snd nxks)) = k :: ks) ->
    decls debug ds s = Panic \/ exists fs k ks, decls debug ds s = Ret (Ok fs) (leftover (k :: ks) s).
  Proof.
    intros s (nxks & H & k0 & ks0 & Hk).
    assert (G : decls debug ds s = Panic \/ exists fs, decls debug ds s = Ret (Ok fs) (leftover (List.concat (rev (map snd nxks))) s)).
    { clear Hk. revert s. induction H as [|d [nx k] ds nxks Hd _ IH]; intro s; [right; exists []; cbn; now rewrite leftover_nil|].
      cbn [decls]. unfold bind, bind_res. cbn [fst snd] in Hd. rewrite (decl_reads debug d nx k s Hd).
      destruct (denote (snd nx)) as [t|]; [|now left].
      destruct (IH (leftover k s)) as [->|[fs ->]]; [now left|]. right. eexists. cbn [map rev].
      rewrite concat_app, leftover_app. cbn [List.concat]. rewrite app_nil_r. reflexivity. }
    destruct G as [G|[fs G]]; [now left|]. right. rewrite Hk in G. eauto.
  Qed.
  Theorem emit_leftover_transition p ps fs pre ts n ds post : let c := match p with mkProgram _ _ _ c => node c end in
    Forall2 given_some (contract_param_decls c) ps -> Forall2 given_some (field_decls c) fs ->
    transition_decls c = pre ++ (n, ds) :: post -> Forall2 trans_given pre ts ->
    (exists nxks, Forall2 (fun d a => reads_decl d (fst a) (snd a)) ds nxks /\ exists k ks, List.concat (rev (map snd nxks)) = k :: ks) ->
    emit_program debug p = EPanic.
  Proof.
    intros c Hp Hf Et Ht Hk. rewrite emit_steps. fold c. cbv zeta. unfold steps, bind, bind_res. rewrite Et.
    destruct (params_given _ _ Hp (first_state c)) as [s1 [E1 _]]. rewrite E1.
    destruct (again_given _ _ Hp s1) as [s2 [E2 _]]. rewrite E2.
    destruct (fields_given _ _ Hf s2) as [s3 [E3 _]]. rewrite E3.
    assert (G : each (step_transition debug) (pre ++ (n, ds) :: post) s3 = Panic); [|now rewrite G].
    clear -Ht Hk. revert s3. induction Ht as [|t u pre ts H _ IH]; intro s.
    - cbn [app each]. unfold bind at 1, bind_res at 1. unfold step_transition, bind, bind_res. cbn [push fst snd].
      destruct (decls_leftover ds (mkst (IrIdentifier (mkId n KComponentName) :: es_stack s) (es_contract s)) Hk) as [->|(fs & k & ks & ->)]; reflexivity.
    - cbn [app each]. unfold bind, bind_res. rewrite (transition_given _ _ _ H). apply IH.
  Qed.

  (** ** A declaration that fails in every state is never accepted *)
  Definition never_ok (d : NodeTypedIdentifier) : Prop := forall s f s', decl d s <> Ret (Ok f) s'.
  Lemma each_never (h : field -> EM unit) ds d s s' : In d ds -> never_ok d ->
    each (fun d => f <- decl d ;; h f) ds s <> Ret (Ok tt) s'.
  Proof.
    intros Hi Hn. revert s. induction ds as [|e ds IH]; intros s H; [destruct Hi|]. cbn [each] in H.
    apply bind_inv in H. destruct H as (u & s1 & H1 & H2). destruct u. destruct Hi as [->|Hi]; [|exact (IH Hi _ H2)].
    apply bind_inv in H1. destruct H1 as (f & s2 & H1 & _). exact (Hn _ _ _ H1).
  Qed.
  Lemma decls_never ds d s fs s' : In d ds -> never_ok d -> decls debug ds s <> Ret (Ok fs) s'.
  Proof.
    intros Hi Hn. revert s fs s'. induction ds as [|e ds IH]; intros s fs s' H; [destruct Hi|]. cbn [decls] in H.
    apply bind_inv in H. destruct H as (f & s1 & H1 & H2). destruct Hi as [->|Hi]; [exact (Hn _ _ _ H1)|].
    apply bind_inv in H2. destruct H2 as (fs' & s2 & H2 & _). exact (IH Hi _ _ _ H2).
  Qed.
  Theorem emit_never p d c : In d (all_decls (match p with mkProgram _ _ _ c => node c end)) -> never_ok d ->
    emit_program debug p <> EOk c.
  Proof.
    intros Hi Hn H. rewrite emit_steps in H. cbv zeta in H. set (k := match p with mkProgram _ _ _ c => node c end) in *.
    destruct (steps debug k (first_state k)) as [[[]|m] s| |] eqn:Es; try discriminate H.
    unfold steps in Es. apply bind_inv in Es. destruct Es as (u1 & s1 & H1 & Es). destruct u1.
    apply bind_inv in Es. destruct Es as (u2 & s2 & _ & Es). apply bind_inv in Es. destruct Es as (u3 & s3 & H3 & H4). destruct u3.
    unfold all_decls in Hi. apply in_app_or in Hi. destruct Hi as [Hi|Hi]; [exact (each_never _ _ _ _ _ Hi Hn H1)|].
    apply in_app_or in Hi. destruct Hi as [Hi|Hi]; [exact (each_never _ _ _ _ _ Hi Hn H3)|].
    apply in_flat_map in Hi. destruct Hi as (t & Ht & Hi). clear -H4 Ht Hi Hn.
    revert s3 H4. induction (transition_decls k) as [|t' ts IH]; intros s3 H4; [destruct Ht|]. cbn [each] in H4.
    apply bind_inv in H4. destruct H4 as (u & s4 & H4 & H5). destruct u. destruct Ht as [->|Ht]; [|exact (IH Ht _ H5)].
    unfold step_transition in H4. apply bind_inv in H4. destruct H4 as (u & s5 & _ & H4). apply bind_inv in H4.
    destruct H4 as (fs & s6 & H4 & _). exact (decls_never _ _ _ _ _ Hi Hn H4).
  Qed.
End Quirks.
