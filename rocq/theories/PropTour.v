(** C47: what the traversal does with every answer of an emitter. *)
From Verif Require Import Chars Lexer Ast Visitor Grammar Parser Trace TraceFacts Tour PropVisitor.
Local Open Scope nat_scope.

(** [tours E c n s o] (Tour.v): visiting [n] from state [s] ends with outcome
    [o], by the table [plan]. The emitter's callbacks [c] may answer anything,
    fail or panic; they do not start visits of their own. *)
Theorem C47_traversal_is_specified {S} (E : emitter S) (c : mode -> anynode -> M S tr) :
  (forall v m n s, emit E v m n s = c m n s) -> (forall m n s, c m n s <> Fuel) ->
  forall n fuel, height n <= fuel -> forall s o, visit E fuel n s = o <-> tours E c n s o.
Proof. intros H1 H2 n fuel Hf s o. exact (visit_tours E c H1 H2 fuel n Hf s o). Qed.

Theorem C47_one_outcome {S} (E : emitter S) (c : mode -> anynode -> M S tr) :
  (forall v m n s, emit E v m n s = c m n s) -> (forall m n s, c m n s <> Fuel) ->
  forall n s, exists o, tours E c n s o /\ forall o', tours E c n s o' -> o' = o.
Proof.
  intros H1 H2 n s. exists (visit E (height n) n s). split.
  - now apply (C47_traversal_is_specified E c H1 H2 n (height n) (le_n _)).
  - intros o' H. symmetry. now apply (C47_traversal_is_specified E c H1 H2 n (height n) (le_n _)).
Qed.

(** The children of [plan] are those of the depth-first traversal of C30. *)
Theorem C47_same_children n : flat_map move_step (plan n) = kids n.
Proof. exact (plan_kids n). Qed.

(** ** Pruning: answering [SkipChildren] to [Enter] *)

(** The depth-first traversal of a node without what is below the nodes in
    [skip]: these are entered and not left, except that addresses are left too.
    (Library [let]s must be skipped.) *)
Inductive pruned (skip : anynode -> bool) : anynode -> list event -> Prop :=
| pr_skip n : skip n = true -> is_address n = false -> pruned skip n [EvEmit Enter n]
| pr_skip_address n : skip n = true -> is_address n = true -> pruned skip n [EvEmit Enter n; EvEmit Exit n]
| pr_enter n body : skip n = false -> (forall d, n = ALibrarySingleDefinition d -> is_let d = false) ->
    pruneds skip (kids n) body -> pruned skip n (EvEmit Enter n :: body ++ [EvEmit Exit n])
with pruneds (skip : anynode -> bool) : list step -> list event -> Prop :=
| prs_nil : pruneds skip [] []
| prs_at a b n l e es : pruned skip n e -> pruneds skip l es ->
    pruneds skip (At a b n :: l) (EvPush a b :: e ++ EvPop :: es)
| prs_bare n l e es : pruned skip n e -> pruneds skip l es -> pruneds skip (Bare n :: l) (e ++ es)
| prs_extra a b l es : pruneds skip l es -> pruneds skip (Extra a b :: l) (EvPush a b :: es).
Scheme pruned_ind2 := Induction for pruned Sort Prop with pruneds_ind2 := Induction for pruneds Sort Prop.
Combined Scheme pruned_mutind from pruned_ind2, pruneds_ind2.

(** An emitter that records its calls, answers [SkipChildren] when it enters a
    node in [skip] and [Continue] otherwise. *)
Definition skipping (skip : anynode -> bool) : list event -> mode -> anynode -> result tr :=
  fun _ m n => Ok match m with Enter => if skip n then SkipChildren else Continue | Exit => Continue end.

Lemma skipping_visits skip n h o : visit (recorder (skipping skip)) (height n) n h = o <->
  tours (recorder (skipping skip)) (fun m n s => Ret (skipping skip s m n) (s ++ [EvEmit m n])) n h o.
Proof. apply visit_tours; [reflexivity|discriminate|apply le_n]. Qed.

Lemma pruned_tours skip :
  (forall n e, pruned skip n e -> forall h,
     tours (recorder (skipping skip)) (fun m n s => Ret (skipping skip s m n) (s ++ [EvEmit m n])) n h (Ret (Ok Continue) (h ++ e))) /\
  (forall l e, pruneds skip l e -> forall n mv h, flat_map move_step mv = l -> ~ In Crash mv ->
     moves (recorder (skipping skip)) (fun m n s => Ret (skipping skip s m n) (s ++ [EvEmit m n])) n mv h Done (h ++ e)).
Proof.
  assert (Step : forall mv st l, flat_map move_step mv = st :: l -> ~ In Crash mv ->
    exists m mv', mv = m :: mv' /\ move_step m = [st] /\ flat_map move_step mv' = l /\ ~ In Crash mv').
  { intros [|m mv] st l H Hc; [discriminate H|]. exists m, mv. cbn [flat_map] in H.
    destruct m as [r [[a b]|] m|a b|]; cbn [move_step app] in H |- *; try (injection H as <- <-; repeat split; intro K; apply Hc; now right).
    exfalso. apply Hc. now left. }
  apply pruned_mutind.
  - intros n Hs Ha h. apply to_skip; [exact Ha|]. unfold skipping. now rewrite Hs.
  - intros n Hs Ha h. replace (h ++ [EvEmit Enter n; EvEmit Exit n]) with ((h ++ [EvEmit Enter n]) ++ [EvEmit Exit n]) by now rewrite <- app_assoc.
    apply (to_address _ (fun m n s => Ret (skipping skip s m n) (s ++ [EvEmit m n])) n h (Ok SkipChildren) (h ++ [EvEmit Enter n])); [exact Ha| |discriminate].
    unfold skipping. now rewrite Hs.
  - intros n body Hs Hl _ IH h.
    assert (M := IH n (plan n) (h ++ [EvEmit Enter n]) (plan_kids n)).
    assert (Hc : ~ In Crash (plan n)).
    { clear -Hl. destruct n as [n|n|n|n|n|n|n|n|n|n|n|n|n|n|n|n|n|n|n|n|n|n|n|n|n|n|n|n|n|n|n|n|n|n|n|n|n|n|n|n|n|n|n|n|n|n]; destruct n;
        repeat match goal with
        | b : NodeByteStr |- _ => destruct b
        | o : option _ |- _ => destruct o
        end; cbn [plan maybe app In]; try (specialize (Hl _ eq_refl); discriminate Hl);
        rewrite ?in_app_iff; unfold each; rewrite ?in_map_iff; cbn [In];
        intro H; decompose [or ex and] H; try discriminate; try tauto. }
    specialize (M Hc).
    pose proof (to_enter (recorder (skipping skip)) (fun m n s => Ret (skipping skip s m n) (s ++ [EvEmit m n])) n h (h ++ [EvEmit Enter n]) Done ((h ++ [EvEmit Enter n]) ++ body)) as T.
    cbn beta iota in T. replace (h ++ EvEmit Enter n :: body ++ [EvEmit Exit n]) with (((h ++ [EvEmit Enter n]) ++ body) ++ [EvEmit Exit n])
      by now rewrite <- !app_assoc.
    apply T; [unfold skipping; now rewrite Hs|exact M].
  - intros n mv h Hm Hc. rewrite app_nil_r. destruct mv as [|m mv]; [constructor|]. exfalso.
    destruct m as [r [[a b]|] m|a b|]; try discriminate Hm. apply Hc. now left.
  - intros a b n l e es _ IH1 _ IH2 n' mv h Hm Hc. destruct (Step _ _ _ Hm Hc) as (m & mv' & -> & E1 & E2 & E3).
    destruct m as [r [[a' b']|] m|a' b'|]; try discriminate E1. injection E1 as -> -> ->.
    eapply mv_child; [apply IH1|]. apply re_continue. cbn [recorder push_source_position pop_source_position].
    replace (h ++ EvPush a b :: e ++ EvPop :: es) with ((((h ++ [EvPush a b]) ++ e) ++ [EvPop]) ++ es)
      by now rewrite <- !app_assoc. now apply IH2.
  - intros n l e es _ IH1 _ IH2 n' mv h Hm Hc. destruct (Step _ _ _ Hm Hc) as (m & mv' & -> & E1 & E2 & E3).
    destruct m as [r [[a' b']|] m|a' b'|]; try discriminate E1. injection E1 as ->.
    eapply mv_child; [apply IH1|]. apply re_continue. rewrite app_assoc. now apply IH2.
  - intros a b l es _ IH n' mv h Hm Hc. destruct (Step _ _ _ Hm Hc) as (m & mv' & -> & E1 & E2 & E3).
    destruct m as [r [[a' b']|] m|a' b'|]; try discriminate E1. injection E1 as -> ->.
    apply mv_push. cbn [recorder push_source_position]. replace (h ++ EvPush a b :: es) with ((h ++ [EvPush a b]) ++ es) by now rewrite <- app_assoc.
    now apply IH.
Qed.

Theorem C47_pruning skip n calls : pruned skip n calls ->
  visit (recorder (skipping skip)) (height n) n [] = Ret (Ok Continue) calls.
Proof. intro H. apply skipping_visits. exact (proj1 (pruned_tours skip) n calls H []). Qed.

(** Every node without reachable library [let] has such a traversal. *)
Theorem C47_pruned_exists skip n : (forall x t e, skip (ALibrarySingleDefinition (LetDefinition x t e)) = true) \/ has_let n = false ->
  exists calls, pruned skip n calls.
Proof.
  remember (height n) as h eqn:Eh. revert n Eh. induction h as [h IH] using Wf_nat.lt_wf_ind. intros n -> Hl.
  destruct (skip n) eqn:Es.
  - destruct (is_address n) eqn:Ea; eexists; [now apply pr_skip_address|now apply pr_skip].
  - assert (K : forall m, In m (kid_nodes n) -> exists e, pruned skip m e).
    { intros m Hm. apply (IH (height m)); [apply height_kid; exact Hm|reflexivity|].
      destruct Hl as [Hl|Hl]; [now left|right; exact (has_let_kid n m Hl Hm)]. }
    assert (Ks : exists e, pruneds skip (kids n) e).
    { unfold kid_nodes in K. clear -K. induction (kids n) as [|st l IH]; [exists []; constructor|].
      destruct IH as [es Hes]; [intros m Hm; apply K; cbn [flat_map]; apply in_or_app; now right|].
      destruct st as [a b m|m|a b].
      - destruct (K m) as [e He]; [now left|]. eexists. apply prs_at; eassumption.
      - destruct (K m) as [e He]; [now left|]. eexists. apply prs_bare; eassumption.
      - eexists. apply prs_extra; eassumption. }
    destruct Ks as [e He]. eexists. apply pr_enter; [exact Es| |exact He].
    intros d ->. destruct Hl as [Hl|Hl]; [|exact Hl]. destruct d; [|reflexivity]. rewrite Hl in Es. discriminate Es.
Qed.

(** ** Examples *)

(** [List (Map Uint32 Bool)] without its metadata: the key of a map argument
    answers [SkipChildren] when it is left: the value is not visited, the
    argument is left as usual. *)
Definition wp {A} (a : A) : wm A := mkwm a start_position start_position.
Definition name_node (s : string) : wm NodeMetaIdentifier := wp (MetaName (wp (TypeOrEnumLikeIdentifier (wp (lit s))))).
Definition map_arg : anynode :=
  ATypeArgument (MapTypeArgument (wp (GenericMapKey (name_node "Uint32")))
                                 (wp (MapValueTypeOrEnumLikeIdentifier (name_node "Bool")))).
Definition leave_key : list event -> mode -> anynode -> result tr :=
  fun _ m n => match m, n with Exit, ATypeMapKey _ => Ok SkipChildren | _, _ => Ok Continue end.
Definition sees_value (h : list event) : bool :=
  existsb (fun e => match e with EvEmit _ (ATypeMapValue _) => true | _ => false end) h.
Definition leaves_argument (h : list event) : bool :=
  existsb (fun e => match e with EvEmit Exit (ATypeArgument _) => true | _ => false end) h.
Example C47_witness : exists h, tours (recorder leave_key) (fun m n s => Ret (leave_key s m n) (s ++ [EvEmit m n])) map_arg [] (Ret (Ok Continue) h)
  /\ sees_value h = false /\ leaves_argument h = true.
Proof.
  eexists. split; [|split].
  - apply (C47_traversal_is_specified (recorder leave_key) (fun m n s => Ret (leave_key s m n) (s ++ [EvEmit m n]))
      ltac:(reflexivity) ltac:(discriminate) map_arg (height map_arg) (le_n _)). vm_compute. reflexivity.
  - reflexivity.
  - reflexivity.
Qed.

Definition skip_types (n : anynode) : bool := match n with AScillaType _ => true | _ => false end.
Definition a_field : anynode :=
  ATypedIdentifier (mkTypedIdentifier (wp (lit "x")) (wp (mkTypeAnnotation (wp (GenericTypeWithArgs (name_node "List") []))))).
Example C47_pruning_witness : exists calls, pruned skip_types a_field calls /\ List.length calls = 9.
Proof.
  eexists. split.
  - apply pr_enter; [reflexivity|discriminate|]. apply prs_at; [|apply prs_nil].
    apply pr_enter; [reflexivity|discriminate|]. apply prs_at; [|apply prs_nil].
    apply pr_skip; reflexivity.
  - reflexivity.
Qed.
