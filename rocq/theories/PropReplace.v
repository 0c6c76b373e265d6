(** Property C72: supported fields and transitions can be added, removed and
    changed without an effect on anything else. *)
From Verif Require Import Chars Lexer Ast Types Visitor Grammar Cfg Parser Contract Emitter EmitSpec EmitSig EmitErase EmitProgram EmitSteps EmitInv EmitOk Machine MachineFacts TypeFacts
  PropMachine PropParse2 PropEmit.
From Coq Require Import PeanoNat Lia.
Local Open Scope nat_scope.

(** ** Specification *)
(** The declaration [d] (a name and a type it says) declares the field [f]. *)
Definition declares (d : NodeTypedIdentifier) (f : field) : Prop :=
  field_name f = typed_name d /\ exists x, says_type (typed_type d) x /\ denotes x (field_type f).
(** [l] with [x] in place of its [n] elements from index [k] on. *)
Definition replace_at {A} (k n : nat) (x l : list A) : list A := firstn k l ++ x ++ skipn (k + n) l.
Definition with_fields (g : list field -> list field) (c : contract) : contract :=
  mkContract (c_name c) (c_init_params c) (g (c_fields c)) (c_transitions c).
Definition with_transitions (g : list transition -> list transition) (c : contract) : contract :=
  mkContract (c_name c) (c_init_params c) (c_fields c) (g (c_transitions c)).
(** The same answer, except for the contract if it is one. *)
Definition changed (g : contract -> contract) (a : api contract) : api contract :=
  match a with RValue c => RValue (g c) | a => a end.

(** ** Proof *)
Lemma cmd_ind' (P : cmd -> Prop)
  (Hn : forall s k, P (Name s k)) (Ht : P ToType) (Hm : P ToMap)
  (Ha : forall l, Forall (Forall P) l -> P (Args l)) (Hr : forall tn l, Forall (Forall P) l -> P (Record tn l))
  (Hat : forall l, Forall P l -> P (Attempt l)) (Hd : forall n, P (Declare n)) (Hs : P Stop) (Hsn : forall n, P (SetName n))
  (Hap : P AddParam) (Haf : P AddField) (Htr : forall l, Forall (Forall P) l -> P (AddTransition l)) : forall c, P c.
Proof.
  fix IH 1. intros [s k| | |l|tn l|l|n| |n| | |l].
  - apply Hn.
  - apply Ht.
  - apply Hm.
  - apply Ha. revert l. fix IL 1. intros [|b l]; constructor; [|apply IL]. revert b. fix IB 1. intros [|c b]; constructor; [apply IH|apply IB].
  - apply Hr. revert l. fix IL 1. intros [|b l]; constructor; [|apply IL]. revert b. fix IB 1. intros [|c b]; constructor; [apply IH|apply IB].
  - apply Hat. revert l. fix IB 1. intros [|c b]; constructor; [apply IH|apply IB].
  - apply Hd.
  - apply Hs.
  - apply Hsn.
  - apply Hap.
  - apply Haf.
  - apply Htr. revert l. fix IL 1. intros [|b l]; constructor; [|apply IL]. revert b. fix IB 1. intros [|c b]; constructor; [apply IH|apply IB].
Qed.

(** The run of commands does not depend on the contract. *)
Section Frame.
  Context (debug : stack_object -> str) (R : contract -> contract -> Prop).
  Notation exs := (execs debug).
  Context
    (Rname : forall n c c', R c c' -> R (mkContract n (c_init_params c) (c_fields c) (c_transitions c)) (mkContract n (c_init_params c') (c_fields c') (c_transitions c')))
    (Rparam : forall f c c', R c c' -> R (add_init_param f c) (add_init_param f c'))
    (Rfield : forall f c c', R c c' -> R (add_field f c) (add_field f c'))
    (Rtrans : forall t c c', R c c' -> R (add_transition t c) (add_transition t c')).
  Definition srel (s s' : Machine.state) : Prop := fst s = fst s' /\ R (snd s) (snd s').
  Definition orel (o o' : out) : Prop :=
    match o, o' with Done s, Done s' => srel s s' | Fail m s, Fail m' s' => m = m' /\ srel s s' | Abort, Abort => True | _, _ => False end.
  Definition resp (k : Machine.state -> out) : Prop := forall s s', srel s s' -> orel (k s) (k s').

  Lemma orel_then o o' k : orel o o' -> resp k -> orel (andthen o k) (andthen o' k).
  Proof. destruct o, o'; cbn; intros H Hk; try contradiction; auto. Qed.
  Lemma resp_take {A} what (is : stack_object -> option A) k : (forall a, resp (k a)) -> resp (take debug what is k).
  Proof.
    intros Hk [[|o r] c] [[|o' r'] c'] [H1 H2]; cbn [fst snd] in *; try discriminate; unfold take; cbn [fst snd]; [split; [reflexivity|split; auto]|].
    injection H1 as <- <-. destruct (is o); [apply Hk; split; auto|split; [reflexivity|split; auto]].
  Qed.
  Lemma resp_put o : resp (put o).
  Proof. intros s s' [H1 H2]. split; cbn; [rewrite H1; reflexivity|exact H2]. Qed.
  Definition resps (l : list cmd) : Prop := resp (exs l).
  Lemma resps_of l : Forall (fun c => resp (exec debug c)) l -> resps l.
  Proof. induction 1 as [|c l Hc _ IH]; intros s s' H; [exact H|]. cbn [execs]. apply orel_then; [apply Hc, H|exact IH]. Qed.
  Lemma resp_cmd c : resp (exec debug c).
  Proof.
    assert (L : forall l, Forall (Forall (fun c => resp (exec debug c))) l -> Forall resps l).
    { intros l H. eapply Forall_impl; [|exact H]. intros a. apply resps_of. }
    induction c using cmd_ind'.
    - apply resp_put.
    - apply resp_take. intro. apply resp_put.
    - apply resp_take. intro. apply resp_take. intro. apply resp_put.
    - intros s s' Hs. rewrite !args_eq. revert s s' Hs. apply resp_take. intros [m subs a]. apply L in H. clear L. revert subs.
      induction H as [|b l Hb _ IH]; intro subs; [apply resp_put|]. intros s s' Hs. rewrite !each_arg_cons.
      apply orel_then; [apply Hb, Hs|]. apply resp_take. intro. apply IH.
    - intros s s' Hs. rewrite !record_eq. revert s s' Hs. apply resp_take. intros [m subs a]. apply L in H. clear L. generalize (@nil field).
      induction H as [|b l Hb _ IH]; intro fs; [apply resp_put|]. intros s s' Hs. rewrite !each_field_cons.
      apply orel_then; [apply Hb, Hs|]. apply resp_take. intro. apply IH.
    - intros s s' Hs. rewrite !attempt_eq. apply resps_of in H. specialize (H s s' Hs).
      destruct (exs l s), (exs l s'); cbn in *; try contradiction; try tauto.
    - apply resp_take. intros t s s' Hs. destruct (type_from t); [apply resp_put, Hs|exact I].
    - intros s s' _. exact I.
    - intros s s' [H1 H2]. split; [exact H1|]. cbn. apply Rname, H2.
    - apply resp_take. intros f [r c] [r' c'] [H1 H2]. split; [exact H1|]. apply (Rparam f), H2.
    - apply resp_take. intros f [r c] [r' c'] [H1 H2]. split; [exact H1|]. apply (Rfield f), H2.
    - intros s s' Hs. rewrite !transition_eq. apply L in H. clear L. revert s s' Hs. generalize (@nil field).
      induction H as [|b l Hb _ IH]; intro fs.
      + cbn [each_param]. apply resp_take. intros i [r c] [r' c'] [H1 H2]. destruct (kind i); try exact I. split; [exact H1|].
        apply (Rtrans (mkTransition (unresolved i) fs)), H2.
      + intros s s' Hs. cbn [each_param]. apply orel_then; [apply Hb, Hs|]. apply resp_take. intro f. exact (IH (fs ++ [f])).
  Qed.
  Lemma frame l : resp (exs l).
  Proof. apply resps_of, Forall_forall. intros c _. apply resp_cmd. Qed.
End Frame.

Section Runs.
  Context (debug : stack_object -> str).
  Notation exs := (execs debug).
  (** A type leaves the contract alone. *)
  Lemma type_quiet t s s' : exs (code_type t) s = Done s' -> snd s' = snd s.
  Proof.
    intro H. destruct s as [r c]. pose proof (agree_visit debug t (mkst r c)) as A. unfold st in A. cbn [es_stack es_contract] in A.
    unfold visit_ty in A. destruct (visit _ _ _ _) as [[v|e] s1| |] eqn:Ev; cbn in A; try contradiction; rewrite A in H; try discriminate. injection H as <-.
    destruct (quiet_visit debug _ (AScillaType t) eq_refl _ _ _ Ev) as [Hc _]. exact Hc.
  Qed.
  Lemma decl_quiet d s s' : exs (code_decl d) s = Done s' -> snd s' = snd s.
  Proof.
    unfold code_decl. rewrite execs_app. destruct (exs (code_type (typed_type d)) s) as [s1| |] eqn:E; cbn [andthen]; try discriminate.
    rewrite <- (type_quiet _ _ _ E). rewrite execs_one. cbn [exec]. unfold take_type, take. destruct s1 as [[|[i|f|t] r] c]; cbn [fst snd]; try discriminate.
    destruct (type_from t); [|discriminate]. intro H. injection H as <-. reflexivity.
  Qed.
  Lemma declares_run d f : declares d f -> forall s, exs (code_decl d) s = Done (VariableDeclaration f :: fst s, snd s).
  Proof.
    intros [Hn (x & Hx & Hd)] s. destruct f as [n ty]. cbn [field_name field_type] in *. subst n.
    destruct (C23_type_pushes_one debug (typed_type d) x ty Hx Hd) as (srt & Ef & Ev).
    unfold code_decl. rewrite execs_app. pose proof (agree_visit debug (typed_type d) (mkst (fst s) (snd s))) as A.
    unfold visit_ty in A. rewrite Ev in A by lia. unfold agree, st in A. cbn [es_stack es_contract] in A.
    replace (fst s, snd s) with s in A by (destruct s; reflexivity). rewrite A. cbn [andthen]. rewrite execs_one. cbn [exec].
    unfold take_type, take. cbn [fst snd]. rewrite Ef. reflexivity.
  Qed.
  Definition code_fields (l : list NodeTypedIdentifier) : list cmd := flat_map (fun d => code_decl d ++ [AddField]) l.
  Definition code_transitions (l : list (str * list NodeTypedIdentifier)) : list cmd :=
    flat_map (fun t => [Name (fst t) KComponentName; AddTransition (map code_decl (snd t))]) l.
  Lemma fields_count l : forall s s', exs (code_fields l) s = Done s' -> List.length (c_fields (snd s')) = List.length (c_fields (snd s)) + List.length l /\ c_transitions (snd s') = c_transitions (snd s).
  Proof.
    induction l as [|d l IH]; intros s s'; cbn [code_fields flat_map].
    - intro H. injection H as <-. cbn. split; [lia|reflexivity].
    - rewrite <- app_assoc, execs_app. destruct (exs (code_decl d) s) as [s1| |] eqn:E; cbn [andthen]; try discriminate.
      rewrite <- (decl_quiet _ _ _ E). cbn [app execs exec]. unfold take_decl, take. destruct s1 as [[|[i|f|t] r] c]; cbn [fst snd andthen]; try discriminate.
      intro H. apply IH in H. destruct H as [H H']. rewrite H, H'. cbn. rewrite app_length. cbn. split; [lia|reflexivity].
  Qed.
  Lemma fields_run ds fs : Forall2 declares ds fs -> forall s, exs (code_fields ds) s =
    Done (fst s, with_fields (fun l => l ++ fs) (snd s)).
  Proof.
    induction 1 as [|d f ds fs Hd _ IH]; intros [r c]; cbn [code_fields flat_map].
    - cbn. unfold with_fields. rewrite app_nil_r. destruct c; reflexivity.
    - rewrite <- app_assoc, execs_app, (declares_run d f Hd). cbn [andthen app execs exec fst snd]. unfold take_decl, take. cbn [fst snd andthen].
      fold (code_fields ds). rewrite IH. unfold with_fields. cbn. rewrite <- app_assoc. reflexivity.
  Qed.
  Lemma params_run ds fs : Forall2 declares ds fs -> forall n acc r c,
    each_param debug (map code_decl ds) acc (IrIdentifier (mkId n KComponentName) :: r, c)
    = Done (r, with_transitions (fun l => l ++ [mkTransition n (acc ++ fs)]) c).
  Proof.
    induction 1 as [|d f ds fs Hd _ IH]; intros n acc r c.
    - cbn. rewrite app_nil_r. reflexivity.
    - cbn [map each_param]. rewrite (declares_run d f Hd). cbn [andthen]. unfold take_decl at 1, take. cbn [fst snd].
      rewrite IH, <- app_assoc. reflexivity.
  Qed.
  Lemma params_count l : forall acc s s', each_param debug (map code_decl l) acc s = Done s' ->
    List.length (c_transitions (snd s')) = S (List.length (c_transitions (snd s))).
  Proof.
    induction l as [|d l IH]; intros acc s s'; cbn [map each_param].
    - unfold take_name, take. destruct s as [[|[i|f|t] r] c]; cbn [fst snd]; try discriminate. destruct (kind i); try discriminate.
      intro H. injection H as <-. cbn. rewrite app_length. cbn. lia.
    - destruct (exs (code_decl d) s) as [s1| |] eqn:E; cbn [andthen]; try discriminate. rewrite <- (decl_quiet _ _ _ E).
      unfold take_decl at 1, take. destruct s1 as [[|[i|f|t] r] c]; cbn [fst snd]; try discriminate. intro H. apply IH in H. exact H.
  Qed.
  Lemma transitions_count l : forall s s', exs (code_transitions l) s = Done s' ->
    List.length (c_transitions (snd s')) = List.length (c_transitions (snd s)) + List.length l.
  Proof.
    induction l as [|t l IH]; intros s s'; cbn [code_transitions flat_map].
    - intro H. injection H as <-. cbn. lia.
    - cbn [app execs]. destruct (exec debug (Name _ _) s) as [s1| |] eqn:E0; try discriminate. injection E0 as <-. cbn [andthen].
      rewrite transition_eq. destruct (each_param _ _ _ _) as [s1| |] eqn:E; cbn [andthen]; try discriminate.
      intro H. apply IH in H. apply params_count in E. cbn [snd] in E. rewrite H, E. cbn [List.length]. lia.
  Qed.
  Lemma transitions_run ts vs : Forall2 (fun t v => t_name v = fst t /\ Forall2 declares (snd t) (t_params v)) ts vs -> forall s,
    exs (code_transitions ts) s = Done (fst s, with_transitions (fun l => l ++ vs) (snd s)).
  Proof.
    induction 1 as [|t v ts vs [Hn Hd] _ IH]; intros [r c]; cbn [code_transitions flat_map].
    - cbn. unfold with_transitions. rewrite app_nil_r. destruct c; reflexivity.
    - cbn [app execs]. change (exec debug (Name (fst t) KComponentName) (r, c)) with (Done (IrIdentifier (mkId (fst t) KComponentName) :: r, c)). cbn [andthen]. rewrite transition_eq, (params_run _ _ Hd). cbn [andthen].
      fold (code_transitions ts). rewrite IH. unfold with_transitions. cbn. rewrite <- app_assoc. destruct v. cbn in *. subst. reflexivity.
  Qed.
End Runs.

(** The commands of a signature. *)
Definition code_head (g : sig) : list cmd :=
  code_name (sg_name g) ++ [SetName (type_name_identifier_display (sg_name g))]
  ++ flat_map (fun d => code_decl d ++ [AddParam]) (sg_params g) ++ flat_map code_decl (sg_params g).
Definition code_sig (g : sig) : list cmd := code_head g ++ code_fields (sg_fields g) ++ code_transitions (sg_transitions g).
Lemma emit_re debug p : emit_program debug p = emit_program debug (mkProgram (w0 []) None None (w0 (re_contract (signature p)))).
Proof.
  destruct p as [v i l c] eqn:Ep. set (f := 5 + depth_contract (node c) + depth_contract (re_contract (signature p))).
  rewrite (emit_with debug f) by lia. rewrite (emit_with debug f) by (cbn [node w0]; subst p; lia).
  pose proof (sig_contract debug f (mkProgram v i l c) ltac:(lia) sr_default) as H. cbv beta iota in H. rewrite H. reflexivity.
Qed.
Lemma code_re g : code_contract (re_contract g) = code_sig g.
Proof.
  destruct g as [n ps fs ts]. unfold code_sig, code_head, code_contract.
  assert (P : forall l, param_decls (re_params l) = l).
  { intro l. unfold re_params, param_decls. rewrite map_map. rewrite <- (map_id l) at 2. apply map_ext. reflexivity. }
  assert (F : field_decls (re_contract (mkSig n ps fs ts)) = fs).
  { unfold re_contract, field_decls. cbn [sg_fields]. rewrite map_map. rewrite <- (map_id fs) at 2. apply map_ext. reflexivity. }
  assert (T : transition_decls (re_contract (mkSig n ps fs ts)) = ts).
  { unfold re_contract, transition_decls. cbn [sg_transitions]. clear F. induction ts as [|[m l] ts IH]; [reflexivity|].
    cbn [map flat_map node w0]. rewrite IH. cbn [app fst snd component_name node w0]. f_equal. f_equal. apply P. }
  rewrite F, T. cbn [re_contract sg_name sg_params sg_fields sg_transitions contract_param_decls declared_name node w0]. rewrite P. unfold code_fields, code_transitions. rewrite <- !app_assoc. reflexivity.
Qed.
Lemma from_sig U debug text p : parse_str U Program text = POk p -> from_str U debug text =
  match execs debug (code_sig (signature p)) start with Done s => RValue (snd s) | Fail m _ => RError (ParseErrorEmit m) | Abort => RPanic end.
Proof.
  intro H. rewrite (from_str_parsed _ _ _ _ H). unfold emit_api. rewrite emit_re, emit_machine. fold start. unfold code_program. cbn [node w0].
  rewrite code_re. destruct (execs debug _ start); reflexivity.
Qed.
Lemma head_keeps debug g s s' : execs debug (code_head g) s = Done s' -> c_fields (snd s') = c_fields (snd s) /\ c_transitions (snd s') = c_transitions (snd s).
Proof.
  assert (P : forall l s s', execs debug (flat_map (fun d => code_decl d ++ [AddParam]) l) s = Done s' -> c_fields (snd s') = c_fields (snd s) /\ c_transitions (snd s') = c_transitions (snd s)).
  { induction l as [|d l IH]; intros s0 s1 H; cbn [flat_map] in H; [injection H as <-; auto|].
    rewrite <- app_assoc, execs_app in H. destruct (execs debug (code_decl d) s0) as [s2| |] eqn:E; cbn [andthen] in H; try discriminate.
    rewrite <- (decl_quiet _ _ _ _ E). cbn [app execs exec] in H. unfold take_decl, take in H. destruct s2 as [[|[i|f|t] r] c]; cbn [fst snd andthen] in H; try discriminate.
    apply IH in H. exact H. }
  assert (Q : forall l s s', execs debug (flat_map code_decl l) s = Done s' -> snd s' = snd s).
  { induction l as [|d l IH]; intros s0 s1 H; cbn [flat_map] in H; [injection H as <-; auto|].
    rewrite execs_app in H. destruct (execs debug (code_decl d) s0) as [s2| |] eqn:E; cbn [andthen] in H; try discriminate.
    rewrite <- (decl_quiet _ _ _ _ E). apply IH, H. }
  unfold code_head. rewrite execs_app. intro H.
  assert (N : exists r, execs debug (code_name (sg_name g)) s = Done (r, snd s)).
  { destruct s as [r c]. destruct (sg_name g); eexists; reflexivity. }
  destruct N as (r & N). rewrite N in H. cbn [andthen app execs exec] in H. rewrite execs_app in H.
  destruct (execs debug (flat_map (fun d => code_decl d ++ [AddParam]) _) _) as [s2| |] eqn:E; cbn [andthen] in H; try discriminate.
  apply P in E. apply Q in H. rewrite H. exact E.
Qed.

Lemma forall2_length {A B} (P : A -> B -> Prop) l m : Forall2 P l m -> List.length l = List.length m.
Proof. induction 1; cbn; congruence. Qed.
Lemma replaced {A} (a x y b : list A) : firstn (List.length a) (a ++ x ++ b) ++ y ++ skipn (List.length a + List.length x) (a ++ x ++ b) = a ++ y ++ b.
Proof.
  rewrite firstn_app, Nat.sub_diag, firstn_all. cbn [firstn]. rewrite app_nil_r. f_equal. f_equal.
  rewrite app_assoc, <- (app_length a x), skipn_app, skipn_all, Nat.sub_diag. reflexivity.
Qed.

(** ** Theorems *)
(** Two programs that differ only in a run of fields, all supported: the answers are
    the same (the same contract but for these fields, the same error, a panic). *)
Theorem C72_fields : forall U debug text text' p p' before ds ds' after fs fs',
  parse_str U Program text = POk p -> parse_str U Program text' = POk p' ->
  sg_name (signature p') = sg_name (signature p) -> sg_params (signature p') = sg_params (signature p) ->
  sg_transitions (signature p') = sg_transitions (signature p) ->
  sg_fields (signature p) = before ++ ds ++ after -> sg_fields (signature p') = before ++ ds' ++ after ->
  Forall2 declares ds fs -> Forall2 declares ds' fs' ->
  from_str U debug text' = changed (with_fields (replace_at (List.length before) (List.length ds) fs')) (from_str U debug text).
Proof.
  intros U debug text text' p p' before ds ds' after fs fs' H H' En Ep Et Ef Ef' D D'.
  rewrite (from_sig _ _ _ _ H), (from_sig _ _ _ _ H'). clear H H'. unfold code_sig.
  replace (code_head (signature p')) with (code_head (signature p)) by (unfold code_head; rewrite En, Ep; reflexivity).
  rewrite Ef, Ef', Et. unfold code_fields. rewrite !flat_map_app. fold (code_fields before) (code_fields ds) (code_fields ds') (code_fields after).
  rewrite !execs_app. destruct (execs debug (code_head (signature p)) start) as [s| |] eqn:Eh; cbn [andthen]; try reflexivity.
  apply head_keeps in Eh. destruct Eh as [Eh _]. rewrite !execs_app.
  destruct (execs debug (code_fields before) s) as [s1| |] eqn:Eb; cbn [andthen]; try reflexivity.
  apply fields_count in Eb. destruct Eb as [Eb _]. rewrite Eh in Eb. cbn in Eb.
  rewrite !execs_app, (fields_run debug ds fs D), (fields_run debug ds' fs' D'). cbn [andthen].
  set (R := fun c c' => exists a b, c_fields c = a ++ fs ++ b /\ c_fields c' = a ++ fs' ++ b /\ List.length a = List.length before
     /\ c_name c' = c_name c /\ c_init_params c' = c_init_params c /\ c_transitions c' = c_transitions c).
  assert (F : resp R (execs debug (code_fields after ++ code_transitions (sg_transitions (signature p))))).
  { apply frame; subst R; cbv beta.
    - intros n c c' (a & b & H1 & H2 & H3 & H4 & H5 & H6). exists a, b. cbn. repeat split; assumption.
    - intros f c c' (a & b & H1 & H2 & H3 & H4 & H5 & H6). exists a, b. cbn. rewrite H5. repeat split; assumption.
    - intros f c c' (a & b & H1 & H2 & H3 & H4 & H5 & H6). exists a, (b ++ [f]). cbn. rewrite H1, H2, <- !app_assoc. repeat split; assumption.
    - intros t c c' (a & b & H1 & H2 & H3 & H4 & H5 & H6). exists a, b. cbn. rewrite H6. repeat split; assumption. }
  specialize (F (fst s1, with_fields (fun l => l ++ fs) (snd s1)) (fst s1, with_fields (fun l => l ++ fs') (snd s1))).
  rewrite !execs_app in F. unfold orel in F. cbv zeta in F.
  match type of F with ?A -> _ => assert (G : A) end.
  { split; [reflexivity|]. exists (c_fields (snd s1)), []. cbn. rewrite !app_nil_r. repeat split. exact Eb. }
  specialize (F G). clear G.
  destruct (andthen (execs debug (code_fields after) (fst s1, with_fields (fun l => l ++ fs) (snd s1))) _) as [[r c]|m [r c]|];
    destruct (andthen (execs debug (code_fields after) (fst s1, with_fields (fun l => l ++ fs') (snd s1))) _) as [[r' c']|m' [r' c']|]; try contradiction.
  - destruct F as [_ (a & b & H1 & H2 & H3 & H4 & H5 & H6)]. cbn [snd changed] in *. f_equal. unfold with_fields, replace_at.
    rewrite H1, <- H3, (forall2_length _ _ _ D), replaced, <- H2, <- H4, <- H5, <- H6. destruct c'. reflexivity.
  - destruct F as [-> _]. reflexivity.
  - reflexivity.
Qed.

(** The same for transitions with supported parameters. *)
Theorem C72_transitions : forall U debug text text' p p' before ts ts' after vs vs',
  parse_str U Program text = POk p -> parse_str U Program text' = POk p' ->
  sg_name (signature p') = sg_name (signature p) -> sg_params (signature p') = sg_params (signature p) ->
  sg_fields (signature p') = sg_fields (signature p) ->
  sg_transitions (signature p) = before ++ ts ++ after -> sg_transitions (signature p') = before ++ ts' ++ after ->
  Forall2 (fun t v => t_name v = fst t /\ Forall2 declares (snd t) (t_params v)) ts vs ->
  Forall2 (fun t v => t_name v = fst t /\ Forall2 declares (snd t) (t_params v)) ts' vs' ->
  from_str U debug text' = changed (with_transitions (replace_at (List.length before) (List.length ts) vs')) (from_str U debug text).
Proof.
  intros U debug text text' p p' before ts ts' after vs vs' H H' En Ep Ef Et Et' D D'.
  rewrite (from_sig _ _ _ _ H), (from_sig _ _ _ _ H'). clear H H'. unfold code_sig.
  replace (code_head (signature p')) with (code_head (signature p)) by (unfold code_head; rewrite En, Ep; reflexivity).
  rewrite Ef, Et, Et'. unfold code_transitions. rewrite !flat_map_app.
  fold (code_transitions before) (code_transitions ts) (code_transitions ts') (code_transitions after).
  rewrite !execs_app. destruct (execs debug (code_head (signature p)) start) as [s0| |] eqn:Eh; cbn [andthen]; try reflexivity.
  apply head_keeps in Eh. destruct Eh as [_ Eh]. rewrite !execs_app.
  destruct (execs debug (code_fields _) s0) as [s| |] eqn:Es; cbn [andthen]; try reflexivity.
  apply fields_count in Es. destruct Es as [_ Es]. rewrite !execs_app.
  destruct (execs debug (code_transitions before) s) as [s1| |] eqn:Eb; cbn [andthen]; try reflexivity.
  apply transitions_count in Eb. rewrite Es, Eh in Eb. cbn in Eb.
  rewrite !execs_app, (transitions_run debug ts vs D), (transitions_run debug ts' vs' D'). cbn [andthen].
  set (R := fun c c' => exists a b, c_transitions c = a ++ vs ++ b /\ c_transitions c' = a ++ vs' ++ b /\ List.length a = List.length before
     /\ c_name c' = c_name c /\ c_init_params c' = c_init_params c /\ c_fields c' = c_fields c).
  assert (F : resp R (execs debug (code_transitions after))).
  { apply frame; subst R; cbv beta.
    - intros n c c' (a & b & H1 & H2 & H3 & H4 & H5 & H6). exists a, b. cbn. repeat split; assumption.
    - intros f c c' (a & b & H1 & H2 & H3 & H4 & H5 & H6). exists a, b. cbn. rewrite H5. repeat split; assumption.
    - intros f c c' (a & b & H1 & H2 & H3 & H4 & H5 & H6). exists a, b. cbn. rewrite H6. repeat split; assumption.
    - intros t c c' (a & b & H1 & H2 & H3 & H4 & H5 & H6). exists a, (b ++ [t]). cbn. rewrite H1, H2, <- !app_assoc. repeat split; assumption. }
  specialize (F (fst s1, with_transitions (fun l => l ++ vs) (snd s1)) (fst s1, with_transitions (fun l => l ++ vs') (snd s1))).
  match type of F with ?A -> _ => assert (G : A) end.
  { split; [reflexivity|]. exists (c_transitions (snd s1)), []. cbn. rewrite !app_nil_r. repeat split. exact Eb. }
  specialize (F G). clear G. unfold orel in F.
  destruct (execs debug (code_transitions after) (fst s1, with_transitions (fun l => l ++ vs) (snd s1))) as [[r c]|m [r c]|];
    destruct (execs debug (code_transitions after) (fst s1, with_transitions (fun l => l ++ vs') (snd s1))) as [[r' c']|m' [r' c']|]; try contradiction.
  - destruct F as [_ (a & b & H1 & H2 & H3 & H4 & H5 & H6)]. cbn [snd changed] in *. f_equal. unfold with_transitions, replace_at.
    rewrite H1, <- H3, (forall2_length _ _ _ D), replaced, <- H2, <- H4, <- H5, <- H6. destruct c'. reflexivity.
  - destruct F as [-> _]. reflexivity.
  - reflexivity.
Qed.

(** ** Witnesses *)
(** The fields around the removed one take their types from leftovers (C26, C28). *)
Definition t_with : string := "scilla_version 0 contract C() field a: Event = e field b: Map Int32 (List Int64) = e field d: Ns.T = e field f : Event = e transition T(x : Bool) end".
Definition t_without : string := "scilla_version 0 contract C() field a: Event = e field d: Ns.T = e field f : Event = e transition T(x : Bool) end".
Definition the_sig (t : string) : option sig := match parse_str U_none Program (lit t) with POk p => Some (signature p) | _ => None end.
Example C72_witness_fields : exists g g' before d after f,
  the_sig t_with = Some g /\ the_sig t_without = Some g'
  /\ sg_name g' = sg_name g /\ sg_params g' = sg_params g /\ sg_transitions g' = sg_transitions g
  /\ sg_fields g = before ++ [d] ++ after /\ sg_fields g' = before ++ [] ++ after
  /\ List.length before = 1 /\ List.length after = 2 /\ declares d f
  /\ exists c, from_str U_none no_debug (lit t_with) = RValue c
      /\ c_fields c = [mkField (lit "a") (Other (lit "C")); f; mkField (lit "d") (Other (lit "T")); mkField (lit "f") (Other (lit "Ns"))]
      /\ from_str U_none no_debug (lit t_without) = RValue (with_fields (fun _ => [mkField (lit "a") (Other (lit "C")); mkField (lit "d") (Other (lit "T")); mkField (lit "f") (Other (lit "Ns"))]) c).
Proof.
  do 2 eexists. exists (firstn 1 match the_sig t_with with Some g => sg_fields g | None => [] end).
  eexists. exists (skipn 2 match the_sig t_with with Some g => sg_fields g | None => [] end). exists (mkField (lit "b") (TyMap Int32 (TyList Int64))).
  split; [vm_compute; reflexivity|]. split; [vm_compute; reflexivity|]. split; [vm_compute; reflexivity|]. split; [vm_compute; reflexivity|].
  split; [vm_compute; reflexivity|]. split; [vm_compute; reflexivity|]. split; [vm_compute; reflexivity|]. split; [vm_compute; reflexivity|].
  split; [vm_compute; reflexivity|]. split.
  - split; [reflexivity|]. exists (TName (lit "Map") [TName (lit "Int32") []; TName (lit "List") [TName (lit "Int64") []]]).
    split; [vm_compute; repeat econstructor|]. apply (d_map [] (TName (lit "Int32") []) (TName (lit "List") [TName (lit "Int64") []])); [constructor|apply d_base; constructor|].
    apply (d_list [] (TName (lit "Int64") [])); [constructor|apply d_base; constructor].
  - eexists. split; [vm_compute; reflexivity|]. split; vm_compute; reflexivity.
Qed.

(** With the parameters of the contract it is different: a supported parameter that
    is added changes the fields, and can turn a value into an error. *)
Theorem C72_params_refuted : exists c c' c0 m,
  from_str U_none no_debug (lit "scilla_version 0 contract C(a : Int32) field f : ByStr20 with contract field _x : Int32 end = e") = RValue c
  /\ from_str U_none no_debug (lit "scilla_version 0 contract C(a : Int32, b : Int64) field f : ByStr20 with contract field _x : Int32 end = e") = RValue c'
  /\ c_fields c = [mkField (lit "f") (ByStr20With (lit "contract") [mkField (lit "a") Int32])]
  /\ c_fields c' = [mkField (lit "f") (ByStr20With (lit "contract") [mkField (lit "b") Int64])]
  /\ from_str U_none no_debug (lit "scilla_version 0 contract C() field a : Event = e") = RValue c0
  /\ from_str U_none no_debug (lit "scilla_version 0 contract C(p : Int32) field a : Event = e") = RError m.
Proof.
  do 4 eexists. repeat apply conj; vm_compute; reflexivity.
Qed.

(** A transition replaced by two others. *)
Example C72_witness_transitions : exists g g' t t' u' v v' w',
  the_sig "scilla_version 0 contract C() field a: Event = e transition S() end transition T(x : Int32) end procedure P(y : Event) end transition U() end" = Some g
  /\ the_sig "scilla_version 0 contract C() field a: Event = e transition S() end procedure P() end transition V(y : Int64) end transition S() end transition U() end" = Some g'
  /\ sg_name g' = sg_name g /\ sg_params g' = sg_params g /\ sg_fields g' = sg_fields g
  /\ sg_transitions g = [(lit "S", [])] ++ [t] ++ [(lit "U", [])] /\ sg_transitions g' = [(lit "S", [])] ++ [t'; u'] ++ [(lit "U", [])]
  /\ Forall2 (fun t v => t_name v = fst t /\ Forall2 declares (snd t) (t_params v)) [t] [v]
  /\ Forall2 (fun t v => t_name v = fst t /\ Forall2 declares (snd t) (t_params v)) [t'; u'] [v'; w'].
Proof.
  do 5 eexists. exists (mkTransition (lit "T") [mkField (lit "x") Int32]), (mkTransition (lit "V") [mkField (lit "y") Int64]), (mkTransition (lit "S") []).
  split; [vm_compute; reflexivity|]. split; [vm_compute; reflexivity|]. split; [vm_compute; reflexivity|]. split; [vm_compute; reflexivity|].
  split; [vm_compute; reflexivity|]. split; [vm_compute; reflexivity|]. split; [vm_compute; reflexivity|]. split.
  - repeat constructor. exists (TName (lit "Int32") []). split; [vm_compute; repeat econstructor|apply d_base; constructor].
  - repeat constructor. exists (TName (lit "Int64") []). split; [vm_compute; repeat econstructor|apply d_base; constructor].
Qed.
