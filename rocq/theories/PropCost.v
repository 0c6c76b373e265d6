(** C57: the work of a parse is linear in the number of tokens; C58: the nesting
    of the emitter's calls is at most linear in it, and not bounded. *)
From Verif Require Import Chars Lexer LexSpec LexFacts LexWritten Ast Grammar Cfg Parser LrProofs GrammarLink Types Visitor Emitter EmitSpec TypeFacts
  EmitTypes EmitProgram EmitInv Contract Erase EraseFacts Print PropParse2 PropPrint PropEmit Spaced PropLexer Budget BudgetFacts.
Local Open Scope nat_scope.

(** ** C57 *)

(** The automaton stops after at most [42 n + 21] actions on [n] tokens. *)
Theorem C57_parser_steps : forall A items e n,
  42 * List.length items + 21 <= n -> lr_run n A e [] items <> RFuel.
Proof.
  intros A items e n H E. assert (S : run_spec A e items (lr_run n A e [] items)).
  { apply (lr_run_spec A e n [] items); [constructor|]. pose proof (lr_fuel_enough items). unfold lr_fuel in H0. change max_rank with 20 in H0. lia. }
  rewrite E in S. inversion S.
Qed.
(** What [from_str] returns when the emission of [p] ends in [o]. *)
Definition ends (o : outcome bstate tr) (a : api contract) : Prop :=
  match o with
  | Ret (Ok _) (_, s) => a = RValue (es_contract s)
  | Ret (Err m) _ => a = RError (ParseErrorEmit m)
  | Panic => a = RPanic
  | Fuel => False
  end.
(** With [8 n] visits, nested at most [4 n] deep, where [n] is the number of
    tokens of the text, the emitter does all it would do. *)
Theorem C57_visits : forall U debug text p,
  parse_str U Program text = POk p ->
  exists toks, tokens_of U text = (toks, LEof) /\ List.length toks <= List.length text /\
    forall depth visits, 4 * List.length toks <= depth -> 8 * List.length toks <= visits ->
      ends (emit_within debug depth visits p) (from_str U debug text).
Proof.
  intros U debug text p Hp. destruct (C41_ast_of_text _ _ _ _ Hp) as (toks & Ht & Hm & _). exists toks. split; [exact Ht|]. split.
  { unfold tokens_of in Ht. destruct (lex U text) as [items e] eqn:El. injection Ht as <- ->. rewrite map_length. apply (C01_lexer_terminates _ _ _ _ El). }
  intros d k Hd Hk. rewrite (from_str_parsed _ _ _ _ Hp). apply matches_ntok in Hm. destruct p as [v i l c]. cbn [write w_program] in Hm.
  change (ntok (w_program (mkProgram v i l c)) <= List.length toks) in Hm. cbn [w_program] in Hm. rewrite ntok_P, !ntok_app in Hm.
  pose proof (bound_contract (node c)) as [Hc1 Hc2]. unfold emit_api, emit_program, emit_within. rewrite visit_wm_eq.
  pose proof (cost_contract debug d (node c) k sr_default ltac:(lia)) as W. rewrite (emit_any_fuel debug c d ltac:(lia)) in W.
  pose proof (nf_contract debug _ (node c) (le_n _) sr_default) as Hn. specialize (W Hn).
  destruct (visit (sr_emitter debug) (depth_contract (node c)) (AContractDefinition (node c)) sr_default) as [[t|m] s| |]; [| | |congruence].
  - destruct W as (k' & _ & _ & ->). reflexivity.
  - destruct W as (k' & _ & _ & ->). reflexivity.
  - rewrite W. reflexivity.
Qed.

(** 33 visits, nested 9 deep, are needed here; the bound is 144 and 72. *)
Definition csrc := lit "scilla_version 0 contract C (a : List Int32) field f : Map ByStr20 Bool = e".
Example C57_witness : exists p, parse_str U_none Program csrc = POk p /\ List.length (fst (tokens_of U_none csrc)) = 18
  /\ emit_within no_debug 72 32 p = Fuel /\ ends (emit_within no_debug 72 33 p) (from_str U_none no_debug csrc)
  /\ emit_within no_debug 8 144 p = Fuel /\ ends (emit_within no_debug 9 144 p) (from_str U_none no_debug csrc).
Proof. eexists. split; [vm_compute; reflexivity|]. do 4 (split; [vm_compute; reflexivity|]). vm_compute. reflexivity. Qed.
(** A text of 6 tokens on which the automaton makes 13 actions. *)
Example C57_witness_parser : lr_run 12 Program LEof [] (fst (lex U_none (lit "scilla_version 0 contract C ()"))) = RFuel.
Proof. vm_compute. reflexivity. Qed.

(** ** C58 *)

(** [scilla_version 0 contract C (x : ((..(Int32)..)))] with [d] pairs of
    parentheses around the type. *)
Definition deep_tokens (d : nat) : list token :=
  [TScillaVersion; TNumber (lit "0"); TContract; TCustomIdentifier (lit "C"); TOpenParen; TIdentifier (lit "x"); TColon]
  ++ repeat TOpenParen d ++ [TCustomIdentifier (lit "Int32")] ++ repeat TCloseParen d ++ [TCloseParen].
Definition w0 {A} (a : A) : wm A := mkwm a (mkpos 0 0 0) (mkpos 0 0 0).
Fixpoint deep_type (d : nat) : NodeScillaType :=
  match d with
  | O => GenericTypeWithArgs (w0 (MetaName (w0 (TypeOrEnumLikeIdentifier (w0 (lit "Int32")))))) []
  | S d => EnclosedType (w0 (deep_type d))
  end.
Definition deep_program (d : nat) : NodeProgram :=
  mkProgram (w0 (lit "0")) None None (w0 (mkContractDefinition (w0 (TypeOrEnumLikeIdentifier (w0 (lit "C"))))
    (w0 (mkComponentParameters [w0 (mkParameterPair (w0 (mkTypedIdentifier (w0 (lit "x")) (w0 (mkTypeAnnotation (w0 (deep_type d)))))))])) None [] [])).
Lemma canonical_app a b : canonical (a ++ b) = canonical a ++ canonical b.
Proof. apply flat_map_app. Qed.
Lemma deep_written d : canonical (w_type (deep_type d)) = repeat TOpenParen d ++ [TCustomIdentifier (lit "Int32")] ++ repeat TCloseParen d.
Proof.
  induction d as [|d IH]; [reflexivity|]. cbn [deep_type w_type w0 node]. change (canonical (P TOpenParen :: ?x)) with (TOpenParen :: canonical x).
  rewrite canonical_app, IH. cbn [repeat app]. f_equal. rewrite <- !app_assoc. f_equal. cbn. f_equal. rewrite <- repeat_cons. reflexivity.
Qed.
Lemma deep_program_written d : canonical (write Program (deep_program d)) = deep_tokens d.
Proof.
  unfold deep_tokens. change (write Program (deep_program d)) with (w_program (deep_program d)).
  unfold deep_program, w_program, w_contract, w_params, w_pair, w_typed, w_annot, w_id, w_number, opt, w0. cbn [node map sep flat_map app w_tni w_custom].
  rewrite app_nil_r, ?app_nil_r. change (canonical (P ?t :: ?x)) with (t :: canonical x).
  unfold canonical at 1. cbn [flat_map app]. do 7 f_equal. fold (canonical (w_type (deep_type d) ++ [P TCloseParen])).
  rewrite canonical_app, deep_written, <- !app_assoc. reflexivity.
Qed.
Lemma deep_wf d : Forall wf_token (deep_tokens d).
Proof.
  unfold deep_tokens. apply Forall_app. split; [apply wf_tokensb; reflexivity|]. apply Forall_app. split.
  - apply Forall_forall. intros t Ht. apply repeat_spec in Ht. subst t. apply wf_tokenb_sound. reflexivity.
  - apply Forall_app. split; [apply wf_tokensb; reflexivity|]. apply Forall_app. split; [|apply wf_tokensb; reflexivity].
    apply Forall_forall. intros t Ht. apply repeat_spec in Ht. subst t. apply wf_tokenb_sound. reflexivity.
Qed.
Lemma deep_writable d : writable Program (deep_program d) = true.
Proof.
  change (writable Program (deep_program d)) with (k_program (deep_program d)). unfold deep_program, w0.
  cbn [k_program node maybe k_contract k_params all forallb k_pair k_typed k_annot k_tni andb].
  assert (H : k_type (deep_type d) = true) by (induction d as [|d IH]; [reflexivity|exact IH]). cbn. unfold w0 in H. now rewrite H.
Qed.
Lemma deep_says d : says_type (deep_type d) (N0 "Int32").
Proof.
  induction d as [|d IH]; cbn [deep_type]; [vm_compute; says|]. constructor. exact IH.
Qed.
(** nested at least [d] deep *)
Fixpoint nested (d : nat) (t : NodeScillaType) : Prop :=
  match d with O => True | S d => exists u, t = EnclosedType u /\ nested d (node u) end.
Lemma nested_erase d : forall t, e_type t = e_type (deep_type d) -> nested d t.
Proof.
  induction d as [|d IH]; intros t E; [exact I|]. cbn [deep_type e_type] in E. destruct t as [| | |u| | |]; try discriminate.
  exists u. split; [reflexivity|]. apply IH. cbn [e_type] in E. unfold at0, w0 in E. cbn [node] in E. injection E as E. exact E.
Qed.
(** the type of the only parameter, and that the contract's name is a plain one *)
Definition the_type (p : NodeProgram) : option NodeScillaType :=
  match e_program p with
  | mkProgram _ _ _ c =>
      match node c with
      | mkContractDefinition _ ps _ _ _ =>
          match node ps with
          | mkComponentParameters [q] =>
              match node q with mkParameterPair ty => match node ty with mkTypedIdentifier _ a => match node a with mkTypeAnnotation t => Some (node t) end end end
          | _ => None
          end
      end
  end.
Definition plainly (p : NodeProgram) : Prop :=
  match p with
  | mkProgram _ _ _ c =>
      match node c with mkContractDefinition n _ _ _ _ => match node n with TypeOrEnumLikeIdentifier _ => True | _ => False end end
  end.
Lemma erase_plainly p : plainly (e_program p) -> plainly p.
Proof.
  destruct p as [v i l c]. cbn [e_program plainly at0 node]. unfold at0. cbn [node]. destruct (node c) as [n ps con fs cs]. cbn [e_contract]. unfold at0. cbn [node].
  destruct (node n); auto.
Qed.
Lemma the_type_eq v i l c : the_type (mkProgram v i l c) =
      match node c with
      | mkContractDefinition _ ps _ _ _ =>
          match node ps with
          | mkComponentParameters [q] =>
              match node q with mkParameterPair ty => match node ty with mkTypedIdentifier _ a => match node a with mkTypeAnnotation t => Some (e_type (node t)) end end end
          | _ => None
          end
      end.
Proof.
  unfold the_type. cbn [e_program at0 node]. destruct (node c) as [n ps con fs cs]. cbn [e_contract at0 node].
  destruct (node ps) as [[|q [|]]]; try reflexivity. cbn [e_params map at0 node]. destruct (node q) as [ty]. cbn [e_pair at0 node].
  destruct (node ty) as [x a]. cbn [e_typed at0 node]. destruct (node a). reflexivity.
Qed.
Section Deep.
  Context (debug : stack_object -> str).
  Notation B := (budgeted debug).
  Lemma nested_fuel d : forall t k s, nested d t -> visit B d (AScillaType t) (k, s) = Fuel.
  Proof.
    induction d as [|d IH]; intros t k s H; [reflexivity|]. destruct H as (u & -> & H).
    change (visit B (S d)) with (visit_node B (visit B d)). unfold visit_node, standard, bind_res. cbn [emit budgeted lsr_emit].
    unfold bind at 1. unfold bind_res. unfold spend. cbn [fst snd]. destruct k as [|k]; [reflexivity|].
    unfold bind, bind_res, lwvisit. rewrite IH by exact H. reflexivity.
  Qed.
  Lemma nested_le d : forall e t, e <= d -> nested d t -> nested e t.
  Proof.
    induction d as [|d IH]; intros [|e] t He H; [exact I|lia|exact I|]. destruct H as (u & -> & H). exists u. split; [reflexivity|]. apply IH; [lia|exact H].
  Qed.

  Definition burns {A} (m : M bstate A) : Prop := forall s, m s = Fuel.
  Definition goes {A} (m : M bstate A) : Prop := forall s, m s = Fuel \/ exists a s', m s = Ret (Ok a) s'.
  Lemma burns_res {A C} (m : M bstate A) (k : result A -> M bstate C) : burns m -> burns (bind_res m k).
  Proof. intros H s. unfold bind_res. now rewrite H. Qed.
  Lemma burns_now {A C} (m : M bstate A) (k : A -> M bstate C) : burns m -> burns (bind m k).
  Proof. apply burns_res. Qed.
  Lemma burns_later {A C} (m : M bstate A) (k : A -> M bstate C) : goes m -> (forall a, burns (k a)) -> burns (bind m k).
  Proof. intros H H2 s. unfold bind, bind_res. destruct (H s) as [->|(a & s' & ->)]; [reflexivity|apply H2]. Qed.
  Lemma burns_res_later {A C} (m : M bstate A) (k : result A -> M bstate C) : goes m -> (forall a, burns (k (Ok a))) -> burns (bind_res m k).
  Proof. intros H H2 s. unfold bind_res. destruct (H s) as [->|(a & s' & ->)]; [reflexivity|apply H2]. Qed.
  Lemma goes_spend : goes spend.
  Proof. intros [[|k] s]; cbn; eauto. Qed.
  Lemma goes_bind {A C} (m : M bstate A) (k : A -> M bstate C) : goes m -> (forall a, goes (k a)) -> goes (bind m k).
  Proof. intros H1 H2 s. unfold bind, bind_res. destruct (H1 s) as [->|(a & s' & ->)]; [auto|apply H2]. Qed.
  Lemma goes_ret {A} (a : A) : goes (ret a).
  Proof. intros s. right. exists a, s. reflexivity. Qed.
  Lemma burns_visit0 n : burns (visit B 0 n).
  Proof. intro s. reflexivity. Qed.
  (** a node whose [Enter] burns, and one that hands on to its children *)
  Lemma burns_enter f n : match n with AAddressType _ => False | _ => True end ->
    burns (lsr_emit debug blift (visit B f) Enter n) -> burns (visit B (S f) n).
  Proof.
    intros Hn H. change (visit B (S f)) with (visit_node B (visit B f)).
    assert (G : burns (standard (fun m => emit B (visit B f) m n) (children B (visit B f) n))).
    { unfold standard. apply burns_res. cbn [emit budgeted]. apply burns_later; [apply goes_spend|intro; exact H]. }
    destruct n; try exact G. contradiction.
  Qed.
  Lemma burns_kids f n : match n with AAddressType _ => False | _ => True end ->
    lsr_emit debug blift (visit B f) Enter n = ret Continue -> burns (children B (visit B f) n) -> burns (visit B (S f) n).
  Proof.
    intros Hn H1 H. change (visit B (S f)) with (visit_node B (visit B f)).
    assert (G : burns (standard (fun m => emit B (visit B f) m n) (children B (visit B f) n))).
    { unfold standard. cbn [emit budgeted]. rewrite H1. intros [k s]. unfold bind_res at 1. unfold bind at 1. unfold bind_res at 1.
      destruct (goes_spend (k, s)) as [->|(a & s' & ->)]; [reflexivity|]. cbn [ret]. revert s'. apply burns_now, H. }
    destruct n; try exact G. contradiction.
  Qed.
  Lemma burns_wm {A} f (inj : A -> anynode) w : burns (visit B f (inj (node w))) -> burns (visit_wm B (visit B f) inj w).
  Proof. intros H s. unfold visit_wm. cbn [push_source_position budgeted]. now rewrite H. Qed.
  Lemma goes_name f s : goes (visit B f (ATypeNameIdentifier (TypeOrEnumLikeIdentifier s))).
  Proof.
    destruct f as [|f]; [intro; auto|]. change (visit B (S f)) with (visit_node B (visit B f)). unfold visit_node, standard.
    intros [[|k] st]; [left; reflexivity|right]. eexists _, _. reflexivity.
  Qed.

  Lemma burns_program d p k : e_program p = e_program (deep_program d) -> emit_within debug d k p = Fuel.
  Proof.
    intro E. assert (E1 : the_type p = Some (e_type (deep_type d))) by (unfold the_type; rewrite E; reflexivity). assert (E2 : plainly p) by (apply erase_plainly; rewrite E; exact I).
    clear E. destruct p as [v i l c]. unfold emit_within. generalize (k, sr_default). change (burns (visit B d (AContractDefinition (node c)))).
    rewrite the_type_eq in E1. cbn [plainly] in E2.
    destruct (node c) as [n ps con fs cs]. destruct (node n) as [b| |nm] eqn:Enn; try contradiction.
    destruct (node ps) as [ls] eqn:Eps. destruct ls as [|q [|q2 ls]]; try discriminate. destruct (node q) as [ty] eqn:Eq.
    destruct (node ty) as [x a] eqn:Ety. destruct (node a) as [t] eqn:Ea. injection E1 as Ep.
    apply nested_erase in Ep.
    destruct d as [|d]; [apply burns_visit0|]. apply burns_enter; [exact I|]. cbn [lsr_emit].
    apply burns_later; [unfold lwvisit; rewrite Enn; apply goes_name|intros _]. apply burns_later; [intros [k0 s0]; right; eexists _, _; reflexivity|intros _].
    apply burns_now. unfold lwvisit. rewrite Eps.
    destruct d as [|d]; [apply burns_visit0|]. apply burns_enter; [exact I|]. cbn [lsr_emit lemit_init_params]. apply burns_now, burns_now. unfold lwvisit. rewrite Eq.
    destruct d as [|d]; [apply burns_visit0|]. apply burns_kids; [exact I|reflexivity|]. cbn [children]. unfold kid_of. apply burns_now, burns_wm. rewrite Ety.
    destruct d as [|d]; [apply burns_visit0|]. apply burns_enter; [exact I|]. cbn [lsr_emit]. apply burns_now. unfold lwvisit. rewrite Ea.
    destruct d as [|d]; [apply burns_visit0|]. apply burns_kids; [exact I|reflexivity|]. cbn [children]. unfold kid_of. apply burns_now, burns_wm.
    intros [k0 s0]. apply nested_fuel. apply (nested_le (S (S (S (S (S d)))))); [lia|exact Ep].
  Qed.
End Deep.

(** No bound on the nesting suffices for all texts: for every [d] a text of
    [2 d + 9] tokens is accepted for which [d] nested calls are not enough,
    however many visits are allowed. *)
Theorem C58_nesting_is_not_bounded : forall U debug d, exists text toks p,
  tokens_of U text = (toks, LEof) /\ List.length toks = 2 * d + 9 /\
  from_str U debug text = RValue (mkContract (lit "C") [mkField (lit "x") Int32] [] []) /\
  parse_str U Program text = POk p /\
  forall visits, emit_within debug d visits p = Fuel.
Proof.
  intros U debug d. pose proof (spaced_written U _ (deep_wf d)) as Hw. assert (Hw' : written U (canonical (write Program (deep_program d))) (spaced (deep_tokens d))) by (rewrite deep_program_written; exact Hw).
  destruct (C42_any_layout U Program (deep_program d) _ (deep_writable d) Hw') as (p & Hp & He).
  exists (spaced (deep_tokens d)), (deep_tokens d), p. split; [apply written_tokens, Hw|]. split.
  { unfold deep_tokens. rewrite !app_length, !repeat_length. cbn [List.length]. lia. }
  split; [|split; [exact Hp|]].
  - apply (C36_any_layout U debug _ (deep_program d) (mkDescription (lit "C") [(lit "x", N0 "Int32")] [] [])).
    + apply deep_writable.
    + split; [reflexivity|]. split; [|split; constructor]. constructor; [|constructor]. split; [reflexivity|]. apply deep_says.
    + split; [reflexivity|]. split; [|split; constructor]. apply denote_list_iff. vm_compute. reflexivity.
    + exact Hw'.
  - intro k. apply burns_program. exact He.
Qed.
(** But [4 n] nested calls suffice for a text of [n] tokens: [C57_visits]. *)
Theorem C58_nesting_is_linear : forall U debug text p toks visits,
  parse_str U Program text = POk p -> tokens_of U text = (toks, LEof) -> 8 * List.length toks <= visits ->
  emit_within debug (4 * List.length toks) visits p <> Fuel.
Proof.
  intros U debug text p toks k Hp Ht Hk E. destruct (C57_visits U debug text p Hp) as (toks' & Ht' & _ & H). rewrite Ht in Ht'. injection Ht' as <-.
  specialize (H (4 * List.length toks) k (le_n _) Hk). rewrite E in H. exact H.
Qed.
