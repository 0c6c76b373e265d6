(** Properties C17-C25 and C36: what [Contract::from_str] returns for the
    contract that was written.  The specification is EmitSpec.v: [says_type]
    reads a type annotation, [denotes] gives its [Type], [*_decls] list the
    declarations of a contract node in source order.  That the AST is what the
    source says is C11 and C41. *)
From Verif Require Import Chars Lexer LexSpec LexFacts LexWritten PropLexer Ast Grammar Cfg Parser GrammarLink Types Visitor Emitter EmitInv
  Contract Erase EraseFacts EmitErase EmitSpec TypeFacts EmitTypes EmitProgram EmitSig EmitOk EmitSteps EmitFail PropParse2
  Print PrintFacts PrintRead PropPrint DerInv Spell SpellFacts Spaced.

(** the contract of a program *)
Definition contract_of (p : NodeProgram) : NodeContractDefinition := match p with mkProgram _ _ _ c => node c end.

Lemma ok_parts U debug text c : from_str U debug text = RValue c ->
  exists items p, lex U text = (items, LEof) /\ tokens_of U text = (map item_token items, LEof)
    /\ derives Program items p /\ parse_str U Program text = POk p /\ emit_program debug p = EOk c.
Proof.
  intro H. apply C37_ok in H. destruct H as (items & p & El & Hd & He). exists items, p.
  split; [exact El|]. split; [unfold tokens_of; rewrite El; reflexivity|]. split; [exact Hd|]. split; [|exact He].
  unfold parse_str. rewrite El. apply parse_complete, Hd.
Qed.
Lemma from_str_parsed U debug text p : parse_str U Program text = POk p -> from_str U debug text = emit_api debug p.
Proof. unfold from_str. intros ->. reflexivity. Qed.

(** ** C17 *)

(** [after k except None toks] (DerInv.v) lists the tokens that stand right
    after a keyword of kind [k], leaving out the keywords that themselves stand
    right after one of the kinds in [except].  [contract] after [with] is an
    address type; every other [contract] starts the contract, and there is
    exactly one. *)
Theorem C17_contract_name : forall U debug text c,
  from_str U debug text = RValue c ->
  exists toks n, tokens_of U text = (toks, LEof)
    /\ after KContract [KWith] None toks = [n] /\ c_name c = token_text n.
Proof.
  intros U debug text c H. destruct (ok_parts _ _ _ _ H) as (items & p & _ & Ht & Hd & _ & He).
  destruct (contract_keyword items p Hd) as (n & Ha & Hn). destruct (emit_ok debug p c He) as [Hc _]. cbv zeta in Hc.
  exists (map item_token items), n. split; [exact Ht|]. split; [exact Ha|]. rewrite Hc. exact Hn.
Qed.

(** ** C18-C20 *)

(** The declaration [d] is reported as [f]: same name, and the type its
    annotation denotes, whatever [x] the annotation says. *)
Definition reported_as (d : NodeTypedIdentifier) (f : field) : Prop :=
  field_name f = typed_name d /\ forall x, says_type (typed_type d) x -> denotes x (field_type f).

Theorem C18_init_params : forall U debug text c,
  from_str U debug text = RValue c ->
  exists p, parse_str U Program text = POk p
    /\ Forall2 reported_as (contract_param_decls (contract_of p)) (c_init_params c).
Proof.
  intros U debug text c H. destruct (ok_parts _ _ _ _ H) as (items & p & _ & Ht & Hd & Hp & He).
  exists p. split; [exact Hp|]. apply (emit_ok debug p c He).
Qed.

Theorem C19_fields : forall U debug text c,
  from_str U debug text = RValue c ->
  exists p, parse_str U Program text = POk p
    /\ Forall2 reported_as (field_decls (contract_of p)) (c_fields c).
Proof.
  intros U debug text c H. destruct (ok_parts _ _ _ _ H) as (items & p & _ & Ht & Hd & Hp & He).
  exists p. split; [exact Hp|]. apply (emit_ok debug p c He).
Qed.

Lemma reported_names ds fs : Forall2 reported_as ds fs -> map field_name fs = map typed_name ds.
Proof. induction 1 as [|d f ds fs [Hn _] _ IH]; cbn; [reflexivity|]. rewrite Hn, IH. reflexivity. Qed.

(** In terms of the source: the fields are the names after the [field]
    keywords that do not belong to an address type, one for one. *)
Theorem C19_field_names : forall U debug text c,
  from_str U debug text = RValue c ->
  exists toks, tokens_of U text = (toks, LEof)
    /\ map field_name (c_fields c) = map token_text (after KField [KContract; KComma] None toks).
Proof.
  intros U debug text c H. destruct (ok_parts _ _ _ _ H) as (items & p & _ & Ht & Hd & Hp & He).
  exists (map item_token items). split; [exact Ht|]. rewrite <- (field_keyword items p Hd).
  apply reported_names. apply (emit_ok debug p c He).
Qed.

Theorem C20_transitions : forall U debug text c,
  from_str U debug text = RValue c ->
  exists p, parse_str U Program text = POk p
    /\ Forall2 (fun d t => t_name t = fst d /\ Forall2 reported_as (snd d) (t_params t))
               (transition_decls (contract_of p)) (c_transitions c).
Proof.
  intros U debug text c H. destruct (ok_parts _ _ _ _ H) as (items & p & _ & Ht & Hd & Hp & He).
  exists p. split; [exact Hp|]. apply (emit_ok debug p c He).
Qed.

(** In terms of the source: one transition per [transition] keyword, named by
    the token after it; [procedure] contributes nothing. *)
Theorem C20_transition_names : forall U debug text c,
  from_str U debug text = RValue c ->
  exists toks, tokens_of U text = (toks, LEof)
    /\ map t_name (c_transitions c) = map token_text (after KTransition [] None toks).
Proof.
  intros U debug text c H. destruct (ok_parts _ _ _ _ H) as (items & p & _ & Ht & Hd & Hp & He).
  exists (map item_token items). split; [exact Ht|]. rewrite <- (transition_keyword items p Hd).
  destruct (emit_ok debug p c He) as (_ & _ & _ & Hts). clear -Hts. induction Hts as [|d t ds ts [Hn _] _ IH]; cbn; [reflexivity|].
  rewrite Hn, IH. reflexivity.
Qed.

(** ** C21 *)

(** [signature] (EmitSig.v) keeps the contract name, the parameters, the
    declarations of the fields and the names and parameters of the transitions,
    all without positions. *)
Theorem C21_only_the_signature_matters : forall U U' debug text text' p p',
  parse_str U Program text = POk p -> parse_str U' Program text' = POk p' ->
  signature p = signature p' ->
  from_str U debug text = from_str U' debug text'.
Proof.
  intros U U' debug text text' p p' H H' Hs. rewrite (from_str_parsed _ _ _ _ H), (from_str_parsed _ _ _ _ H').
  unfold emit_api. rewrite (emit_signature debug p p' Hs). reflexivity.
Qed.

(** ** C22, C24, C36: described contracts *)

(** [described c d] (EmitSpec.v): every declaration of [c] says what [d] lists;
    [description_denotes d c]: [c] is the contract value [d] stands for. *)
Theorem C36_described_program : forall U debug text p d,
  parse_str U Program text = POk p -> described (contract_of p) d ->
  (forall c, from_str U debug text = RValue c <-> description_denotes d c)
  /\ ((forall c, ~ description_denotes d c) -> from_str U debug text = RPanic)
  /\ (forall e, from_str U debug text <> RError e).
Proof.
  intros U debug text p d Hp Hd. rewrite (from_str_parsed _ _ _ _ Hp). unfold emit_api.
  rewrite (emit_described debug p d Hd). split; [|split].
  - intro c. rewrite denote_description_iff. destruct (denote_description d); split; intro H; congruence.
  - intro H. destruct (denote_description d) as [c|] eqn:E; [|reflexivity]. exfalso. apply (H c). apply denote_description_iff, E.
  - intros e. destruct (denote_description d); discriminate.
Qed.

(** Writing a described program down, in any layout, and parsing it gives the
    described contract. *)
Theorem C36_any_layout : forall U debug text p d c,
  writable Program p = true -> described (contract_of p) d -> description_denotes d c ->
  written U (canonical (write Program p)) text ->
  from_str U debug text = RValue c.
Proof.
  intros U debug text p d c Hk Hd Hc Hw. destruct (C42_any_layout U Program p text Hk Hw) as (p' & Hp' & He).
  rewrite (from_str_parsed _ _ _ _ Hp'). unfold emit_api. change (erase Program) with e_program in He.
  rewrite <- (emit_erase debug p'), He, emit_erase, (emit_described debug p d Hd).
  apply denote_description_iff in Hc. rewrite Hc. reflexivity.
Qed.

(** The same without mentioning ASTs: [spells d toks] (Spell.v) says that the
    tokens [toks] are a contract with the declarations listed in [d], the rest
    (version, imports, library, constraint, initialisers, bodies, procedures)
    being arbitrary. *)
Theorem C36_spelled_contract : forall U debug text d c toks,
  spells d toks -> description_denotes d c -> written U toks text ->
  from_str U debug text = RValue c.
Proof.
  intros U debug text d c toks Hs Hc Hw. destruct (spells_program d toks Hs) as (p & Hk & Hd & <-).
  exact (C36_any_layout U debug text p d c Hk Hd Hc Hw).
Qed.
Theorem C36_spelled_unsupported : forall U debug text d toks,
  spells d toks -> (forall c, ~ description_denotes d c) -> written U toks text ->
  from_str U debug text = RPanic.
Proof.
  intros U debug text d toks Hs Hc Hw. destruct (spells_program d toks Hs) as (p & Hk & Hd & <-).
  destruct (C42_any_layout U Program p text Hk Hw) as (p' & Hp' & He).
  rewrite (from_str_parsed _ _ _ _ Hp'). unfold emit_api. change (erase Program) with e_program in He.
  rewrite <- (emit_erase debug p'), He, emit_erase, (emit_described debug p d Hd).
  destruct (denote_description d) as [c|] eqn:E; [|reflexivity]. apply denote_description_iff in E. destruct (Hc c E).
Qed.

(** In particular with the tokens separated by single spaces. *)
Corollary C36_spelled_with_spaces : forall U debug d c toks,
  spells d toks -> description_denotes d c -> Forall wf_token toks ->
  from_str U debug (spaced toks) = RValue c.
Proof. intros U debug d c toks Hs Hc Hw. exact (C36_spelled_contract U debug _ d c toks Hs Hc (spaced_written U toks Hw)). Qed.

(** A sufficient condition that can be checked by counting arguments. *)
Fixpoint supported (x : texp) : Prop :=
  match x with
  | TName n args =>
      (fix all l := match l with [] => True | a :: r => supported a /\ all r end) args
      /\ (n = lit "Option" \/ n = lit "List" -> (1 <= List.length args)%nat)
      /\ (n = lit "Pair" \/ n = lit "Map" -> (2 <= List.length args)%nat)
  | TAddr n _ fs =>
      n = lit "ByStr20"
      /\ (fix all (l : list (str * texp)) := match l with [] => True | (_, a) :: r => supported a /\ all r end) fs
  | TUnsupported => False
  end.

Fixpoint texp_rect' (P : texp -> Prop)
  (Hn : forall n args, Forall P args -> P (TName n args))
  (Ha : forall n k fs, Forall (fun f => P (snd f)) fs -> P (TAddr n k fs))
  (Hu : P TUnsupported) (x : texp) : P x :=
  match x with
  | TName n args => Hn n args ((fix go l : Forall P l :=
      match l with [] => Forall_nil _ | a :: r => Forall_cons _ (texp_rect' P Hn Ha Hu a) (go r) end) args)
  | TAddr n k fs => Ha n k fs ((fix go l : Forall (fun f => P (snd f)) l :=
      match l with [] => Forall_nil _ | (i, a) :: r => Forall_cons (i, a) (texp_rect' P Hn Ha Hu a) (go r) end) fs)
  | TUnsupported => Hu
  end.

Lemma supported_args args : (fix all l := match l with [] => True | a :: r => supported a /\ all r end) args <-> Forall supported args.
Proof.
  induction args as [|a r IH]; [split; constructor|]. rewrite IH. split.
  - intros [H1 H2]. constructor; assumption.
  - intro H. inversion H; auto.
Qed.
Lemma sound_of x t : denotes x t -> sound x.
Proof. intro H. apply sound_iff. apply denotes_iff in H. apply H. Qed.
Lemma sounds_all args : Forall (fun a => exists t, denotes a t) args -> sounds args.
Proof. induction 1 as [|a r [t Ht] _ IH]; constructor; [eapply sound_of, Ht|exact IH]. Qed.
Lemma sounds_app l1 l2 : sounds (l1 ++ l2) -> sounds l1 /\ sounds l2.
Proof.
  induction l1 as [|a l1 IH]; cbn; intro H; [split; [constructor|exact H]|]. inversion H; subst. destruct (IH H3). split; [constructor|]; assumption.
Qed.

Theorem C24_supported_denotes : forall x, supported x -> exists t, denotes x t.
Proof.
  apply (texp_rect' (fun x => supported x -> exists t, denotes x t)).
  - intros n args IH H. cbn [supported] in H. destruct H as (Hs & H1 & H2). apply supported_args in Hs.
    assert (Hd : Forall (fun a => exists t, denotes a t) args).
    { clear H1 H2. induction IH; [constructor|]. inversion Hs; subst. constructor; auto. }
    clear IH Hs. pose proof (sounds_all args Hd) as Hss.
    destruct (str_dec n (lit "Option")) as [->|No].
    { destruct (snoc_inv args) as [->|(r & a & ->)]; [specialize (H1 (or_introl eq_refl)); cbn in H1; lia|].
      apply Forall_app in Hd. destruct Hd as [_ Hd]. inversion Hd as [|? ? [t Ht] _]; subst. apply sounds_app in Hss.
      exists (TyOption t). apply d_option; [apply Hss|exact Ht]. }
    destruct (str_dec n (lit "List")) as [->|Nl].
    { destruct (snoc_inv args) as [->|(r & a & ->)]; [specialize (H1 (or_intror eq_refl)); cbn in H1; lia|].
      apply Forall_app in Hd. destruct Hd as [_ Hd]. inversion Hd as [|? ? [t Ht] _]; subst. apply sounds_app in Hss.
      exists (TyList t). apply d_list; [apply Hss|exact Ht]. }
    assert (Two : n = lit "Pair" \/ n = lit "Map" -> exists r a b ta tb, args = r ++ [a; b] /\ denotes a ta /\ denotes b tb /\ sounds r).
    { intro Hn. specialize (H2 Hn). destruct (snoc_inv args) as [->|(r & b & ->)]; [cbn in H2; lia|].
      destruct (snoc_inv r) as [->|(r' & a & ->)]; [cbn in H2; lia|].
      rewrite <- app_assoc in Hd, Hss. apply Forall_app in Hd. destruct Hd as [_ Hd]. inversion Hd as [|? ? [ta Ha] Hd2]; subst.
      inversion Hd2 as [|? ? [tb Hb] _]; subst. apply sounds_app in Hss. exists r', a, b, ta, tb. rewrite <- app_assoc. tauto. }
    destruct (str_dec n (lit "Pair")) as [->|Np].
    { destruct (Two (or_introl eq_refl)) as (r & a & b & ta & tb & -> & Ha & Hb & Hr). exists (TyPair ta tb). apply d_pair; assumption. }
    destruct (str_dec n (lit "Map")) as [->|Nm].
    { destruct (Two (or_intror eq_refl)) as (r & a & b & ta & tb & -> & Ha & Hb & Hr). exists (TyMap ta tb). apply d_map; assumption. }
    destruct (str_dec n (lit "ByStr20")) as [->|N20]; [exists ByStr20; apply d_bystr20, Hss|].
    destruct (str_assoc n base_types) as [t|] eqn:Eb; [exists t; apply d_base; [apply base_assoc, Eb|exact Hss]|].
    destruct (size_of n) as [k|] eqn:Ek; [exists (ByStrX k); apply d_bystrx; [apply size_of_spec; assumption|exact Hss]|].
    exists (Other n). apply d_other; [apply base_assoc_none, Eb| |intros k Hk|exact Hss].
    + unfold constructor_name. tauto.
    + apply size_of_spec in Hk; [congruence|exact N20].
  - intros n k fs IH H. cbn [supported] in H. destruct H as [-> H].
    assert (Hf : exists fs', denote_fields fs fs').
    { induction IH as [|[i a] r Ha IHr IH']; [exists []; constructor|]. destruct H as [Hs Hr]. destruct (IH' Hr) as (fs' & Hfs).
      destruct (Ha Hs) as (t & Ht). exists (mkField i t :: fs'). constructor; assumption. }
    destruct Hf as (fs' & Hfs). exists (ByStr20With k fs'). apply d_address, Hfs.
  - intros [].
Qed.

Lemma supported_fields l : Forall (fun nx : str * texp => supported (snd nx)) l -> exists fs, denote_fields l fs.
Proof.
  induction 1 as [|[n x] l H _ (fs & IH)]; [exists []; constructor|]. destruct (C24_supported_denotes x H) as (t & Ht).
  exists (mkField n t :: fs). constructor; assumption.
Qed.

(** Emission of a program all of whose types are supported succeeds. *)
Theorem C24_supported_programs_succeed : forall U debug text p d,
  parse_str U Program text = POk p -> described (contract_of p) d ->
  Forall (fun nx => supported (snd nx)) (d_params d) -> Forall (fun nx => supported (snd nx)) (d_fields d) ->
  Forall (fun t => Forall (fun nx => supported (snd nx)) (snd t)) (d_transitions d) ->
  exists c, from_str U debug text = RValue c.
Proof.
  intros U debug text p d Hp Hd H1 H2 H3. destruct (supported_fields _ H1) as (ps & Hps). destruct (supported_fields _ H2) as (fs & Hfs).
  assert (Hts : exists ts, Forall2 (fun dt t => t_name t = fst dt /\ denote_fields (snd dt) (t_params t)) (d_transitions d) ts).
  { clear -H3. induction H3 as [|[n l] r Hx _ (ts & IH)]; [exists []; constructor|]. destruct (supported_fields _ Hx) as (fs & Hf).
    exists (mkTransition n fs :: ts). constructor; [split; [reflexivity|exact Hf]|exact IH]. }
  destruct Hts as (ts & Hts). exists (mkContract (d_name d) ps fs ts).
  destruct (C36_described_program U debug text p d Hp Hd) as [Hv _]. apply Hv. repeat split; assumption.
Qed.

(** ** C22: the type of a single field, in any layout *)
Definition one_field (n f : str) (t : NodeScillaType) (e : NodeFullExpression) : NodeProgram :=
  mkProgram (w0 (lit "0")) None None (w0 (mkContractDefinition (w0 (TypeOrEnumLikeIdentifier (w0 n))) (w0 (mkComponentParameters [])) None
    [w0 (mkContractField (w0 (mkTypedIdentifier (w0 f) (w0 (mkTypeAnnotation (w0 t))))) (w0 e))] [])).
Definition one_field_tokens (n f : str) (t e : list token) : list token :=
  [TScillaVersion; TNumber (lit "0"); TContract; TCustomIdentifier n; TOpenParen; TCloseParen; TField; TIdentifier f; TColon]
  ++ t ++ TEquals :: e.

Lemma one_field_written n f t e :
  canonical (write Program (one_field n f t e)) = one_field_tokens n f (canonical (w_type t)) (canonical (w_expr e)).
Proof.
  unfold one_field_tokens, canonical. cbn -[lit]. rewrite ?app_nil_r, ?flat_map_app. cbn -[lit]. rewrite ?app_nil_r. reflexivity.
Qed.

Theorem C22_field_type : forall U debug n f t e x ty text,
  k_type t = true -> k_expr e = true -> says_type t x -> denotes x ty ->
  written U (one_field_tokens n f (canonical (w_type t)) (canonical (w_expr e))) text ->
  from_str U debug text = RValue (mkContract n [] [mkField f ty] []).
Proof.
  intros U debug n f t e x ty text Ht He Hs Hd Hw.
  apply (C36_any_layout U debug text (one_field n f t e) (mkDescription n [] [(f, x)] [])).
  - cbn -[lit]. rewrite Ht, He. reflexivity.
  - repeat split; try constructor; try constructor; try reflexivity. exact Hs.
  - repeat split; try constructor; try constructor; assumption.
  - rewrite one_field_written. exact Hw.
Qed.

(** The same for a type expression instead of an AST: [spell x] (Spell.v) is
    the tokens of [x], arguments parenthesised. *)
Theorem C22_spelled_type : forall U debug n f e x ty text,
  spellable x = true -> k_expr e = true -> denotes x ty ->
  written U (one_field_tokens n f (spell x) (canonical (w_expr e))) text ->
  from_str U debug text = RValue (mkContract n [] [mkField f ty] []).
Proof.
  intros U debug n f e x ty text Hs He Hd Hw. destruct (spell_says x Hs) as [(t & Ht & Hx & Hwt) _].
  rewrite <- Hwt in Hw. exact (C22_field_type U debug n f t e x ty text Ht He Hx Hd Hw).
Qed.

(** ** C23 *)

(** Visiting a type pushes one type and touches nothing else; which type is
    pushed does not depend on the state, and converting it gives what the
    annotation denotes. *)
Theorem C23_type_pushes_one : forall debug t x ty, says_type t x -> denotes x ty ->
  exists st, type_from st = Some ty /\
    forall fuel s, (depth_type t <= fuel)%nat ->
      visit (sr_emitter debug) fuel (AScillaType t) s
      = Ret (Ok Continue) (mkst (SoTypeDefinition st :: es_stack s) (es_contract s)).
Proof.
  intros debug t x ty Hs Hd. apply denotes_iff in Hd. destruct Hd as [Hb Hf]. exists (sr x). split; [exact Hf|].
  intros fuel s Hfuel. rewrite (visit_type debug fuel t x s Hs Hfuel). unfold type_out. rewrite Hb. reflexivity.
Qed.
Theorem C23_declaration_pushes_one : forall debug d x ty, says_type (typed_type d) x -> denotes x ty ->
  forall fuel s, (depth_typed d <= fuel)%nat ->
    visit (sr_emitter debug) fuel (ATypedIdentifier d) s
    = Ret (Ok Continue) (mkst (VariableDeclaration (mkField (typed_name d) ty) :: es_stack s) (es_contract s)).
Proof.
  intros debug d x ty Hs Hd fuel s Hfuel.
  rewrite (visit_typed debug fuel d (typed_name d, x) s (conj eq_refl Hs) Hfuel). unfold decl_out. cbn [fst snd].
  apply denote_iff in Hd. rewrite Hd. reflexivity.
Qed.
(** A transition leaves the stack as it found it. *)
Theorem C23_transition_restores_the_stack : forall debug n ps b xs fs,
  Forall2 says_decl (param_decls (node ps)) xs -> denote_fields xs fs ->
  forall fuel s, (1 + depth_params (node ps) <= fuel)%nat ->
    visit (sr_emitter debug) fuel (ATransitionDefinition (mkTransitionDefinition n ps b)) s
    = Ret (Ok Continue) (mkst (es_stack s)
        (mkContract (c_name (es_contract s)) (c_init_params (es_contract s)) (c_fields (es_contract s))
          (c_transitions (es_contract s) ++ [mkTransition (component_name (node n)) fs]))).
Proof.
  intros debug n ps b xs fs Hs Hd fuel s Hfuel. destruct fuel as [|fuel]; [lia|].
  rewrite (transition_out debug fuel n ps b (component_name (node n), xs) s (conj eq_refl Hs) ltac:(lia)). cbn [fst snd].
  apply denote_list_iff in Hd. rewrite Hd. reflexivity.
Qed.
(** So does a field. *)
Theorem C23_field_restores_the_stack : forall debug i e x ty,
  says_type (typed_type (node i)) x -> denotes x ty ->
  forall fuel s, (2 + depth_field (mkContractField i e) <= fuel)%nat ->
    visit (sr_emitter debug) fuel (AContractField (mkContractField i e)) s
    = Ret (Ok Continue) (mkst (es_stack s)
        (mkContract (c_name (es_contract s)) (c_init_params (es_contract s))
          (c_fields (es_contract s) ++ [mkField (typed_name (node i)) ty]) (c_transitions (es_contract s)))).
Proof.
  intros debug i e x ty Hs Hd fuel s Hfuel.
  pose proof (field_out debug fuel (w0 (mkContractField i e)) (typed_name (node i), x) s (conj eq_refl Hs)) as H.
  cbn [node w0] in H. rewrite H by lia. cbn [fst snd]. apply denote_iff in Hd. rewrite Hd. reflexivity.
Qed.

(** ** C25 *)

(** The declarations in the order parameters, fields, transition parameters
    ([all_decls]): the first one whose annotation denotes no type makes
    [from_str] panic, whatever follows it. *)
Theorem C25_first_undenoted_type_panics : forall U debug text p pre d post x,
  parse_str U Program text = POk p ->
  all_decls (contract_of p) = pre ++ d :: post ->
  Forall (fun e => exists y t, says_type (typed_type e) y /\ denotes y t) pre ->
  says_type (typed_type d) x -> (forall t, ~ denotes x t) ->
  from_str U debug text = RPanic.
Proof.
  intros U debug text p pre d post x Hp Ha Hpre Hs Hn. rewrite (from_str_parsed _ _ _ _ Hp). unfold emit_api.
  rewrite (emit_first_failure debug p pre d post EPanic Ha); [reflexivity| |].
  - eapply Forall_impl; [|exact Hpre]. intros e (y & t & Hy & Ht).
    apply (clean_described debug e (typed_name e) y t); [split; [reflexivity|exact Hy]|exact Ht].
  - intro s. cbn [fails_with]. rewrite (decl_described debug d (typed_name d, x) s (conj eq_refl Hs)). cbn [snd].
    destruct (denote x) as [t|] eqn:E; [|reflexivity]. apply denote_iff in E. destruct (Hn t E).
Qed.

(** Wherever it stands and whatever the other declarations are, such a
    declaration is never accepted. *)
Theorem C25_undenoted_type_never_accepted : forall U debug text p d x c,
  parse_str U Program text = POk p -> In d (all_decls (contract_of p)) ->
  says_type (typed_type d) x -> (forall t, ~ denotes x t) ->
  from_str U debug text <> RValue c.
Proof.
  intros U debug text p d x c Hp Hi Hs Hn H. rewrite (from_str_parsed _ _ _ _ Hp) in H. unfold emit_api in H.
  destruct (emit_program debug p) as [c'| | |] eqn:Ee; try discriminate. injection H as ->.
  destruct (emit_ok debug p c Ee) as (_ & H1 & H2 & H3). fold (contract_of p) in H1, H2, H3.
  assert (Hok : forall ds fs, Forall2 decl_ok ds fs -> ~ In d ds).
  { intros ds fs H. induction H as [|e f ds fs [_ He] _ IH]; [auto|]. intros [->|Hd]; [exact (Hn _ (He x Hs))|exact (IH Hd)]. }
  unfold all_decls in Hi. apply in_app_or in Hi. destruct Hi as [Hi|Hi]; [exact (Hok _ _ H1 Hi)|].
  apply in_app_or in Hi. destruct Hi as [Hi|Hi]; [exact (Hok _ _ H2 Hi)|].
  apply in_flat_map in Hi. destruct Hi as (t & Ht & Hi). clear -H3 Ht Hi Hok.
  induction H3 as [|t' u ts us [_ Hu] _ IH]; [destruct Ht|]. destruct Ht as [->|Ht]; [exact (Hok _ _ Hu Hi)|exact (IH Ht)].
Qed.

(** Which types denote nothing: those that mention an unsupported type
    anywhere. *)
Inductive mentions_unsupported : texp -> Prop :=
| mu_here : mentions_unsupported TUnsupported
| mu_arg n args a : In a args -> mentions_unsupported a -> mentions_unsupported (TName n args)
| mu_field n k fs i a : In (i, a) fs -> mentions_unsupported a -> mentions_unsupported (TAddr n k fs).
Theorem C25_unsupported_denotes_nothing : forall x, mentions_unsupported x -> forall t, ~ denotes x t.
Proof.
  assert (H : forall x, mentions_unsupported x -> ~ sound x).
  { induction 1 as [|n args a Ha _ IH|n k fs i a Ha _ IH]; intro Hs; inversion Hs; subst.
    - apply IH. clear -Ha H0. induction H0; [destruct Ha|]. destruct Ha as [<-|Ha]; auto.
    - apply IH. clear -Ha H0. induction fs as [|[j b] fs IHf] in fs', H0, Ha |- *; [destruct Ha|].
      inversion H0; subst. destruct Ha as [Ha|Ha]; [injection Ha as _ ->; eapply sound_of; eassumption|eauto]. }
  intros x Hx t Ht. exact (H x Hx (sound_of x t Ht)).
Qed.

(** Function types, polymorphic types and type variables, in particular. *)
Corollary C25_unsupported_types_panic : forall U debug text p pre d post,
  parse_str U Program text = POk p ->
  all_decls (contract_of p) = pre ++ d :: post ->
  Forall (fun e => exists y t, says_type (typed_type e) y /\ denotes y t) pre ->
  (exists a b, typed_type d = FunctionType a b) \/ (exists v t, typed_type d = PolyFunctionType v t)
    \/ (exists v, typed_type d = TypeVarType v) ->
  from_str U debug text = RPanic.
Proof.
  intros U debug text p pre d post Hp Ha Hpre Hd. apply (C25_first_undenoted_type_panics U debug text p pre d post TUnsupported Hp Ha Hpre).
  - destruct Hd as [(a & b & ->)|[(v & t & ->)|(v & ->)]]; constructor.
  - intros t Ht. inversion Ht.
Qed.

(** ** The hypotheses are met *)

(** two contract parameters, two fields with the same name, an address type
    with fields, a procedure between two transitions, and [contract] and
    [field] keywords inside address types *)
Definition shop := lit "scilla_version 0 library L let f = fun (a : ByStr20 with contract field x : Int32, field y : Bool end) => a
  contract Shop (o : ByStr20 with contract field x : Map String (Option Uint32), field y : Bool end, n : Pair (List Int32) ByStr33)
  with c => field m : Map ByStr20 (Map String (Map BNum (ByStr20 with end))) = Emp ByStr20 Int32 field m : T = x
  transition One (a : Uint128, b : Option (Map Int32 Bool)) accept end
  procedure Two (z : Int32) accept end
  transition three () end".
Definition shop_contract := mkContract (lit "Shop")
  [mkField (lit "o") (ByStr20With (lit "contract") [mkField (lit "x") (TyMap TyString (TyOption Uint32)); mkField (lit "y") TyBool]);
   mkField (lit "n") (TyPair (TyList Int32) (ByStrX 33))]
  [mkField (lit "m") (TyMap ByStr20 (TyMap TyString (TyMap BNum (ByStr20With [] [])))); mkField (lit "m") (Other (lit "T"))]
  [mkTransition (lit "One") [mkField (lit "a") Uint128; mkField (lit "b") (TyOption (TyMap Int32 TyBool))];
   mkTransition (lit "three") []].
Example C17_witness : from_str U_none no_debug shop = RValue shop_contract
  /\ after KContract [KWith] None (fst (tokens_of U_none shop)) = [TCustomIdentifier (lit "Shop")]
  /\ after KContract [] None (fst (tokens_of U_none shop)) = [TField; TCustomIdentifier (lit "Shop"); TField]
  /\ after KField [KContract; KComma] None (fst (tokens_of U_none shop)) = [TIdentifier (lit "m"); TIdentifier (lit "m")].
Proof. split; [|split; [|split]]; vm_compute; reflexivity. Qed.

Definition N0 (s : String.string) : texp := TName (lit s) [].
Definition shop_description := mkDescription (lit "Shop")
  [(lit "o", TAddr (lit "ByStr20") (lit "contract")
      [(lit "x", TName (lit "Map") [N0 "String"; TName (lit "Option") [N0 "Uint32"]]); (lit "y", N0 "Bool")]);
   (lit "n", TName (lit "Pair") [TName (lit "List") [N0 "Int32"]; N0 "ByStr33"])]
  [(lit "m", TName (lit "Map") [N0 "ByStr20"; TName (lit "Map") [N0 "String"; TName (lit "Map") [N0 "BNum"; TAddr (lit "ByStr20") [] []]]]);
   (lit "m", N0 "T")]
  [(lit "One", [(lit "a", N0 "Uint128"); (lit "b", TName (lit "Option") [TName (lit "Map") [N0 "Int32"; N0 "Bool"]])]);
   (lit "three", [])].
Lemma sf_cons' f i n m t x l xs : node f = mkAddressTypeField i t -> node i = VariableName n -> node n = m ->
  says_type (node t) x -> says_fields l xs -> says_fields (f :: l) ((m, x) :: xs).
Proof. intros Hf Hi <-. apply sf_cons with (i := i) (t := t); assumption. Qed.
Lemma sd_address' i n tn m fs xs : plain_name (node i) n -> node tn = m -> says_fields fs xs ->
  says_address (mkAddressType i tn fs) (TAddr n m xs).
Proof. intros H <-. apply sd_address, H. Qed.
Ltac says := repeat first [reflexivity | apply conj | eapply sf_cons' | eapply sd_address' | econstructor].
Example C36_witness : exists p, parse_str U_none Program shop = POk p /\ described (contract_of p) shop_description
  /\ description_denotes shop_description shop_contract /\ writable Program p = true.
Proof.
  eexists. split; [vm_compute; reflexivity|]. split; [|split].
  - vm_compute. says.
  - apply denote_description_iff. vm_compute. reflexivity.
  - vm_compute. reflexivity.
Qed.
(** [shop_description] spelled, with initialisers and bodies of our choice *)
Example C36_witness_spelled : exists toks, spells shop_description toks /\ Forall wf_token toks /\ (60 < List.length toks)%nat.
Proof.
  set (e := ExpressionAtomic (w0 (AtomicSid (w0 (VariableName (w0 (lit "x"))))))).
  set (b := mkComponentBody (Some (w0 (mkStatementBlock [Accept])))).
  eexists. split; [|split].
  - eapply (spells_contract shop_description (lit "0") [] [] _ []).
    + left. reflexivity.
    + left. reflexivity.
    + apply tnt_custom.
    + vm_compute. reflexivity.
    + left. reflexivity.
    + apply (sfs_cons _ e); [vm_compute; reflexivity|vm_compute; reflexivity|].
      apply (sfs_cons _ e); [vm_compute; reflexivity|vm_compute; reflexivity|]. apply sfs_nil.
    + apply (scs_transition _ (TCustomIdentifier (lit "One")) _ b); [right; constructor|vm_compute; reflexivity|vm_compute; reflexivity|].
      apply (scs_procedure (mkProcedureDefinition (w0 (WithRegularId (w0 (lit "p")))) (w0 (mkComponentParameters [])) (w0 b))); [reflexivity|].
      apply (scs_transition _ (TIdentifier (lit "three")) _ b); [left; reflexivity|vm_compute; reflexivity|vm_compute; reflexivity|].
      apply scs_nil.
  - apply wf_tokensb. vm_compute. reflexivity.
  - apply PeanoNat.Nat.ltb_lt. vm_compute. reflexivity.
Qed.
(** the supported fragment covers all of [shop] *)
Example C24_witness :
  Forall (fun nx => supported (snd nx)) (d_params shop_description) /\ Forall (fun nx => supported (snd nx)) (d_fields shop_description)
  /\ Forall (fun t => Forall (fun nx => supported (snd nx)) (snd t)) (d_transitions shop_description).
Proof.
  repeat first [exact I | apply conj | apply Forall_nil | apply Forall_cons | reflexivity | progress cbn -[lit]
    | intros [H|H]; first [discriminate H | repeat constructor]].
Qed.
Definition shop2 := lit "scilla_version 7 import X contract Shop (o : ByStr20 with contract field x : Map String (Option Uint32), field y : Bool end, n : Pair (List Int32) ByStr33)
  field m : Map ByStr20 (Map String (Map BNum (ByStr20 with end))) = fun (q : 'A) => q field m : T = builtin f ()
  procedure P () throw end
  transition One (a : Uint128, b : Option (Map Int32 Bool)) end transition three () x = y end".
Example C21_witness : exists p p', parse_str U_none Program shop = POk p /\ parse_str U_none Program shop2 = POk p'
  /\ signature p = signature p' /\ p <> p'.
Proof.
  eexists. eexists. split; [vm_compute; reflexivity|]. split; [vm_compute; reflexivity|]. split; [reflexivity|discriminate].
Qed.
(** [C22] at work: a nested type written with comments and without spaces *)
Example C22_witness : from_str U_none no_debug (lit "scilla_version 0 contract C() field f:Map(* k *)(Int32)(Pair(List(Map String Bool))(ByStr20 with contract field g:Option T end))=e")
  = RValue (mkContract (lit "C") [] [mkField (lit "f") (TyMap Int32 (TyPair (TyList (TyMap TyString TyBool))
      (ByStr20With (lit "contract") [mkField (lit "g") (TyOption (Other (lit "T")))])))] []).
Proof. vm_compute. reflexivity. Qed.
Definition poly := lit "scilla_version 0 contract C (a : Int32) field f : Option Int32 = e field g : Int32 -> Int32 = e field h : Event = e".
Example C25_witness : exists p pre d post, parse_str U_none Program poly = POk p
  /\ all_decls (contract_of p) = pre ++ d :: post /\ List.length pre = 2%nat /\ List.length post = 1%nat
  /\ Forall (fun e => exists y t, says_type (typed_type e) y /\ denotes y t) pre
  /\ (exists a b, typed_type d = FunctionType a b) /\ from_str U_none no_debug poly = RPanic.
Proof.
  eexists. eexists [_; _]. eexists. eexists. split; [vm_compute; reflexivity|]. split; [reflexivity|]. split; [reflexivity|].
  split; [reflexivity|]. split; [|split].
  - constructor; [|constructor; [|constructor]].
    + exists (N0 "Int32"), Int32. split; [vm_compute; says|apply denote_iff; vm_compute; reflexivity].
    + exists (TName (lit "Option") [N0 "Int32"]), (TyOption Int32). split; [vm_compute; says|apply denote_iff; vm_compute; reflexivity].
  - eexists. eexists. reflexivity.
  - vm_compute. reflexivity.
Qed.
