(** The emitter does not look at positions. *)
From Verif Require Import Chars Lexer Ast Grammar Types Visitor Emitter EmitSpec TypeFacts EmitTypes EmitProgram EmitInv Erase.
Local Open Scope nat_scope.

Definition e_any (n : anynode) : anynode :=
  match n with
  | AByteStr n => AByteStr (e_bystr n)
  | ATypeNameIdentifier n => ATypeNameIdentifier (e_tni n)
  | AImportedName n => AImportedName (e_imported n)
  | AImportDeclarations n => AImportDeclarations (e_imports n)
  | AMetaIdentifier n => AMetaIdentifier (e_meta n)
  | AVariableIdentifier n => AVariableIdentifier (e_var n)
  | ABuiltinArguments n => ABuiltinArguments (e_bargs n)
  | ATypeMapKey n => ATypeMapKey (e_key n)
  | ATypeMapValue n => ATypeMapValue (e_value n)
  | ATypeArgument n => ATypeArgument (e_arg n)
  | AScillaType n => AScillaType (e_type n)
  | ATypeMapEntry n => ATypeMapEntry (e_entry n)
  | AAddressTypeField n => AAddressTypeField (e_afield n)
  | AAddressType n => AAddressType (e_addr n)
  | AFullExpression n => AFullExpression (e_expr n)
  | AMessageEntry n => AMessageEntry (e_msg n)
  | APatternMatchExpressionClause n => APatternMatchExpressionClause (e_eclause n)
  | AAtomicExpression n => AAtomicExpression (e_atomic n)
  | AContractTypeArguments n => AContractTypeArguments (e_ctargs n)
  | AValueLiteral n => AValueLiteral (e_lit n)
  | AMapAccess n => AMapAccess (e_access n)
  | APattern n => APattern (e_pattern n)
  | AArgumentPattern n => AArgumentPattern (e_argpattern n)
  | APatternMatchClause n => APatternMatchClause (e_sclause n)
  | ABlockchainFetchArguments n => ABlockchainFetchArguments (e_bfa n)
  | AStatement n => AStatement (e_stmt n)
  | ARemoteFetchStatement n => ARemoteFetchStatement (e_remote n)
  | AComponentId n => AComponentId (e_cid n)
  | AComponentParameters n => AComponentParameters (e_params n)
  | AParameterPair n => AParameterPair (e_pair n)
  | AComponentBody n => AComponentBody (e_body n)
  | AStatementBlock n => AStatementBlock (e_block n)
  | ATypedIdentifier n => ATypedIdentifier (e_typed n)
  | ATypeAnnotation n => ATypeAnnotation (e_annot n)
  | AProgram n => AProgram (e_program n)
  | ALibraryDefinition n => ALibraryDefinition (e_lib n)
  | ALibrarySingleDefinition n => ALibrarySingleDefinition (e_libdef n)
  | AContractDefinition n => AContractDefinition (e_contract n)
  | AContractField n => AContractField (e_cfield n)
  | AWithConstraint n => AWithConstraint (e_with n)
  | AComponentDefinition n => AComponentDefinition (e_comp n)
  | AProcedureDefinition n => AProcedureDefinition (e_proc n)
  | ATransitionDefinition n => ATransitionDefinition (e_trans n)
  | ATypeAlternativeClause n => ATypeAlternativeClause (e_alt n)
  | ATypeMapValueArguments n => ATypeMapValueArguments (e_tvarg n)
  | ATypeMapValueAllowingTypeArguments n => ATypeMapValueAllowingTypeArguments (e_tva n)
  end.

(** Same behaviour in every state. *)
Definition peq {S A} (m m' : M S A) : Prop := forall s, m s = m' s.
Lemma peq_refl {S A} (m : M S A) : peq m m.
Proof. intro s. reflexivity. Qed.
Lemma peq_bind_res {S A B} (m m' : M S A) (k k' : result A -> M S B) :
  peq m m' -> (forall r, peq (k r) (k' r)) -> peq (bind_res m k) (bind_res m' k').
Proof. intros Hm Hk s. unfold bind_res. rewrite Hm. destruct (m' s); [apply Hk|reflexivity|reflexivity]. Qed.
Lemma peq_bind {S A B} (m m' : M S A) (k k' : A -> M S B) :
  peq m m' -> (forall a, peq (k a) (k' a)) -> peq (bind m k) (bind m' k').
Proof. intros Hm Hk. apply peq_bind_res; [exact Hm|]. intros [a|e]; [apply Hk|apply peq_refl]. Qed.

Section Positions.
  Context (debug : stack_object -> str).
  Notation E := (sr_emitter debug).
  Context (v : anynode -> EM tr) (Hv : forall n, peq (v (e_any n)) (v n)).
  Section Kind.
    Context {A : Type} (inj : A -> anynode) (e : A -> A) (Hi : forall x, inj (e x) = e_any (inj x)).

    Lemma peq_visit_wm w : peq (visit_wm E v inj (at0 e w)) (visit_wm E v inj w).
    Proof. intro s. rewrite !visit_wm_eq. cbn. rewrite Hi. apply Hv. Qed.
    Lemma peq_wvisit w : peq (wvisit v inj (at0 e w)) (wvisit v inj w).
    Proof. intro s. rewrite !wvisit_eq. cbn. rewrite Hi. apply Hv. Qed.
    Lemma peq_visit_all l : peq (visit_all E v inj (map (at0 e) l)) (visit_all E v inj l).
    Proof.
      induction l as [|w l IH]; [apply peq_refl|]. apply peq_bind; [apply peq_visit_wm|]. intros _. exact IH.
    Qed.
    Lemma peq_visit_until l : peq (visit_until E v inj (map (at0 e) l)) (visit_until E v inj l).
    Proof.
      induction l as [|w l IH]; [apply peq_refl|]. apply peq_bind; [apply peq_visit_wm|].
      intros []; [exact IH|apply peq_refl].
    Qed.
    Lemma peq_visit_find m l : peq (visit_find E v inj m (map (at0 e) l)) (visit_find E v inj m l).
    Proof.
      induction l as [|w l IH]; [apply peq_refl|]. apply peq_bind_res; [apply peq_visit_wm|].
      intros [a|x]; [exact IH|]. destruct (str_eqb x m); [apply peq_refl|exact IH].
    Qed.
    Lemma peq_visit_args l : peq (visit_args E v inj (map (at0 e) l)) (visit_args E v inj l).
    Proof.
      induction l as [|w l IH]; [apply peq_refl|]. apply peq_bind; [apply peq_visit_wm|].
      intros []; [exact IH|apply peq_refl].
    Qed.
    Lemma peq_wvisit_all l : peq (wvisit_all v inj (map (at0 e) l)) (wvisit_all v inj l).
    Proof.
      induction l as [|w l IH]; [apply peq_refl|]. apply peq_bind; [apply peq_wvisit|]. intros _. exact IH.
    Qed.
    Lemma peq_collect l main :
      peq (collect_sub_types debug v inj (map (at0 e) l) main) (collect_sub_types debug v inj l main).
    Proof.
      revert main. induction l as [|a l IH]; intro main; [apply peq_refl|]. cbn [map collect_sub_types].
      apply peq_bind; [apply peq_wvisit|]. intros _. apply peq_bind; [apply peq_refl|]. intro. apply IH.
    Qed.
    Lemma peq_push_pos w : peq (push_pos E (at0 e w)) (push_pos E w).
    Proof. intro s. reflexivity. Qed.
  End Kind.

  Ltac pq :=
    repeat first
      [ apply peq_refl
      | apply Hv
      | apply peq_visit_wm; reflexivity | apply peq_wvisit; reflexivity | apply peq_visit_all; reflexivity
      | apply peq_visit_until; reflexivity | apply peq_visit_find; reflexivity | apply peq_visit_args; reflexivity
      | apply peq_wvisit_all; reflexivity | apply peq_collect; reflexivity | apply peq_push_pos
      | match goal with |- peq (bind _ _) (bind _ _) => apply peq_bind; [|intro] end
      | match goal with |- peq (bind_res _ _) (bind_res _ _) => apply peq_bind_res; [|intro] end
      | match goal with
        | |- peq (match ?x with _ => _ end) (match ?x with _ => _ end) => destruct x
        | |- peq (match option_map _ ?x with _ => _ end) (match ?x with _ => _ end) => destruct x; cbn [option_map]
        | |- peq (match map _ ?x with _ => _ end) (match ?x with _ => _ end) => destruct x; cbn [map]
        end
      | progress unfold kid_of, kcont ].

  Lemma peq_generic {A} (inj : A -> anynode) (e : A -> A) (Hi : forall x, inj (e x) = e_any (inj x)) m l :
    peq (generic_type debug v inj (at0 e_meta m) (map (at0 e) l)) (generic_type debug v inj m l).
  Proof. unfold generic_type. pq. apply (peq_collect inj e Hi (_ :: _)). Qed.
  Lemma peq_fields l :
    peq (collect_address_fields debug v (map (at0 e_afield) l)) (collect_address_fields debug v l).
  Proof. induction l as [|a l IH]; [apply peq_refl|]. cbn [map collect_address_fields]. pq. exact IH. Qed.
  Lemma peq_init l : peq (emit_init_params debug v (map (at0 e_pair) l)) (emit_init_params debug v l).
  Proof. induction l as [|a l IH]; [apply peq_refl|]. cbn [map emit_init_params]. pq. exact IH. Qed.
  Lemma peq_params l : peq (collect_params debug v (map (at0 e_pair) l)) (collect_params debug v l).
  Proof. induction l as [|a l IH]; [apply peq_refl|]. cbn [map collect_params]. pq. exact IH. Qed.

  Lemma peq_children n : peq (children E v (e_any n)) (children E v n).
  Proof.
    destruct n as [n|n|n|n|n|n|n|n|n|n|n|n|n|n|n|n|n|n|n|n|n|n|n|n|n|n|n|n|n|n|n|n|n|n|n|n|n|n|n|n|n|n|n|n|n|n];
      destruct n; cbn [e_any e_bystr e_tni e_imported e_imports e_meta e_var e_bargs e_key e_value e_arg e_type
        e_entry e_afield e_addr e_tvarg e_tva e_annot e_ctargs e_lit e_atomic e_msg e_access e_pattern e_argpattern
        e_expr e_eclause e_bfa e_cid e_remote e_stmt e_sclause e_block e_typed e_pair e_params e_body e_alt e_libdef
        e_lib e_cfield e_with e_proc e_trans e_comp e_contract e_program children];
      try (pq; fail).
    - unfold kid_of. apply peq_bind; [apply (Hv (AByteStr b))|]. intro. apply peq_refl.
    - unfold kid_of. apply peq_bind; [apply (Hv (ARemoteFetchStatement r))|]. intro. apply peq_refl.
    - destruct arguments as [a|]; [|apply peq_refl]. cbn [option_map]. unfold kid_of.
      apply peq_bind; [apply (Hv (ABlockchainFetchArguments a))|]. intro. apply peq_refl.
    - apply peq_bind; [|intro; apply peq_refl].
      induction statements as [|st l IH]; [apply peq_refl|]. apply peq_bind; [apply (Hv (AStatement st))|].
      intros _. exact IH.
  Qed.
  Lemma display_e n : type_name_identifier_display (e_tni n) = type_name_identifier_display n.
  Proof. destruct n as [[]| |]; reflexivity. Qed.

  Lemma peq_sr_emit m n : peq (sr_emit debug v m (e_any n)) (sr_emit debug v m n).
  Proof.
    destruct n as [n|n|n|n|n|n|n|n|n|n|n|n|n|n|n|n|n|n|n|n|n|n|n|n|n|n|n|n|n|n|n|n|n|n|n|n|n|n|n|n|n|n|n|n|n|n];
      try apply peq_refl;
      destruct n; cbn [e_any e_bystr e_tni e_meta e_var e_key e_value e_arg e_type
        e_entry e_afield e_addr e_tvarg e_tva e_annot e_cid e_typed e_pair e_params e_cfield e_with e_proc e_trans e_comp e_contract sr_emit];
      repeat first
        [ apply peq_refl
        | apply peq_fields | apply peq_init | apply peq_params
        | apply peq_wvisit; reflexivity | apply peq_wvisit_all; reflexivity | apply peq_generic; reflexivity
        | match goal with |- peq (bind _ _) (bind _ _) => apply peq_bind; [|intro] end
        | match goal with
          | |- peq (match ?x with _ => _ end) (match ?x with _ => _ end) => destruct x
          | |- peq (match option_map _ ?x with _ => _ end) (match ?x with _ => _ end) => destruct x; cbn [option_map]
          end ].
    all: cbn [node at0 same]; try (destruct b; apply peq_refl).
    - destruct (node identifier); cbn [e_var]; pq.
    - rewrite display_e. apply peq_refl.
    - rewrite display_e. apply peq_refl.
    - destruct (node parameters). cbn [e_params]. apply peq_params.
  Qed.

  Lemma peq_visit_node n : peq (visit_node E v (e_any n)) (visit_node E v n).
  Proof.
    assert (He : forall m, peq (emit E v m (e_any n)) (emit E v m n)) by (intro m; apply peq_sr_emit).
    pose proof (peq_children n) as Hch.
    assert (Hs : peq (standard (fun m => emit E v m (e_any n)) (children E v (e_any n)))
                     (standard (fun m => emit E v m n) (children E v n))).
    { unfold standard. apply peq_bind_res; [apply He|]. intro r. apply peq_bind.
      - destruct r as [[]|]; [exact Hch| |]; apply peq_refl.
      - intros [[]|]; [apply He| |]; apply peq_refl. }
    destruct n; cbn [e_any visit_node] in *; try exact Hs.
    apply peq_bind_res; [apply He|]. intro r. apply peq_bind.
    - destruct r as [[]|]; [exact Hch| |]; apply peq_refl.
    - intros [[]|]; [apply He| |]; apply peq_refl.
  Qed.
End Positions.

Lemma visit_erase debug f n : peq (visit (sr_emitter debug) f (e_any n)) (visit (sr_emitter debug) f n).
Proof.
  revert n. induction f as [|f IH]; intro n; [apply peq_refl|]. cbn [visit]. apply peq_visit_node, IH.
Qed.

(** Emission from the contract node with any sufficient fuel. *)
Lemma emit_with debug f v i l c : depth_contract (node c) <= f ->
  emit_program debug (mkProgram v i l c) =
  match visit (sr_emitter debug) f (AContractDefinition (node c)) sr_default with
  | Ret (Ok _) s => EOk (es_contract s)
  | Ret (Err m) _ => EErr m
  | Panic => EPanic
  | Fuel => EFuel
  end.
Proof.
  intro Hf. cbn [emit_program]. rewrite visit_wm_eq, (emit_any_fuel debug c f Hf). reflexivity.
Qed.

Theorem emit_erase debug p : emit_program debug (e_program p) = emit_program debug p.
Proof.
  destruct p as [v i l c]. cbn [e_program].
  set (f := Nat.max (depth_contract (node c)) (depth_contract (node (at0 e_contract c)))).
  rewrite (emit_with debug f) by lia. rewrite (emit_with debug f) by lia.
  cbn [node at0]. change (AContractDefinition (e_contract (node c))) with (e_any (AContractDefinition (node c))).
  rewrite visit_erase. reflexivity.
Qed.
