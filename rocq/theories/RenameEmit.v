(** The emitter copies the names it meets and compares them only with the
    reserved type names: it commutes with renaming. *)
From Verif Require Import Chars Lexer LexerProofs Ast Grammar Types Visitor Emitter EmitSpec TypeFacts EmitTypes EmitProgram EmitInv EmitErase
  Rename RenameSpec.
Local Open Scope nat_scope.

(** ** Types *)
Definition sizedb (s : str) : bool :=
  match strip_prefix (lit "ByStr") s with
  | Some ds => match parse_usize ds with Some _ => true | None => false end
  | None => false
  end.
Definition reservedb (s : str) : bool := existsb (str_eqb s) type_names || sizedb s.

Lemma strip_prefix_is p : forall s q, strip_prefix p s = Some q <-> s = p ++ q.
Proof.
  induction p as [|x p IH]; intros s q; cbn.
  - split; [intros [= ->]|intros ->]; reflexivity.
  - destruct s as [|y s]; [split; discriminate|]. destruct (N.eqb_spec x y) as [->|Hn].
    + rewrite IH. split; [intros ->; reflexivity|]. cbn. intros [= ->]. reflexivity.
    + split; [discriminate|]. cbn. intros [= -> _]. congruence.
Qed.

Lemma reservedb_iff s : reservedb s = true <-> reserved s.
Proof.
  unfold reservedb, reserved. rewrite orb_true_iff, existsb_exists. split; (intros [H|H]; [left|right]).
  - destruct H as (x & Hx & E). apply str_eqb_eq in E. subst x. exact Hx.
  - unfold sizedb in H. destruct (strip_prefix (lit "ByStr") s) as [ds|] eqn:E; [|discriminate].
    apply strip_prefix_is in E. destruct (parse_usize ds) as [n|] eqn:En; [|discriminate]. exists ds, n. auto.
  - exists s. split; [exact H|]. apply str_eqb_eq. reflexivity.
  - destruct H as (ds & n & -> & En). unfold sizedb. rewrite (proj2 (strip_prefix_is _ _ ds) eq_refl), En. reflexivity.
Qed.

Section Rename.
Context (r : str -> str) (R : renaming r).

Definition r_id (i : sr_identifier) : sr_identifier := mkId (r (unresolved i)) (kind i).
Definition r_address (a : address_type) : address_type := mkAddr (r (a_type_name a)) (map (r_field r) (a_fields a)).
Fixpoint r_sr (t : sr_type) : sr_type :=
  match t with mkSr m subs a => mkSr (r m) (map r_sr subs) (option_map r_address a) end.
Definition r_so (o : stack_object) : stack_object :=
  match o with
  | IrIdentifier i => IrIdentifier (r_id i)
  | VariableDeclaration f => VariableDeclaration (r_field r f)
  | SoTypeDefinition t => SoTypeDefinition (r_sr t)
  end.
Definition r_state (s : sr_state) : sr_state := mkst (map r_so (es_stack s)) (r_result r (es_contract s)).

(** A name without a meaning becomes [Other]. *)
Lemma type_from_plain s subs a : reservedb s = false -> type_from (mkSr s subs a) = Some (Other s).
Proof.
  unfold reservedb. rewrite orb_false_iff. intros [H Hs].
  assert (Hn : forall x, In x type_names -> str_eqb s x = false).
  { intros x Hx. destruct (str_eqb s x) eqn:E; [|reflexivity]. exfalso. rewrite <- not_true_iff_false in H. apply H.
    apply existsb_exists. exists x. auto. }
  cbn [type_from]. unfold base_types, str_assoc. rewrite !Hn by (cbn; tauto).
  destruct (str_eqb s (lit "ByStr20")) eqn:E20.
  { apply str_eqb_eq in E20. subst s. vm_compute in Hs. discriminate. }
  unfold sizedb in Hs. destruct (starts_with (lit "ByStr") s); [|reflexivity].
  destruct (strip_prefix (lit "ByStr") s) as [ds|]; [|reflexivity]. destruct (parse_usize ds); [discriminate|reflexivity].
Qed.

Lemma base_same x s t : str_assoc s base_types = Some t -> r_ty x t = t.
Proof.
  unfold base_types, str_assoc.
  repeat match goal with |- context [str_eqb s ?k] => destruct (str_eqb s k); [intros [= <-]; reflexivity|] end.
  discriminate.
Qed.

Lemma sr_ind_r (P : sr_type -> Prop) : (forall m l a, Forall P l -> P (mkSr m l a)) -> forall t, P t.
Proof.
  intro H. fix IH 1. intros [m l a]. apply H. induction l as [|x l IHl]; constructor; [apply IH|exact IHl].
Qed.

Lemma type_from_rename t : type_from (r_sr t) = option_map (r_ty r) (type_from t).
Proof.
  induction t as [m l a IH] using sr_ind_r. cbn [r_sr].
  destruct (reservedb m) eqn:Hm.
  - rewrite (keeps_reserved r R m) by (apply reservedb_iff, Hm).
    assert (Hl : rev (map type_from (map r_sr l)) = map (option_map (r_ty r)) (rev (map type_from l))).
    { rewrite map_rev. f_equal. rewrite !map_map. clear Hm. induction IH as [|x l Hx _ IHl]; [reflexivity|].
      cbn. rewrite Hx, IHl. reflexivity. }
    cbn [type_from]. rewrite Hl. set (conv := rev (map type_from l)).
    destruct (str_assoc m base_types) as [b|] eqn:Eb; [cbn; rewrite (base_same _ _ _ Eb); reflexivity|].
    destruct (str_eqb m (lit "Option")); [destruct conv as [|[x|] conv]; reflexivity|].
    destruct (str_eqb m (lit "List")); [destruct conv as [|[x|] conv]; reflexivity|].
    destruct (str_eqb m (lit "Pair")); [destruct conv as [|[x|] [|[y|] conv]]; reflexivity|].
    destruct (str_eqb m (lit "Map")); [destruct conv as [|[x|] [|[y|] conv]]; reflexivity|].
    destruct (str_eqb m (lit "ByStr20")).
    { destruct a as [[k fs]|]; [|reflexivity]. cbn. unfold r_field. reflexivity. }
    destruct (starts_with (lit "ByStr") m).
    + destruct (match strip_prefix (lit "ByStr") m with Some q => parse_usize q | None => None end); [reflexivity|].
      cbn. rewrite (keeps_reserved r R m) by (apply reservedb_iff, Hm). reflexivity.
    + cbn. rewrite (keeps_reserved r R m) by (apply reservedb_iff, Hm). reflexivity.
  - rewrite (type_from_plain m) by exact Hm. rewrite type_from_plain; [reflexivity|].
    apply not_true_iff_false. rewrite reservedb_iff. apply (adds_none r R). rewrite <- reservedb_iff, Hm. discriminate.
Qed.

(** ** Runs *)
Definition r_outcome {A} (f : A -> A) (o : outcome sr_state A) : outcome sr_state A :=
  match o with
  | Ret (Ok a) s => Ret (Ok (f a)) (r_state s)
  | Ret (Err m) s => Ret (Err m) (r_state s)
  | Panic => Panic
  | Fuel => Fuel
  end.
(** [m'] does in the renamed state what [m] does. *)
Definition req {A} (f : A -> A) (m' m : EM A) : Prop := forall s, m' (r_state s) = r_outcome f (m s).
Notation same := (fun a => a).

Lemma req_ret {A} (f : A -> A) a a' : a' = f a -> req f (ret a') (ret a).
Proof. intros -> s. reflexivity. Qed.
Lemma req_raise {A} (f : A -> A) m : req f (raise m) (raise m).
Proof. intro s. reflexivity. Qed.
Lemma req_panic {A} (f : A -> A) : req f panic panic.
Proof. intro s. reflexivity. Qed.
Lemma req_bind {A B} (f : A -> A) (g : B -> B) m m' k k' :
  req f m' m -> (forall a, req g (k' (f a)) (k a)) -> req g (bind m' k') (bind m k).
Proof.
  intros Hm Hk s. unfold bind, bind_res. rewrite (Hm s). destruct (m s) as [[a|x] s'| |]; try reflexivity. apply Hk.
Qed.
Lemma req_bind_same {A B} (g : B -> B) (m m' : EM A) k k' :
  req same m' m -> (forall a, req g (k' a) (k a)) -> req g (bind m' k') (bind m k).
Proof. intros Hm Hk. apply (req_bind same); assumption. Qed.
Lemma req_bind_res {A B} (g : B -> B) (m m' : EM A) (k k' : result A -> EM B) :
  req same m' m -> (forall x, req g (k' x) (k x)) -> req g (bind_res m' k') (bind_res m k).
Proof.
  intros Hm Hk s. unfold bind_res. rewrite (Hm s). destruct (m s) as [[a|x] s'| |]; try reflexivity; apply Hk.
Qed.
Lemma req_push o o' : o' = r_so o -> req same (push o') (push o).
Proof. intros -> s. reflexivity. Qed.

Context (debug : stack_object -> str).
Notation debug_r := (fun o => debug (r_so o)).

Lemma req_pop_id : req r_id (pop_ir_identifier debug) (pop_ir_identifier debug_r).
Proof. intros [[|[] st] c]; reflexivity. Qed.
Lemma req_pop_decl : req (r_field r) (pop_variable_declaration debug) (pop_variable_declaration debug_r).
Proof. intros [[|[] st] c]; reflexivity. Qed.
Lemma req_pop_type : req r_sr (pop_type_definition debug) (pop_type_definition debug_r).
Proof. intros [[|[] st] c]; reflexivity. Qed.
Lemma req_ident_to_type : req same (ident_to_type debug) (ident_to_type debug_r).
Proof. apply (req_bind r_id); [apply req_pop_id|]. intro i. apply req_push. reflexivity. Qed.
Lemma map_reserved : r (lit "Map") = lit "Map".
Proof. apply (keeps_reserved r R). left. cbn. tauto. Qed.
Lemma bystr_reserved : r (lit "ByStr") = lit "ByStr".
Proof. apply (keeps_reserved r R). left. cbn. tauto. Qed.
Lemma req_pops_to_map : req same (pops_to_map debug) (pops_to_map debug_r).
Proof.
  apply (req_bind r_sr); [apply req_pop_type|]. intro v. apply (req_bind r_sr); [apply req_pop_type|]. intro k.
  apply req_push. cbn -[lit]. rewrite map_reserved. reflexivity.
Qed.
Lemma req_field_of n n' t t' : n' = r n -> t' = r_sr t -> req (r_field r) (field_of n' t') (field_of n t).
Proof.
  intros -> -> s. unfold field_of. rewrite type_from_rename. destruct (type_from t); reflexivity.
Qed.
Lemma req_init f f' : f' = r_field r f -> req same (upd (add_init_param f')) (upd (add_init_param f)).
Proof. intros -> [st c]. cbn. unfold r_state, r_result. cbn. rewrite map_app. reflexivity. Qed.
Lemma req_add_field f f' : f' = r_field r f -> req same (upd (add_field f')) (upd (add_field f)).
Proof. intros -> [st c]. cbn. unfold r_state, r_result. cbn. rewrite map_app. reflexivity. Qed.
Lemma req_add_transition t t' : t' = r_transition r t -> req same (upd (add_transition t')) (upd (add_transition t)).
Proof. intros -> [st c]. cbn. unfold r_state, r_result. cbn. rewrite map_app. reflexivity. Qed.
Lemma req_set_name n n' : n' = r n -> req same (upd (set_name n')) (upd (set_name n)).
Proof. intros -> [st c]. reflexivity. Qed.
Definition r_any (n : anynode) : anynode :=
  match n with
  | AByteStr n => AByteStr ((r_bystr r) n)
  | ATypeNameIdentifier n => ATypeNameIdentifier ((r_tni r) n)
  | AImportedName n => AImportedName ((r_imported r) n)
  | AImportDeclarations n => AImportDeclarations ((r_imports r) n)
  | AMetaIdentifier n => AMetaIdentifier ((r_meta r) n)
  | AVariableIdentifier n => AVariableIdentifier ((r_var r) n)
  | ABuiltinArguments n => ABuiltinArguments ((r_bargs r) n)
  | ATypeMapKey n => ATypeMapKey ((r_key r) n)
  | ATypeMapValue n => ATypeMapValue ((r_value r) n)
  | ATypeArgument n => ATypeArgument ((r_arg r) n)
  | AScillaType n => AScillaType ((r_type r) n)
  | ATypeMapEntry n => ATypeMapEntry ((r_entry r) n)
  | AAddressTypeField n => AAddressTypeField ((r_afield r) n)
  | AAddressType n => AAddressType ((r_addr r) n)
  | AFullExpression n => AFullExpression ((r_expr r) n)
  | AMessageEntry n => AMessageEntry ((r_msg r) n)
  | APatternMatchExpressionClause n => APatternMatchExpressionClause ((r_eclause r) n)
  | AAtomicExpression n => AAtomicExpression ((r_atomic r) n)
  | AContractTypeArguments n => AContractTypeArguments ((r_ctargs r) n)
  | AValueLiteral n => AValueLiteral ((r_lit r) n)
  | AMapAccess n => AMapAccess ((r_access r) n)
  | APattern n => APattern ((r_pattern r) n)
  | AArgumentPattern n => AArgumentPattern ((r_argpattern r) n)
  | APatternMatchClause n => APatternMatchClause ((r_sclause r) n)
  | ABlockchainFetchArguments n => ABlockchainFetchArguments ((r_bfa r) n)
  | AStatement n => AStatement ((r_stmt r) n)
  | ARemoteFetchStatement n => ARemoteFetchStatement ((r_remote r) n)
  | AComponentId n => AComponentId ((r_cid r) n)
  | AComponentParameters n => AComponentParameters ((r_params r) n)
  | AParameterPair n => AParameterPair ((r_pair r) n)
  | AComponentBody n => AComponentBody ((r_body r) n)
  | AStatementBlock n => AStatementBlock ((r_block r) n)
  | ATypedIdentifier n => ATypedIdentifier ((r_typed r) n)
  | ATypeAnnotation n => ATypeAnnotation ((r_annot r) n)
  | AProgram n => AProgram ((r_program r) n)
  | ALibraryDefinition n => ALibraryDefinition ((r_lib r) n)
  | ALibrarySingleDefinition n => ALibrarySingleDefinition ((r_libdef r) n)
  | AContractDefinition n => AContractDefinition ((r_contract r) n)
  | AContractField n => AContractField ((r_cfield r) n)
  | AWithConstraint n => AWithConstraint ((r_with r) n)
  | AComponentDefinition n => AComponentDefinition ((r_comp r) n)
  | AProcedureDefinition n => AProcedureDefinition ((r_proc r) n)
  | ATransitionDefinition n => ATransitionDefinition ((r_trans r) n)
  | ATypeAlternativeClause n => ATypeAlternativeClause ((r_alt r) n)
  | ATypeMapValueArguments n => ATypeMapValueArguments ((r_tvarg r) n)
  | ATypeMapValueAllowingTypeArguments n => ATypeMapValueAllowingTypeArguments ((r_tva r) n)
  end.


Lemma display_r n : type_name_identifier_display (r_tni r n) = r (type_name_identifier_display n).
Proof. destruct n as [[]| |]; try reflexivity. symmetry. apply (keeps_event r R). Qed.

Section Nodes.
  Context (v v' : anynode -> EM tr) (Hv : forall n, req same (v' (r_any n)) (v n)).
  Notation E' := (sr_emitter debug).
  Notation E := (sr_emitter debug_r).

  Section Kind.
    Context {A : Type} (inj : A -> anynode) (e : A -> A) (Hi : forall x, inj (e x) = r_any (inj x)).

    Lemma req_visit_wm w : req same (visit_wm E' v' inj (on e w)) (visit_wm E v inj w).
    Proof. intro s. rewrite !visit_wm_eq. cbn. rewrite Hi. apply Hv. Qed.
    Lemma req_wvisit w : req same (wvisit v' inj (on e w)) (wvisit v inj w).
    Proof. intro s. rewrite !wvisit_eq. cbn. rewrite Hi. apply Hv. Qed.
    Lemma req_visit_all l : req same (visit_all E' v' inj (map (on e) l)) (visit_all E v inj l).
    Proof.
      induction l as [|w l IH]; [apply req_ret; reflexivity|]. apply req_bind_same; [apply req_visit_wm|]. intros _. exact IH.
    Qed.
    Lemma req_visit_until l : req same (visit_until E' v' inj (map (on e) l)) (visit_until E v inj l).
    Proof.
      induction l as [|w l IH]; [apply req_ret; reflexivity|]. apply req_bind_same; [apply req_visit_wm|].
      intros []; [exact IH|apply req_ret; reflexivity].
    Qed.
    Lemma req_visit_find m l : req same (visit_find E' v' inj m (map (on e) l)) (visit_find E v inj m l).
    Proof.
      induction l as [|w l IH]; [apply req_ret; reflexivity|]. apply req_bind_res; [apply req_visit_wm|].
      intros [a|x]; [exact IH|]. destruct (str_eqb x m); [apply req_raise|exact IH].
    Qed.
    Lemma req_visit_args l : req same (visit_args E' v' inj (map (on e) l)) (visit_args E v inj l).
    Proof.
      induction l as [|w l IH]; [apply req_ret; reflexivity|]. apply req_bind_same; [apply req_visit_wm|].
      intros []; [exact IH|apply req_ret; reflexivity].
    Qed.
    Lemma req_wvisit_all l : req same (wvisit_all v' inj (map (on e) l)) (wvisit_all v inj l).
    Proof.
      induction l as [|w l IH]; [apply req_ret; reflexivity|]. apply req_bind_same; [apply req_wvisit|]. intros _. exact IH.
    Qed.
    Lemma req_collect l main :
      req r_sr (collect_sub_types debug v' inj (map (on e) l) (r_sr main)) (collect_sub_types debug_r v inj l main).
    Proof.
      revert main. induction l as [|a l IH]; intro main; [apply req_ret; reflexivity|]. cbn [map collect_sub_types].
      apply req_bind_same; [apply req_wvisit|]. intros _. apply (req_bind r_sr); [apply req_pop_type|]. intro sub.
      replace (push_sub_type (r_sr main) (r_sr sub)) with (r_sr (push_sub_type main sub)); [apply IH|].
      destruct main as [m subs a']. cbn. rewrite map_app. reflexivity.
    Qed.
    Lemma req_push_pos w : req same (push_pos E' (on e w)) (push_pos E w).
    Proof. intro s. reflexivity. Qed.
    Lemma req_generic m l :
      req same (generic_type debug v' inj (on (r_meta r) m) (map (on e) l)) (generic_type debug_r v inj m l).
    Proof.
      unfold generic_type. apply req_bind_same.
      { intro s. rewrite !wvisit_eq. apply (Hv (AMetaIdentifier (node m))). }
      intros _. apply req_bind_same; [apply req_ident_to_type|]. intros _.
      destruct l as [|a l]; [apply req_ret; reflexivity|].
      cbn [map]. apply (req_bind r_sr); [apply req_pop_type|]. intro main. apply (req_bind r_sr).
      - apply (req_collect (a :: l)).
      - intro main'. apply req_push. reflexivity.
    Qed.
  End Kind.

  Ltac rq :=
    repeat first
      [ apply req_ret; reflexivity | apply req_raise | apply req_panic
      | apply Hv
      | apply req_visit_wm; reflexivity | apply req_wvisit; reflexivity | apply req_visit_all; reflexivity
      | apply req_visit_until; reflexivity | apply req_visit_find; reflexivity | apply req_visit_args; reflexivity
      | apply req_wvisit_all; reflexivity | apply req_push_pos | apply req_generic; reflexivity
      | apply req_ident_to_type | apply req_pops_to_map
      | match goal with |- req _ (bind _ _) (bind _ _) => apply req_bind_same; [|intro] end
      | match goal with |- req _ (bind_res _ _) (bind_res _ _) => apply req_bind_res; [|intro] end
      | match goal with
        | |- req _ (match ?x with _ => _ end) (match ?x with _ => _ end) => destruct x
        | |- req _ (match option_map _ ?x with _ => _ end) (match ?x with _ => _ end) => destruct x; cbn [option_map]
        | |- req _ (match map _ ?x with _ => _ end) (match ?x with _ => _ end) => destruct x; cbn [map]
        end
      | progress unfold kid_of, kcont ].

  Lemma req_fields l :
    req (map (r_field r)) (collect_address_fields debug v' (map (on (r_afield r)) l)) (collect_address_fields debug_r v l).
  Proof.
    induction l as [|a l IH]; [apply req_ret; reflexivity|]. cbn [map collect_address_fields].
    apply req_bind_same; [rq|]. intros _. apply (req_bind (r_field r)); [apply req_pop_decl|]. intro d.
    apply (req_bind (map (r_field r))); [exact IH|]. intro ds. apply req_ret. reflexivity.
  Qed.
  Lemma req_params l :
    req (map (r_field r)) (collect_params debug v' (map (on (r_pair r)) l)) (collect_params debug_r v l).
  Proof.
    induction l as [|a l IH]; [apply req_ret; reflexivity|]. cbn [map collect_params].
    apply req_bind_same; [rq|]. intros _. apply (req_bind (r_field r)); [apply req_pop_decl|]. intro d.
    apply (req_bind (map (r_field r))); [exact IH|]. intro ds. apply req_ret. reflexivity.
  Qed.
  Lemma req_inits l :
    req same (emit_init_params debug v' (map (on (r_pair r)) l)) (emit_init_params debug_r v l).
  Proof.
    induction l as [|a l IH]; [apply req_ret; reflexivity|]. cbn [map emit_init_params].
    apply req_bind_same; [rq|]. intros _. apply (req_bind (r_field r)); [apply req_pop_decl|]. intro d.
    apply req_bind_same; [apply req_init; reflexivity|]. intros _. exact IH.
  Qed.

  Lemma req_children n : req same (children E' v' (r_any n)) (children E v n).
  Proof.
    destruct n as [n|n|n|n|n|n|n|n|n|n|n|n|n|n|n|n|n|n|n|n|n|n|n|n|n|n|n|n|n|n|n|n|n|n|n|n|n|n|n|n|n|n|n|n|n|n];
      destruct n; cbn [r_any r_bystr r_tni r_imported r_imports r_meta r_var r_bargs r_key r_value r_arg r_type
        r_entry r_afield r_addr r_tvarg r_tva r_annot r_ctargs r_lit r_atomic r_msg r_access r_pattern r_argpattern
        r_expr r_eclause r_bfa r_cid r_remote r_stmt r_sclause r_block r_typed r_pair r_params r_body r_alt r_libdef
        r_lib r_cfield r_with r_proc r_trans r_comp r_contract r_program children];
      try (rq; fail).
    - unfold kid_of. apply req_bind_same; [apply (Hv (AByteStr b))|]. intro. apply req_ret. reflexivity.
    - unfold kid_of. apply req_bind_same; [apply (Hv (ARemoteFetchStatement r0))|]. intro. apply req_ret. reflexivity.
    - destruct arguments as [a|]; [|apply req_ret; reflexivity]. cbn [option_map]. unfold kid_of.
      apply req_bind_same; [apply (Hv (ABlockchainFetchArguments a))|]. intro. apply req_ret. reflexivity.
    - apply req_bind_same; [|intro; apply req_ret; reflexivity].
      induction statements as [|st l IH]; [apply req_ret; reflexivity|]. apply req_bind_same; [apply (Hv (AStatement st))|].
      intros _. exact IH.
  Qed.

  Lemma req_sr_emit m n : req same (sr_emit debug v' m (r_any n)) (sr_emit debug_r v m n).
  Proof.
    destruct n as [n|n|n|n|n|n|n|n|n|n|n|n|n|n|n|n|n|n|n|n|n|n|n|n|n|n|n|n|n|n|n|n|n|n|n|n|n|n|n|n|n|n|n|n|n|n];
      try (apply req_ret; reflexivity); try apply req_panic;
      destruct n; cbn [r_any r_bystr r_tni r_meta r_var r_key r_value r_arg r_type
        r_entry r_afield r_addr r_tvarg r_tva r_annot r_cid r_typed r_pair r_params r_cfield r_with r_proc r_trans r_comp r_contract sr_emit];
      try (rq; fail).
    - destruct m; [|rq]. apply req_bind_same; [apply req_push|intro; rq]. destruct b; reflexivity.
    - destruct m; [|rq]. apply req_bind_same; [apply req_push|intro; rq]. reflexivity.
    - apply req_bind_same; [apply req_push|intro; rq]. unfold r_so, r_id. cbn -[lit]. rewrite bystr_reserved. reflexivity.
    - destruct m; [|rq]. apply req_bind_same; [|intro; rq]. cbn [node on]. destruct (node identifier); cbn [r_var]; try (rq; fail).
      apply req_bind_same; [apply (req_wvisit AScillaType (r_type r)); reflexivity|]. intros _.
      apply (req_bind r_sr); [apply req_pop_type|]. intro t. apply (req_bind (r_field r)); [apply req_field_of; reflexivity|].
      intro f. apply req_push. reflexivity.
    - destruct m; [|rq]. apply req_bind_same; [|intro; rq].
      apply req_bind_same; [apply (req_wvisit ATypeNameIdentifier (r_tni r)); reflexivity|]. intros _.
      apply req_bind_same; [apply req_ident_to_type|]. intros _.
      apply (req_bind r_sr); [apply req_pop_type|]. intro t. apply (req_bind (map (r_field r))); [apply req_fields|].
      intro fs. destruct t as [mt subs a]. cbn [r_sr]. apply req_push. reflexivity.
    - apply req_bind_same; [apply req_push|intro; rq]. unfold r_so, r_id. cbn -[lit type_name_identifier_display].
      rewrite display_r. reflexivity.
    - apply req_bind_same; [apply req_push|intro; rq]. reflexivity.
    - destruct m; [|rq]. apply req_bind_same; [apply req_inits|intro; rq].
    - apply req_bind_same; [apply (req_wvisit ATypeAnnotation (r_annot r)); reflexivity|]. intros _.
      apply (req_bind r_sr); [apply req_pop_type|]. intro t. apply (req_bind (r_field r)); [apply req_field_of; reflexivity|].
      intro f. apply req_bind_same; [apply req_push; reflexivity|]. intro. rq.
    - apply req_bind_same; [apply (req_wvisit ATypeNameIdentifier (r_tni r)); reflexivity|]. intros _.
      apply req_bind_same; [apply req_set_name; cbn [node on]; apply display_r|]. intros _. rq.
    - apply req_bind_same; [apply (req_wvisit ATypedIdentifier (r_typed r)); reflexivity|]. intros _.
      apply (req_bind (r_field r)); [apply req_pop_decl|]. intro f.
      apply req_bind_same; [apply (req_wvisit AFullExpression (r_expr r)); reflexivity|]. intros _.
      apply req_bind_same; [apply req_add_field; reflexivity|]. intro. rq.
    - apply req_bind_same; [apply (req_wvisit AComponentId (r_cid r)); reflexivity|]. intros _.
      apply (req_bind (map (r_field r))).
      { cbn [node on]. destruct (node parameters) as [l]. apply req_params. }
      intro ds. apply (req_bind r_id); [apply req_pop_id|]. intro i. cbn [kind r_id]. destruct (kind i); try apply req_panic.
      apply req_bind_same; [apply req_add_transition; reflexivity|]. intro. rq.
  Qed.

  Lemma req_visit_node n : req same (visit_node E' v' (r_any n)) (visit_node E v n).
  Proof.
    assert (He : forall m, req same (emit E' v' m (r_any n)) (emit E v m n)) by (intro m; apply req_sr_emit).
    pose proof (req_children n) as Hch.
    assert (Hs : req same (standard (fun m => emit E' v' m (r_any n)) (children E' v' (r_any n)))
                     (standard (fun m => emit E v m n) (children E v n))).
    { unfold standard. apply req_bind_res; [apply He|]. intro x. apply req_bind_same.
      - destruct x as [[]|]; [exact Hch| |]; rq; intro s; reflexivity.
      - intros [[]|]; [apply He| |]; rq. }
    destruct n; cbn [r_any visit_node] in *; try exact Hs.
    apply req_bind_res; [apply He|]. intro x. apply req_bind_same.
    - destruct x as [[]|]; [exact Hch| |]; rq; intro s; reflexivity.
    - intros [[]|]; [apply He| |]; rq.
  Qed.
End Nodes.

Lemma visit_rename f n : req same (visit (sr_emitter debug) f (r_any n)) (visit (sr_emitter debug_r) f n).
Proof.
  revert n. induction f as [|f IH]; intro n; [intro s; reflexivity|]. cbn [visit]. apply req_visit_node, IH.
Qed.

(** Outcomes of [SrEmitter::emit] with other names. *)
Definition r_emitted (o : emit_out) : emit_out :=
  match o with EOk c => EOk (r_result r c) | o => o end.

Theorem emit_rename p : emit_program debug (r_program r p) = r_emitted (emit_program debug_r p).
Proof.
  destruct p as [ver i l c]. cbn [r_program].
  set (f := Nat.max (depth_contract (node c)) (depth_contract (node (on (r_contract r) c)))).
  rewrite (emit_with debug f) by (unfold f; lia). rewrite (emit_with debug_r f) by (unfold f; lia).
  cbn [node on]. change (AContractDefinition (r_contract r (node c))) with (r_any (AContractDefinition (node c))).
  assert (E0 : r_state sr_default = sr_default).
  { unfold r_state, sr_default, r_result, contract_default. cbn. f_equal. f_equal. exact (keeps_empty r R). }
  pose proof (visit_rename f (AContractDefinition (node c)) sr_default) as H. rewrite E0 in H. rewrite H.
  clear H. destruct (visit (sr_emitter debug_r) f _ _) as [[a|m] s| |]; reflexivity.
Qed.
End Rename.
