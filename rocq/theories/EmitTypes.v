(** What visiting the type nodes does to the emitter's stack. *)
From Verif Require Import Chars Lexer Ast Types Visitor Emitter EmitSpec TypeFacts.
Local Open Scope nat_scope.

Definition pushed (o : stack_object) (s : sr_state) : sr_state :=
  mkst (o :: es_stack s) (es_contract s).

(** outcome of visiting a type that says [x] *)
Definition type_out (x : texp) (s : sr_state) : outcome sr_state tr :=
  if soundb x then Ret (Ok Continue) (pushed (SoTypeDefinition (sr x)) s) else Panic.
(** outcome of visiting an address type: the same, except for the traversal
    result, which is that of [emit_address_type(Exit)] *)
Definition addr_out (x : texp) (s : sr_state) : outcome sr_state tr :=
  if soundb x then Ret (Ok SkipChildren) (pushed (SoTypeDefinition (sr x)) s) else Panic.
(** outcome of visiting a declaration [name : x] *)
Definition decl_out (name : str) (x : texp) (s : sr_state) : outcome sr_state tr :=
  match denote x with
  | Some t => Ret (Ok Continue) (pushed (VariableDeclaration (mkField name t)) s)
  | None => Panic
  end.

Section Facts.
  Context (debug : stack_object -> str).
  Notation E := (sr_emitter debug).
  Notation vis := (visit E).

  Lemma visit_S f n : vis (S f) n = visit_node E (vis f) n.
  Proof. reflexivity. Qed.

  Lemma visit_wm_eq {A} (v : anynode -> EM tr) (inj : A -> anynode) (w : wm A) s :
    visit_wm E v inj w s = v (inj (node w)) s.
  Proof. unfold visit_wm. cbn. unfold no_push. destruct (v (inj (node w)) s); reflexivity. Qed.

  Lemma wvisit_eq {A} (v : anynode -> EM tr) (inj : A -> anynode) (w : wm A) s :
    wvisit v inj w s = v (inj (node w)) s.
  Proof. unfold wvisit, no_push. destruct (v (inj (node w)) s); reflexivity. Qed.

  Lemma standard_skip {S} (e : mode -> M S tr) ch s s' :
    e Enter s = Ret (Ok SkipChildren) s' -> standard e ch s = Ret (Ok Continue) s'.
  Proof. intro H. unfold standard, bind_res. rewrite H. reflexivity. Qed.
  Lemma standard_panic {S} (e : mode -> M S tr) ch s :
    e Enter s = Panic -> standard e ch s = Panic.
  Proof. intro H. unfold standard, bind_res. rewrite H. reflexivity. Qed.
  Lemma standard_err {S} (e : mode -> M S tr) ch s m s' :
    e Enter s = Ret (Err m) s' -> standard e ch s = Ret (Err m) s'.
  Proof. intro H. unfold standard, bind_res. rewrite H. reflexivity. Qed.

  (** the effect [P] of [emit(Enter)] of a node that skips its children *)
  Definition skip_out (o : outcome sr_state unit) : outcome sr_state tr :=
    match o with
    | Ret (Ok _) s => Ret (Ok Continue) s
    | Ret (Err m) s => Ret (Err m) s
    | Panic => Panic
    | Fuel => Fuel
    end.

  Lemma standard_unit (e : mode -> EM tr) ch (m : EM unit) s :
    e Enter s = (m ;;; ret SkipChildren) s -> standard e ch s = skip_out (m s).
  Proof.
    intro H. unfold standard, bind_res. rewrite H. unfold bind, bind_res.
    destruct (m s) as [[[]|msg] s'| |]; reflexivity.
  Qed.

  Lemma list_max_in {A} (g : A -> nat) l a : In a l -> g a <= list_max (map g l).
  Proof.
    induction l as [|b l IH]; intros []; cbn [map list_max fold_right]; [subst; lia|].
    specialize (IH H). unfold list_max in IH. lia.
  Qed.

  Lemma list_max_cons {A} (g : A -> nat) a l d : list_max (map g (a :: l)) <= d ->
    g a <= d /\ list_max (map g l) <= d.
  Proof. cbn [map list_max fold_right]. unfold list_max. lia. Qed.

  (** ** Names *)
  Lemma visit_name f n x s : plain_name n x -> 2 <= f ->
    vis f (ATypeNameIdentifier n) s = Ret (Ok Continue) (pushed (IrIdentifier (mkId x KUnknown)) s).
  Proof.
    intros H Hf. destruct f as [|[|f]]; [lia|lia|]. destruct H; reflexivity.
  Qed.

  Lemma visit_head f m x s : plain_head m x -> 3 <= f ->
    vis f (AMetaIdentifier m) s = Ret (Ok Continue) (pushed (IrIdentifier (mkId x KUnknown)) s).
  Proof.
    intros H Hf. destruct f as [|f]; [lia|]. destruct H as [n x Hn|h n x Hn|].
    - rewrite visit_S. cbn [visit_node emit sr_emitter sr_emit children]. unfold standard, kid_of, bind, bind_res, ret.
      rewrite visit_wm_eq, (visit_name _ _ x) by (assumption || lia). reflexivity.
    - rewrite visit_S. cbn [visit_node emit sr_emitter sr_emit children]. unfold standard, kid_of, bind, bind_res, ret.
      rewrite visit_wm_eq, (visit_name _ _ x) by (assumption || lia). reflexivity.
    - reflexivity.
  Qed.

  Lemma bind_ok {A B} (m : EM A) (k : A -> EM B) s a s' :
    m s = Ret (Ok a) s' -> bind m k s = k a s'.
  Proof. intro H. unfold bind, bind_res. rewrite H. reflexivity. Qed.
  Lemma bind_panic {A B} (m : EM A) (k : A -> EM B) s : m s = Panic -> bind m k s = Panic.
  Proof. intro H. unfold bind, bind_res. rewrite H. reflexivity. Qed.

  Lemma pushed_state o s : es_stack (pushed o s) = o :: es_stack s.
  Proof. reflexivity. Qed.

  Lemma pop_type_pushed t s : pop_type_definition debug (pushed (SoTypeDefinition t) s) = Ret (Ok t) s.
  Proof. destruct s. reflexivity. Qed.
  Lemma pop_ident_pushed t s : pop_ir_identifier debug (pushed (IrIdentifier t) s) = Ret (Ok t) s.
  Proof. destruct s. reflexivity. Qed.
  Lemma pop_decl_pushed t s : pop_variable_declaration debug (pushed (VariableDeclaration t) s) = Ret (Ok t) s.
  Proof. destruct s. reflexivity. Qed.
  Lemma ident_to_type_pushed x s :
    ident_to_type debug (pushed (IrIdentifier (mkId x KUnknown)) s)
    = Ret (Ok tt) (pushed (SoTypeDefinition (mkSr x [] None)) s).
  Proof. destruct s. reflexivity. Qed.
  Lemma pops_to_map_pushed k v s :
    pops_to_map debug (pushed (SoTypeDefinition v) (pushed (SoTypeDefinition k) s))
    = Ret (Ok tt) (pushed (SoTypeDefinition (mkSr (lit "Map") [k; v] None)) s).
  Proof. destruct s. reflexivity. Qed.

  (** ** The mutual statement, at recursion depth [f] *)
  Definition visits_as (f : nat) : Prop :=
    (forall t x s, says_type t x -> depth_type t <= f -> vis f (AScillaType t) s = type_out x s) /\
    (forall t x s, says_key t x -> depth_key t <= f -> vis f (ATypeMapKey t) s = type_out x s) /\
    (forall t x s, says_value t x -> depth_value t <= f -> vis f (ATypeMapValue t) s = type_out x s) /\
    (forall t x s, says_arg t x -> depth_arg t <= f -> vis f (ATypeArgument t) s = type_out x s) /\
    (forall t x s, says_address t x -> depth_addr t <= f -> vis f (AAddressType t) s = addr_out x s) /\
    (forall t x s, says_tvarg t x -> depth_tvarg t <= f -> vis f (ATypeMapValueArguments t) s = type_out x s) /\
    (forall t x s, says_tva t x -> depth_tva t <= f ->
       vis f (ATypeMapValueAllowingTypeArguments t) s = type_out x s).

  (** sub types are appended to the main type *)
  Definition add_subs (main : sr_type) (xs : list texp) : sr_type :=
    fold_left push_sub_type (map sr xs) main.

  Lemma add_subs_spec m subs a xs : add_subs (mkSr m subs a) xs = mkSr m (subs ++ map sr xs) a.
  Proof.
    unfold add_subs. revert subs. induction xs as [|x xs IH]; intro subs; cbn [map fold_left].
    - rewrite app_nil_r. reflexivity.
    - cbn [push_sub_type]. rewrite IH, <- app_assoc. reflexivity.
  Qed.

  Lemma collect_args f {A} (inj : A -> anynode) (l : list (wm A)) xs main s :
    Forall2 (fun a x => forall s, vis f (inj (node a)) s = type_out x s) l xs ->
    collect_sub_types debug (vis f) inj l main s =
    if forallb soundb xs then Ret (Ok (add_subs main xs)) s else Panic.
  Proof.
    intro H. revert main s. induction H as [|a x l xs Ha Hl IH]; intros main s; [reflexivity|].
    cbn [collect_sub_types forallb]. unfold bind at 1. unfold bind_res at 1.
    rewrite wvisit_eq, Ha. unfold type_out. destruct (soundb x); [|reflexivity]. cbn [andb].
    rewrite (bind_ok _ _ _ _ _ (pop_type_pushed _ _)). rewrite IH. reflexivity.
  Qed.

  Lemma generic_out f {A} (inj : A -> anynode) (lead : wm NodeMetaIdentifier) n (l : list (wm A)) xs s :
    plain_head (node lead) n -> 3 <= f ->
    Forall2 (fun a x => forall s, vis f (inj (node a)) s = type_out x s) l xs ->
    skip_out (generic_type debug (vis f) inj lead l s) = type_out (TName n xs) s.
  Proof.
    intros Hn Hf H. unfold generic_type. unfold bind at 1. unfold bind_res at 1.
    rewrite wvisit_eq, (visit_head _ _ n) by assumption.
    rewrite (bind_ok _ _ _ _ _ (ident_to_type_pushed _ _)).
    destruct H as [|a x l xs Ha Hl]; [reflexivity|].
    rewrite (bind_ok _ _ _ _ _ (pop_type_pushed _ _)).
    unfold bind at 1. unfold bind_res at 1.
    rewrite (collect_args _ _ _ (x :: xs)) by (constructor; assumption).
    unfold type_out. cbn [soundb]. destruct (forallb soundb (x :: xs)); [|reflexivity].
    rewrite add_subs_spec. reflexivity.
  Qed.

  Lemma map_out f k v xk xv s :
    (forall s, vis f (ATypeMapKey (node k)) s = type_out xk s) ->
    (forall s, vis f (ATypeMapValue (node v)) s = type_out xv s) ->
    skip_out ((wvisit (vis f) ATypeMapKey k ;;; wvisit (vis f) ATypeMapValue v ;;; pops_to_map debug) s)
    = type_out (TName (lit "Map") [xk; xv]) s.
  Proof.
    intros Hk Hv. unfold type_out. cbn [soundb forallb]. unfold bind at 1. unfold bind_res at 1.
    rewrite wvisit_eq, Hk. unfold type_out. destruct (soundb xk); [|reflexivity].
    unfold bind at 1. unfold bind_res at 1. rewrite wvisit_eq, Hv. unfold type_out.
    destruct (soundb xv); [|reflexivity]. rewrite pops_to_map_pushed. reflexivity.
  Qed.

  Lemma one_out_w f {A} (inj : A -> anynode) (w : wm A) x s : vis f (inj (node w)) s = type_out x s ->
    skip_out ((wvisit (vis f) inj w ;;; ret tt) s) = type_out x s.
  Proof.
    intro H. unfold bind, bind_res. rewrite wvisit_eq, H. unfold type_out. destruct (soundb x); reflexivity.
  Qed.

  Lemma addr_out_w f (w : wm NodeAddressType) x s : vis f (AAddressType (node w)) s = addr_out x s ->
    skip_out ((wvisit (vis f) AAddressType w ;;; ret tt) s) = type_out x s.
  Proof.
    intro H. unfold bind, bind_res. rewrite wvisit_eq, H. unfold addr_out, type_out. destruct (soundb x); reflexivity.
  Qed.

  Lemma head_out f m n s : plain_head (node m) n -> 3 <= f ->
    skip_out ((wvisit (vis f) AMetaIdentifier m ;;; ident_to_type debug) s) = type_out (TName n []) s.
  Proof.
    intros Hn Hf. unfold bind at 1. unfold bind_res at 1. rewrite wvisit_eq, (visit_head _ _ n) by assumption.
    rewrite ident_to_type_pushed. reflexivity.
  Qed.

  (** a field of an address type *)
  Lemma visit_afield f i n t x s :
    (forall s, vis f (AScillaType (node t)) s = type_out x s) -> node i = VariableName n ->
    vis (S f) (AAddressTypeField (mkAddressTypeField i t)) s = decl_out (node n) x s.
  Proof.
    intros Ht Hi. rewrite visit_S. unfold visit_node.
    erewrite standard_unit; [|cbn [emit sr_emitter sr_emit]; reflexivity].
    rewrite Hi. unfold decl_out, denote. unfold bind at 1. unfold bind_res at 1. rewrite wvisit_eq, Ht. unfold type_out.
    destruct (soundb x); [|reflexivity].
    rewrite (bind_ok _ _ _ _ _ (pop_type_pushed _ _)). unfold field_of, bind, bind_res.
    destruct (type_from (sr x)); reflexivity.
  Qed.

  Lemma collect_fields f l xs s :
    Forall2 (fun a nx => forall s, vis f (AAddressTypeField (node a)) s = decl_out (fst nx) (snd nx) s) l xs ->
    collect_address_fields debug (vis f) l s =
    match denote_list xs with Some r => Ret (Ok r) s | None => Panic end.
  Proof.
    intro H. revert s. induction H as [|a [n x] l xs Ha Hl IH]; intro s; [reflexivity|].
    cbn [collect_address_fields denote_list fst snd] in *. unfold bind at 1. unfold bind_res at 1.
    rewrite wvisit_eq, Ha. unfold decl_out. destruct (denote x); [|reflexivity].
    rewrite (bind_ok _ _ _ _ _ (pop_decl_pushed _ _)). unfold bind at 1. unfold bind_res at 1.
    rewrite IH. destruct (denote_list xs); reflexivity.
  Qed.

  Lemma denote_list_fields fs : denote_list fs =
    if forallb (fun nx => soundb (snd nx) && is_some (type_from (sr (snd nx)))) fs
    then Some (fields_done fs) else None.
  Proof.
    induction fs as [|[n x] fs IH]; [reflexivity|]. cbn [denote_list forallb fields_done map fst snd].
    unfold denote. rewrite IH. destruct (soundb x); cbn [andb]; [|reflexivity].
    destruct (type_from (sr x)); cbn [is_some andb]; [|reflexivity].
    destruct (forallb _ fs); reflexivity.
  Qed.

  Lemma entry_out f k v xk xv s :
    (forall s, vis f (ATypeMapKey (node k)) s = type_out xk s) ->
    (forall s, vis f (ATypeMapValue (node v)) s = type_out xv s) ->
    vis (S f) (ATypeMapEntry (mkTypeMapEntry k v)) s =
    if soundb xk && soundb xv
    then Ret (Ok Continue) (pushed (SoTypeDefinition (sr xv)) (pushed (SoTypeDefinition (sr xk)) s))
    else Panic.
  Proof.
    intros Hk Hv. rewrite visit_S. unfold visit_node, standard. cbn [emit sr_emitter sr_emit children].
    unfold kid_of, bind, bind_res, ret. rewrite visit_wm_eq, Hk. unfold type_out.
    destruct (soundb xk); [|reflexivity]. rewrite visit_wm_eq, Hv. unfold type_out.
    destruct (soundb xv); reflexivity.
  Qed.

  Lemma visits_as_all f : visits_as f.
  Proof.
    induction f as [f IH0] using (well_founded_induction PeanoNat.Nat.lt_wf_0).
    destruct f as [|f].
    { repeat split; intros t x s H Hf; exfalso; inversion H; subst; cbn in Hf; lia. }
    destruct (IH0 f (PeanoNat.Nat.lt_succ_diag_r f)) as (IHt & IHk & IHv & IHa & IHd & IHg & IHw).
    assert (Hargs : forall l xs, says_args l xs -> list_max (map (fun a => depth_arg (node a)) l) <= f ->
      Forall2 (fun a x => forall s, vis f (ATypeArgument (node a)) s = type_out x s) l xs).
    { induction l as [|a l IHl]; intros xs H Hd; inversion H; subst; constructor;
        apply list_max_cons in Hd; destruct Hd as [Hd1 Hd2].
      - intro s. apply IHa; assumption.
      - apply IHl; assumption. }
    assert (Htvargs : forall l xs, says_tvargs l xs -> list_max (map (fun a => depth_tvarg (node a)) l) <= f ->
      Forall2 (fun a x => forall s, vis f (ATypeMapValueArguments (node a)) s = type_out x s) l xs).
    { induction l as [|a l IHl]; intros xs H Hd; inversion H; subst; constructor;
        apply list_max_cons in Hd; destruct Hd as [Hd1 Hd2].
      - intro s. apply IHg; assumption.
      - apply IHl; assumption. }
    assert (Hfields : forall l xs, says_fields l xs -> list_max (map (fun a => depth_afield (node a)) l) <= f ->
      Forall2 (fun a nx => forall s, vis f (AAddressTypeField (node a)) s = decl_out (fst nx) (snd nx) s) l xs).
    { induction l as [|a l IHl]; intros xs H Hd; inversion H as [|? i n t x ? ? Ea Ei Ht Hl]; subst; constructor;
        apply list_max_cons in Hd; destruct Hd as [Hd1 Hd2].
      - intro s. rewrite Ea in Hd1 |- *. cbn [depth_afield fst snd] in *. destruct f as [|f]; [lia|].
        apply visit_afield; [|exact Ei]. intro s'. apply IH0; [lia|exact Ht|lia].
      - apply IHl; assumption. }
    repeat split; intros t x s H Hf; rewrite visit_S; unfold visit_node.
    - (* type *)
      destruct H as [m n args xs Hm Hargs'|k v xk xv Hk Hv|t x Ht|a x Ha|a b|v t|v]; cbn [depth_type] in Hf.
      + erewrite standard_unit; [|cbn [emit sr_emitter sr_emit]; reflexivity].
        apply generic_out; [assumption|lia|]. apply Hargs; [assumption|lia].
      + erewrite standard_unit; [|cbn [emit sr_emitter sr_emit]; reflexivity].
        apply map_out; intro s'; [apply IHk|apply IHv]; (assumption || lia).
      + erewrite standard_unit; [|cbn [emit sr_emitter sr_emit]; reflexivity].
        apply one_out_w. apply IHt; [assumption|lia].
      + erewrite standard_unit; [|cbn [emit sr_emitter sr_emit]; reflexivity].
        apply addr_out_w. apply IHd; [assumption|lia].
      + reflexivity.
      + reflexivity.
      + reflexivity.
    - (* key *)
      destruct H as [m n Hm|m n Hm]; cbn [depth_key] in Hf.
      + apply standard_skip. cbn [emit sr_emitter sr_emit]. unfold bind at 1. unfold bind_res at 1.
        rewrite wvisit_eq, (visit_head _ _ n) by (assumption || lia).
        rewrite (bind_ok _ _ _ _ _ (ident_to_type_pushed _ _)). reflexivity.
      + apply standard_skip. cbn [emit sr_emitter sr_emit]. unfold bind at 1. unfold bind_res at 1.
        rewrite wvisit_eq, (visit_head _ _ n) by (assumption || lia).
        rewrite (bind_ok _ _ _ _ _ (ident_to_type_pushed _ _)). reflexivity.
    - (* value *)
      destruct H as [m n Hm|e k v xk xv He Hk Hv|t x Ht|a x Ha]; cbn [depth_value] in Hf;
        (erewrite standard_unit; [|cbn [emit sr_emitter sr_emit]; reflexivity]).
      + apply head_out; [assumption|lia].
      + rewrite He in Hf. cbn [depth_entry] in Hf. destruct f as [|f]; [lia|].
        unfold type_out. cbn [soundb forallb]. unfold bind at 1. unfold bind_res at 1.
        rewrite wvisit_eq, He.
        rewrite (entry_out _ _ _ xk xv);
          [|intro s'; apply IH0; [lia|assumption|lia]|intro s'; apply IH0; [lia|assumption|lia]].
        rewrite andb_true_r. destruct (soundb xk && soundb xv); [|reflexivity].
        rewrite pops_to_map_pushed. reflexivity.
      + apply one_out_w, IHw; [assumption|lia].
      + apply addr_out_w, IHd; [assumption|lia].
    - (* argument *)
      destruct H as [t x Ht|m n Hm|a|a x Ha|k v xk xv Hk Hv]; cbn [depth_arg] in Hf;
        (erewrite standard_unit; [|cbn [emit sr_emitter sr_emit]; reflexivity]).
      + apply one_out_w, IHt; [assumption|lia].
      + apply head_out; [assumption|lia].
      + reflexivity.
      + apply addr_out_w, IHd; [assumption|lia].
      + apply map_out; intro s'; [apply IHk|apply IHv]; (assumption || lia).
    - (* address type *)
      destruct H as [i n tn fs xs Hi Hfs]. cbn [depth_addr] in Hf.
      cbn [emit sr_emitter sr_emit]. unfold bind_res at 1. unfold bind at 1. unfold bind_res at 1.
      unfold bind at 1. unfold bind_res at 1.
      rewrite wvisit_eq, (visit_name _ _ n) by (assumption || lia).
      rewrite (bind_ok _ _ _ _ _ (ident_to_type_pushed _ _)).
      rewrite (bind_ok _ _ _ _ _ (pop_type_pushed _ _)).
      unfold bind at 1. unfold bind_res at 1.
      rewrite (collect_fields _ _ xs) by (apply Hfields; [assumption|lia]).
      unfold addr_out. cbn [soundb]. rewrite denote_list_fields. destruct (forallb _ xs); reflexivity.
    - (* argument of a map value *)
      destruct H as [t x Ht|m n Hm|k v]; cbn [depth_tvarg] in Hf;
        (erewrite standard_unit; [|cbn [emit sr_emitter sr_emit]; reflexivity]).
      + apply one_out_w, IHw; [assumption|lia].
      + apply head_out; [assumption|lia].
      + reflexivity.
    - (* parenthesised map value *)
      destruct H as [t x Ht|m n args xs Hm Hargs']; cbn [depth_tva] in Hf;
        (erewrite standard_unit; [|cbn [emit sr_emitter sr_emit]; reflexivity]).
      + apply one_out_w, IHv; [assumption|lia].
      + apply generic_out; [assumption|lia|]. apply Htvargs; [assumption|lia].
  Qed.

  Lemma visit_type f t x s : says_type t x -> depth_type t <= f ->
    vis f (AScillaType t) s = type_out x s.
  Proof. apply visits_as_all. Qed.

  (** ** Declarations *)
  Lemma visit_annotation f (a : wm NodeTypeAnnotation) t x s :
    node a = mkTypeAnnotation t -> says_type (node t) x -> 1 + depth_type (node t) <= f ->
    vis f (ATypeAnnotation (node a)) s = type_out x s.
  Proof.
    intros -> H Hf. destruct f as [|f]; [lia|]. rewrite visit_S. unfold visit_node, standard.
    cbn [emit sr_emitter sr_emit children]. unfold kid_of, bind, bind_res, ret.
    rewrite visit_wm_eq, (visit_type _ _ x) by (assumption || lia). unfold type_out.
    destruct (soundb x); reflexivity.
  Qed.

  Lemma visit_typed f d nx s : says_decl d nx -> depth_typed d <= f ->
    vis f (ATypedIdentifier d) s = decl_out (fst nx) (snd nx) s.
  Proof.
    intros [Hn Ht] Hf. destruct d as [nm a]. cbn [typed_name typed_type depth_typed] in *.
    destruct (node a) as [t] eqn:Ea. destruct f as [|f]; [lia|]. rewrite visit_S. unfold visit_node.
    assert (He : emit E (vis f) Enter (ATypedIdentifier (mkTypedIdentifier nm a)) s =
      match denote (snd nx) with
      | Some ty => Ret (Ok SkipChildren) (pushed (VariableDeclaration (mkField (fst nx) ty)) s)
      | None => Panic
      end).
    { unfold denote. rewrite Hn. cbn [emit sr_emitter sr_emit].
      unfold bind at 1. unfold bind_res at 1. rewrite wvisit_eq.
      rewrite (visit_annotation _ _ _ _ _ Ea Ht) by lia. unfold type_out. destruct (soundb (snd nx)); [|reflexivity].
      rewrite (bind_ok _ _ _ _ _ (pop_type_pushed _ _)).
      unfold field_of, bind, bind_res. destruct (type_from (sr (snd nx))); reflexivity. }
    unfold decl_out. destruct (denote (snd nx)); [apply standard_skip|apply standard_panic]; exact He.
  Qed.

  Lemma visit_pair f p d nx s : p = mkParameterPair d -> says_decl (node d) nx -> depth_pair p <= f ->
    vis f (AParameterPair p) s = decl_out (fst nx) (snd nx) s.
  Proof.
    intros -> H Hf. cbn [depth_pair] in Hf. destruct f as [|f]; [lia|]. rewrite visit_S. unfold visit_node, standard.
    cbn [emit sr_emitter sr_emit children]. unfold kid_of, bind, bind_res, ret.
    rewrite visit_wm_eq, (visit_typed _ _ nx) by (assumption || lia). unfold decl_out.
    destruct (denote (snd nx)); reflexivity.
  Qed.
End Facts.
