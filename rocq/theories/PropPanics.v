(** Property C71: texts for which reading a contract cannot panic. *)
From Verif Require Import Chars Lexer Ast Types Grammar Cfg Parser Contract Emitter EmitSpec EmitSteps Machine MachineFacts TypeFacts
  PropMachine PropParse2 PropEmit PropTypes.
From Coq Require Import PeanoNat Lia.
Local Open Scope nat_scope.

(** ** Specification *)
(** How many arguments a type needs. *)
Definition needs (n : str) (k : nat) : Prop := (unary n -> 1 <= k) /\ (binary n -> 2 <= k).
(** A type name with [k] arguments; [Event] stands for no name. *)
Definition fits (n : NodeTypeNameIdentifier) (k : nat) : Prop :=
  match n with EventType => True | n => needs (type_name_identifier_display n) k end.
Definition fits_meta (m : NodeMetaIdentifier) (k : nat) : Prop :=
  match m with
  | MetaName n | MetaNameInHexspace _ n => fits (node n) k
  | MetaNameInNamespace ns n => fits (node ns) 0 /\ fits (node n) k
  | MetaByteString => True
  end.
(** [whole_type t]: [t] contains no function type, no polymorphic type, no type
    variable and no [Map] written without parentheses as an argument in the value
    of a map, and [Option], [List] and [Pair] have their arguments wherever they
    are used; as a namespace they have none.  Everything else is allowed: [Event],
    namespaces, address types as keys, fields of address types with any name (the
    type of one that is not a plain name does not matter). *)
Fixpoint whole_key (k : NodeTypeMapKey) : Prop :=
  match k with
  | GenericMapKey m | EnclosedGenericId m => fits_meta (node m) 0
  | EnclosedAddressMapKeyType a | AddressMapKeyType a => whole_addr (node a)
  end
with whole_value (x : NodeTypeMapValue) : Prop :=
  match x with
  | MapValueTypeOrEnumLikeIdentifier m => fits_meta (node m) 0
  | MapKeyValue e => whole_entry (node e)
  | MapValueParenthesizedType t => whole_tva (node t)
  | MapValueAddressType a => whole_addr (node a)
  end
with whole_arg (x : NodeTypeArgument) : Prop :=
  match x with
  | EnclosedTypeArgument t => whole_type (node t)
  | GenericTypeArgument m => fits_meta (node m) 0
  | TemplateTypeArgument _ => False
  | AddressTypeArgument a => whole_addr (node a)
  | MapTypeArgument k x => whole_key (node k) /\ whole_value (node x)
  end
with whole_type (t : NodeScillaType) : Prop :=
  match t with
  | GenericTypeWithArgs m args => fits_meta (node m) (List.length args)
      /\ (fix all l := match l with [] => True | a :: r => whole_arg (node a) /\ all r end) args
  | MapType k x => whole_key (node k) /\ whole_value (node x)
  | FunctionType _ _ | PolyFunctionType _ _ | TypeVarType _ => False
  | EnclosedType t => whole_type (node t)
  | ScillaAddresseType a => whole_addr (node a)
  end
with whole_entry (e : NodeTypeMapEntry) : Prop :=
  match e with mkTypeMapEntry k x => whole_key (node k) /\ whole_value (node x) end
with whole_afield (f : NodeAddressTypeField) : Prop :=
  match f with
  | mkAddressTypeField i t => match node i with VariableName _ => whole_type (node t) | _ => True end
  end
with whole_addr (a : NodeAddressType) : Prop :=
  match a with
  | mkAddressType i _ fs => fits (node i) 0
      /\ (fix all l := match l with [] => True | a :: r => whole_afield (node a) /\ all r end) fs
  end
with whole_tvarg (x : NodeTypeMapValueArguments) : Prop :=
  match x with
  | EnclosedTypeMapValue t => whole_tva (node t)
  | GenericMapValueArgument m => fits_meta (node m) 0
  | MapKeyValueType _ _ => False
  end
with whole_tva (x : NodeTypeMapValueAllowingTypeArguments) : Prop :=
  match x with
  | TypeMapValueNoArgs x => whole_value (node x)
  | TypeMapValueWithArgs m args => fits_meta (node m) (List.length args)
      /\ (fix all l := match l with [] => True | a :: r => whole_tvarg (node a) /\ all r end) args
  end.

Definition contract_name (c : NodeContractDefinition) : NodeTypeNameIdentifier :=
  match c with mkContractDefinition n _ _ _ _ => node n end.

(** ** Proof *)
Lemma all_forall {A} (P : A -> Prop) (l : list (wm A)) :
  (fix all l := match l with [] => True | a :: r => P (node a) /\ all r end) l <-> Forall (fun a => P (node a)) l.
Proof.
  induction l as [|a l IH]; [split; constructor|]. rewrite IH. split; [intros [H1 H2]; constructor; assumption|]. intro H. inversion H. auto.
Qed.

(** Types that can be converted. *)
Inductive conv : sr_type -> Prop :=
| conv_intro n subs a : needs n (List.length subs) -> Forall conv subs -> conv (mkSr n subs a).
Lemma conv_from : forall t, conv t -> exists ty, type_from t = Some ty.
Proof.
  apply (sr_rect' (fun t => conv t -> exists ty, type_from t = Some ty)). intros n subs a IH H. inversion H as [? ? ? [H1 H2] Hs]; subst.
  assert (F : Forall (fun t => exists ty, type_from t = Some ty) subs) by (clear -IH Hs; induction IH; inversion Hs; subst; constructor; auto). clear IH Hs H.
  destruct (unary_dec n) as [Hu|Hu].
  - rewrite unary_from by exact Hu. specialize (H1 Hu). destruct (snoc_inv subs) as [->|(r & x & ->)]; [cbn in H1; lia|].
    rewrite rev_map_snoc. apply Forall_app in F. destruct F as [_ F]. inversion F as [|? ? [ty E] _]; subst. rewrite E. eauto.
  - destruct (binary_dec n) as [Hb|Hb]; [|apply not_special; assumption]. rewrite binary_from by exact Hb. specialize (H2 Hb).
    destruct (snoc_inv subs) as [->|(r & y & ->)]; [cbn in H2; lia|]. destruct (snoc_inv r) as [->|(r' & x & ->)]; [cbn in H2; lia|].
    rewrite <- app_assoc in *. cbn [app] in *. rewrite rev_map_snoc2. apply Forall_app in F. destruct F as [_ F].
    inversion F as [|? ? [tx Ex] F2]; subst. inversion F2 as [|? ? [ty Ey] _]; subst. rewrite Ex, Ey. eauto.
Qed.

Section Facts.
  Context (debug : stack_object -> str).
  Notation exs := (execs debug).
  Notation ex := (exec debug).
  Definition calm_object (o : stack_object) : Prop :=
    match o with SoTypeDefinition t => conv t | IrIdentifier i => needs (unresolved i) 0 | VariableDeclaration _ => True end.
  Definition calm (s : Machine.state) : Prop := Forall calm_object (fst s).
  Definition fine (o : out) : Prop := match o with Done s | Fail _ s => calm s | Abort => False end.
  Definition good (l : list cmd) : Prop := forall s, calm s -> fine (exs l s).

  Lemma good_nil : good []. Proof. intros s Hs. exact Hs. Qed.
  Lemma fine_then o k : fine o -> (forall s, calm s -> fine (k s)) -> fine (andthen o k).
  Proof. destruct o; cbn; auto. Qed.
  Lemma good_app l m : good l -> good m -> good (l ++ m).
  Proof. intros H1 H2 s Hs. rewrite execs_app. apply fine_then; [apply H1, Hs|exact H2]. Qed.
  Lemma fine_take_type k s : calm s -> (forall t s, conv t -> calm s -> fine (k t s)) -> fine (take_type debug k s).
  Proof.
    intros Hs Hk. unfold take_type, take. destruct s as [[|[i|f|t] r] c]; cbn [fst snd] in *; [exact Hs|inversion_clear Hs..]; try assumption.
    apply Hk; assumption.
  Qed.
  Lemma fine_take_name k s : calm s -> (forall i s, needs (unresolved i) 0 -> calm s -> fine (k i s)) -> fine (take_name debug k s).
  Proof.
    intros Hs Hk. unfold take_name, take. destruct s as [[|[i|f|t] r] c]; cbn [fst snd] in *; [exact Hs|inversion_clear Hs..]; try assumption.
    apply Hk; assumption.
  Qed.
  Lemma fine_take_decl k s : calm s -> (forall f s, calm s -> fine (k f s)) -> fine (take_decl debug k s).
  Proof.
    intros Hs Hk. unfold take_decl, take. destruct s as [[|[i|f|t] r] c]; cbn [fst snd] in *; [exact Hs|inversion_clear Hs..]; try assumption.
    apply Hk; assumption.
  Qed.
  Lemma fine_put o s : calm_object o -> calm s -> fine (put o s).
  Proof. intros Ho Hs. constructor; assumption. Qed.

  Lemma good_name n k : needs n 0 -> good [Name n k].
  Proof. intros H s Hs. rewrite execs_one. apply fine_put; [exact H|exact Hs]. Qed.
  Lemma needs_weak n k : needs n 0 -> needs n k.
  Proof. intros [H1 H2]. split; intro H; [specialize (H1 H)|specialize (H2 H)]; lia. Qed.
  Lemma good_totype : good [ToType].
  Proof.
    intros s Hs. rewrite execs_one. cbn [exec]. apply fine_take_name; [exact Hs|]. intros i s' Hi Hs'. apply fine_put; [|exact Hs'].
    constructor; [exact Hi|constructor].
  Qed.
  Lemma map_needs (t t' : sr_type) : needs (lit "Map") (List.length [t; t']).
  Proof. split; intros _; cbn; lia. Qed.
  Lemma good_tomap : good [ToMap].
  Proof.
    intros s Hs. rewrite execs_one. cbn [exec]. apply fine_take_type; [exact Hs|]. intros t s' Ht Hs'. apply fine_take_type; [exact Hs'|].
    intros t' s2 Ht' H2. apply fine_put; [|exact H2]. constructor; [apply map_needs|repeat constructor; assumption].
  Qed.
  Lemma good_setname n : good [SetName n]. Proof. intros s Hs. exact Hs. Qed.
  Lemma good_attempt l : good l -> good [Attempt l].
  Proof. intros H s Hs. rewrite execs_one, attempt_eq. specialize (H s Hs). destruct (exs l s); exact H. Qed.
  Lemma good_declare n : good [Declare n].
  Proof.
    intros s Hs. rewrite execs_one. cbn [exec]. apply fine_take_type; [exact Hs|]. intros t s' Ht Hs'. destruct (conv_from t Ht) as (ty & ->).
    apply fine_put; [exact I|exact Hs'].
  Qed.
  (** A type and its arguments: what is below is a name taking none, or the name itself. *)
  Lemma fine_each n a l : Forall good l -> forall subs s, needs n (List.length subs + List.length l) -> Forall conv subs -> calm s ->
    fine (each_arg debug n a l subs s).
  Proof.
    induction 1 as [|x l Hx _ IH]; intros subs s Hn Hc Hs.
    - apply fine_put; [|exact Hs]. constructor; [rewrite Nat.add_0_r in Hn; exact Hn|exact Hc].
    - rewrite each_arg_cons. apply fine_then; [apply Hx, Hs|]. intros s' Hs'. apply fine_take_type; [exact Hs'|]. intros t s2 Ht H2.
      apply IH; [|apply Forall_app; auto|exact H2]. rewrite app_length. cbn [List.length] in *. rewrite <- Nat.add_assoc. exact Hn.
  Qed.
  Definition args_code (l : list (list cmd)) : list cmd := match l with [] => [] | _ => [Args l] end.
  Lemma fine_args l n s : Forall good l -> needs n (List.length l) -> calm s ->
    fine (exs (args_code l) (SoTypeDefinition (mkSr n [] None) :: fst s, snd s)).
  Proof.
    intros H Hn Hs. destruct l as [|x l].
    - constructor; [|exact Hs]. constructor; [exact Hn|constructor].
    - unfold args_code. rewrite execs_one, args_eq. unfold take_type, take. cbn [fst snd]. apply fine_each; [exact H|exact Hn|constructor|exact Hs].
  Qed.
  Lemma good_lead n l : fits n (List.length l) -> Forall good l -> good (code_name n ++ [ToType] ++ args_code l).
  Proof.
    intros Hn H s Hs. destruct n as [b| |w]; cbn [code_name app fits type_name_identifier_display] in *.
    - cbn [execs exec put andthen fst snd]. unfold take_name, take, put. cbn [fst snd andthen]. apply (fine_args l _ s H Hn Hs).
    - cbn [execs]. cbn [exec]. apply fine_then.
      + apply fine_take_name; [exact Hs|]. intros i s' Hi Hs'. apply fine_put; [|exact Hs']. constructor; [exact Hi|constructor].
      + destruct l as [|x l]; [intros s' Hs'; exact Hs'|]. intros s' Hs'. unfold args_code. rewrite execs_one, args_eq.
        apply fine_take_type; [exact Hs'|]. intros [m subs a] s2 Hc H2. inversion Hc as [? ? ? Hm Hsub]; subst.
        apply fine_each; [exact H| |exact Hsub|exact H2]. destruct Hm as [M1 M2]. split; intro G; [specialize (M1 G)|specialize (M2 G)]; lia.
    - cbn [execs exec put andthen fst snd]. unfold take_name, take, put. cbn [fst snd andthen]. apply (fine_args l _ s H Hn Hs).
  Qed.
  Lemma good_code_name n : fits n 0 -> good (code_name n).
  Proof. destruct n; intro H; cbn; [apply good_name; exact H|apply good_nil|apply good_name; exact H]. Qed.
  Lemma good_with_args m l : fits_meta m (List.length l) -> Forall good l -> good (with_args (code_meta m) l).
  Proof.
    intros Hm H. unfold with_args. change (match l with [] => [] | _ => [Args l] end) with (args_code l).
    destruct m as [n|ns n|h n|]; cbn [code_meta fits_meta] in *.
    - apply good_lead; assumption.
    - destruct Hm as [H1 H2]. rewrite <- app_assoc. apply good_app; [apply good_code_name, H1|apply good_lead; assumption].
    - apply good_lead; assumption.
    - intros s Hs. cbn [app execs exec put andthen fst snd]. unfold take_name, take, put. cbn [fst snd andthen].
      apply (fine_args l _ s H); [|exact Hs]. split; intros [G|G]; discriminate G.
  Qed.
  Lemma good_head m : fits_meta m 0 -> good (code_meta m ++ [ToType]).
  Proof. intro H. exact (good_with_args m [] H (Forall_nil _)). Qed.
  Definition field_code (l : list cmd) : Prop := good l.
  Lemma fine_fields n tn subs l : Forall good l -> needs n (List.length subs) -> Forall conv subs -> forall fs s, calm s -> fine (each_field debug n subs tn l fs s).
  Proof.
    intros H Hn Hc. induction H as [|x l Hx _ IH]; intros fs s Hs.
    - apply fine_put; [|exact Hs]. constructor; assumption.
    - rewrite each_field_cons. apply fine_then; [apply Hx, Hs|]. intros s' Hs'. apply fine_take_decl; [exact Hs'|]. intros f s2 H2. apply IH, H2.
  Qed.
  Lemma good_address i tn l : fits i 0 -> Forall good l -> good (code_name i ++ [ToType; Record tn l]).
  Proof.
    intros Hi H. change [ToType; Record tn l] with ([ToType] ++ [Record tn l]). apply good_app; [apply good_code_name, Hi|].
    apply good_app; [apply good_totype|]. intros s Hs. rewrite execs_one, record_eq. apply fine_take_type; [exact Hs|].
    intros [m subs a] s' Hc Hs'. inversion Hc; subst. apply fine_fields; assumption.
  Qed.

  Definition good_at (f : nat) : Prop :=
    (forall t, depth_type t <= f -> whole_type t -> good (code_type t)) /\ (forall t, depth_key t <= f -> whole_key t -> good (code_key t)) /\
    (forall t, depth_value t <= f -> whole_value t -> good (code_value t)) /\ (forall t, depth_arg t <= f -> whole_arg t -> good (code_arg t)) /\
    (forall t, depth_entry t <= f -> whole_entry t -> good (code_entry t)) /\ (forall t, depth_afield t <= f -> whole_afield t -> good (code_afield t)) /\
    (forall t, depth_addr t <= f -> whole_addr t -> good (code_addr t)) /\ (forall t, depth_tvarg t <= f -> whole_tvarg t -> good (code_tvarg t)) /\
    (forall t, depth_tva t <= f -> whole_tva t -> good (code_tva t)).

  Lemma good_all f : good_at f.
  Proof.
    induction f as [|f IH].
    { unfold good_at. repeat apply conj; intros [] H; cbn in H; lia. }
    destruct IH as (IHt & IHk & IHv & IHa & IHe & IHf & IHd & IHg & IHw).
    unfold good_at. repeat apply conj; intros t H W.
    - destruct t; cbn [depth_type code_type whole_type] in *; try contradiction.
      + destruct W as [W1 W2]. apply all_forall in W2. rewrite Forall_forall in W2. apply good_with_args; [rewrite map_length; exact W1|].
        apply Forall_map, Forall_forall. intros x Hx. apply IHa; [apply (list_in depth_arg args); [lia|exact Hx]|apply W2, Hx].
      + destruct W as [W1 W2]. apply good_app; [apply IHk; [lia|exact W1]|]. apply good_app; [apply IHv; [lia|exact W2]|apply good_tomap].
      + apply IHt; [lia|exact W].
      + apply IHd; [lia|exact W].
    - destruct t; cbn [depth_key code_key whole_key] in *.
      + apply good_head, W.
      + apply good_head, W.
      + apply good_app; [apply IHd; [lia|exact W]|apply good_totype].
      + apply good_app; [apply IHd; [lia|exact W]|apply good_totype].
    - destruct t; cbn [depth_value code_value whole_value] in *.
      + apply good_head, W.
      + apply good_app; [apply IHe; [lia|exact W]|apply good_tomap].
      + apply IHw; [lia|exact W].
      + apply IHd; [lia|exact W].
    - destruct t; cbn [depth_arg code_arg whole_arg] in *; try contradiction.
      + apply IHt; [lia|exact W].
      + apply good_head, W.
      + apply IHd; [lia|exact W].
      + destruct W as [W1 W2]. apply good_app; [apply IHk; [lia|exact W1]|]. apply good_app; [apply IHv; [lia|exact W2]|apply good_tomap].
    - destruct t as [k x]. cbn [depth_entry code_entry whole_entry] in *. destruct W as [W1 W2].
      apply good_app; [apply IHk; [lia|exact W1]|apply IHv; [lia|exact W2]].
    - destruct t as [i x]. cbn [depth_afield code_afield whole_afield] in *. destruct (node i) as [n| |]; [|apply good_nil|apply good_nil].
      apply good_app; [apply IHt; [lia|exact W]|apply good_declare].
    - destruct t as [i tn fs]. cbn [depth_addr code_addr whole_addr] in *. destruct W as [W1 W2]. apply all_forall in W2. rewrite Forall_forall in W2.
      apply good_attempt, good_address; [exact W1|]. apply Forall_map, Forall_forall. intros x Hx.
      apply IHf; [apply (list_in depth_afield fs); [lia|exact Hx]|apply W2, Hx].
    - destruct t; cbn [depth_tvarg code_tvarg whole_tvarg] in *; [apply IHw; [lia|exact W]|apply good_head, W|contradiction].
    - destruct t; cbn [depth_tva code_tva whole_tva] in *.
      + apply IHv; [lia|exact W].
      + destruct W as [W1 W2]. apply all_forall in W2. rewrite Forall_forall in W2. apply good_with_args; [rewrite map_length; exact W1|].
        apply Forall_map, Forall_forall. intros x Hx. apply IHg; [apply (list_in depth_tvarg args); [lia|exact Hx]|apply W2, Hx].
  Qed.
  Lemma good_decl d : whole_type (typed_type d) -> good (code_decl d).
  Proof. intro W. apply good_app; [apply (good_all (depth_type (typed_type d))); [lia|exact W]|apply good_declare]. Qed.
  Lemma good_flat {A} (code : A -> list cmd) l : (forall x, In x l -> good (code x)) -> good (flat_map code l).
  Proof.
    induction l as [|x l IH]; intro H; cbn [flat_map]; [apply good_nil|]. apply good_app; [apply H; left; reflexivity|].
    apply IH. intros y Hy. apply H. right. exact Hy.
  Qed.
  Lemma good_addparam : good [AddParam].
  Proof. intros s Hs. rewrite execs_one. cbn [exec]. apply fine_take_decl; [exact Hs|]. intros f [st c] H. exact H. Qed.
  Lemma good_addfield : good [AddField].
  Proof. intros s Hs. rewrite execs_one. cbn [exec]. apply fine_take_decl; [exact Hs|]. intros f [st c] H. exact H. Qed.

  (** Transitions with supported parameters. *)
  Definition clear_decl (d : NodeTypedIdentifier) : Prop := exists x, says_type (typed_type d) x /\ supported x.
  Lemma clear_out d : clear_decl d -> forall s, exists f, exs (code_decl d) s = Done (VariableDeclaration f :: fst s, snd s).
  Proof.
    intros (x & Hx & Hs) s. destruct (C24_supported_denotes x Hs) as (ty & Ht). exists (mkField (typed_name d) ty).
    destruct (C23_type_pushes_one debug (typed_type d) x ty Hx Ht) as (srt & Ef & Ev).
    unfold code_decl. rewrite execs_app. pose proof (agree_visit debug (typed_type d) (mkst (fst s) (snd s))) as A.
    unfold visit_ty in A. rewrite Ev in A by lia. unfold agree, st in A. cbn [es_stack es_contract] in A.
    replace (fst s, snd s) with s in A by (destruct s; reflexivity). rewrite A. cbn [andthen]. rewrite execs_one. cbn [exec].
    unfold take_type, take. cbn [fst snd]. rewrite Ef. reflexivity.
  Qed.
  Lemma transition_done t : Forall clear_decl (snd t) -> forall s, exists c, exs [Name (fst t) KComponentName; AddTransition (map code_decl (snd t))] s = Done (fst s, c).
  Proof.
    intros H s. change [Name (fst t) KComponentName; AddTransition (map code_decl (snd t))]
      with ([Name (fst t) KComponentName] ++ [AddTransition (map code_decl (snd t))]).
    rewrite execs_app, execs_one. cbn [exec put andthen]. rewrite execs_one, transition_eq. destruct s as [r c]. cbn [fst snd].
    assert (G : forall l acc, Forall clear_decl l -> exists c', each_param debug (map code_decl l) acc (IrIdentifier (mkId (fst t) KComponentName) :: r, c) = Done (r, c')).
    { clear H. induction l as [|d l IH]; intros acc H.
      - eexists. reflexivity.
      - inversion H; subst. cbn [map each_param]. destruct (clear_out d ltac:(assumption) (IrIdentifier (mkId (fst t) KComponentName) :: r, c)) as (f & ->).
        cbn [andthen]. unfold take_decl at 1, take. cbn [fst snd]. apply IH. assumption. }
    destruct (G (snd t) [] H) as (c' & ->). exists c'. reflexivity.
  Qed.
  Lemma transitions_done l : Forall (fun t => Forall clear_decl (snd t)) l -> forall s, exists s',
    exs (flat_map (fun t => [Name (fst t) KComponentName; AddTransition (map code_decl (snd t))]) l) s = Done s'.
  Proof.
    induction 1 as [|t l Ht _ IH]; intro s; [exists s; reflexivity|]. cbn [flat_map]. rewrite execs_app.
    destruct (transition_done t Ht s) as (c & ->). apply IH.
  Qed.
End Facts.

(** ** Theorem *)
(** A text that parses, whose contract is not called [Option], [List], [Pair] or
    [Map], whose parameters and fields have whole types and whose transitions have
    supported parameters is not answered with a panic. *)
Theorem C71_no_panic : forall U debug text p, parse_str U Program text = POk p ->
  let c := contract_of p in
  fits (contract_name c) 0 ->
  Forall (fun d => whole_type (typed_type d)) (contract_param_decls c) ->
  Forall (fun d => whole_type (typed_type d)) (field_decls c) ->
  Forall (fun t => Forall (fun d => exists x, says_type (typed_type d) x /\ supported x) (snd t)) (transition_decls c) ->
  from_str U debug text <> RPanic.
Proof.
  intros U debug text p Hp c Hn H1 H2 H3. rewrite (C65_machine U debug text p Hp). subst c.
  destruct p as [v imps lib cd]. cbn [contract_of code_program] in *. generalize dependent (node cd). clear. intros c Hn H1 H2 H3.
  rewrite Forall_forall in H1, H2. unfold code_contract. rewrite !app_assoc, execs_app.
  match goal with |- context [andthen (execs debug ?l start) _] => assert (G : good debug l) end.
  { apply good_app; [apply good_app; [apply good_app; [apply good_app; [destruct c; apply good_code_name, Hn|apply good_setname]|]|]|].
    - apply good_flat. intros d Hd. apply good_app; [apply good_decl, H1, Hd|apply good_addparam].
    - apply good_flat. intros d Hd. apply good_decl, H1, Hd.
    - apply good_flat. intros d Hd. apply good_app; [apply good_decl, H2, Hd|apply good_addfield]. }
  specialize (G start (Forall_nil _)). match goal with |- context [andthen ?o _] => destruct o as [s|m s|] end; cbn [andthen] in *.
  - destruct (transitions_done debug (transition_decls c) H3 s) as (s' & ->). discriminate.
  - discriminate.
  - destruct G.
Qed.

(** ** Witnesses *)
Definition met (text : string) : Prop := exists p, parse_str U_none Program (lit text) = POk p /\
  let c := contract_of p in
  fits (contract_name c) 0 /\
  Forall (fun d => whole_type (typed_type d)) (contract_param_decls c) /\
  Forall (fun d => whole_type (typed_type d)) (field_decls c) /\
  Forall (fun t => Forall (fun d => exists x, says_type (typed_type d) x /\ supported x) (snd t)) (transition_decls c).
Ltac wholes := repeat first [exact I | apply Forall_nil | apply Forall_cons | split | progress cbn];
  try (intros _; lia); try (let H := fresh in intros [H|H]; vm_compute in H; discriminate H).
Ltac meets := eexists; split; [vm_compute; reflexivity|cbv zeta; split; [cbn|split; [cbn|split; cbn]]; wholes].
Ltac says := eexists; split; [repeat econstructor|cbn; wholes].

(** An answer that is a value, and two that are errors: an address type as key and
    a namespace; a field of an address type that is not a plain name, and [Event]. *)
Definition t_value : string :=
  "scilla_version 0 contract C(o : Option (Pair Nat (List Nat))) field x: Map ByStr20 (Map Nat Nat) = e transition T(a: Pair Nat (Option Nat)) end".
Definition t_error1 : string :=
  "scilla_version 0 contract C(o : Option (Pair Nat Ns.Nat)) field x: Map (ByStr20 with contract field y: List Nat end) Nat = e transition T(a: Nat) end".
Definition t_error2 : string :=
  "scilla_version 0 contract C() field x: Map (ByStr20 with contract field _a: Option end) Nat = e field y : Event = e".
Example C71_example_value : met t_value /\ exists c, from_str U_none no_debug (lit t_value) = RValue c.
Proof. split; [|eexists; vm_compute; reflexivity]. meets. says. Qed.
Example C71_example_error1 : met t_error1 /\ exists e, from_str U_none no_debug (lit t_error1) = RError e.
Proof. split; [|eexists; vm_compute; reflexivity]. meets. says. Qed.
Example C71_example_error2 : met t_error2 /\ exists e, from_str U_none no_debug (lit t_error2) = RError e.
Proof. split; [|eexists; vm_compute; reflexivity]. meets. Qed.

(** Texts violating one condition each, all answered with a panic. *)
Definition with_field (t : string) : string := "scilla_version 0 contract C() field x: " ++ t ++ " = e".
Definition with_param (t : string) : string := "scilla_version 0 contract C(x: " ++ t ++ ")".
Definition with_transition (t : string) : string := "scilla_version 0 contract C() transition T(x: " ++ t ++ ") end".
Definition unwhole : list string := [
  "Nat -> Nat"; "'A"; "forall 'A. Nat"; "List 'A"; "Map Nat (List Map Nat Nat)";
  "Option"; "List"; "Pair"; "Pair Nat"; "List Option"; "Map Option Nat"; "Map Nat List"; "Map Nat (Pair Nat)";
  "List with contract field x: Nat end"; "ByStr20 with contract field x: Option end" ]%string.
Theorem C71_each_condition_needed :
  Forall (fun t => from_str U_none no_debug (lit (with_field t)) = RPanic) unwhole /\
  Forall (fun t => from_str U_none no_debug (lit (with_param t)) = RPanic) unwhole /\
  Forall (fun t => from_str U_none no_debug (lit (with_transition t)) = RPanic) (["Ns.Nat"; "Event"]%string ++ unwhole) /\
  from_str U_none no_debug (lit "scilla_version 0 contract Option() field x: Event = e") = RPanic /\
  from_str U_none no_debug (lit "scilla_version 0 contract C() field x: Option.Nat = e field y: Event = e") = RPanic.
Proof.
  split; [unfold unwhole; repeat (apply Forall_cons; [vm_compute; reflexivity|]); apply Forall_nil|].
  split; [unfold unwhole; repeat (apply Forall_cons; [vm_compute; reflexivity|]); apply Forall_nil|].
  split; [unfold unwhole; cbn [app]; repeat (apply Forall_cons; [vm_compute; reflexivity|]); apply Forall_nil|].
  split; vm_compute; reflexivity.
Qed.
