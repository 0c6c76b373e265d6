(** C27: map keys that are address types; C26: map values that are namespaced. *)
From Verif Require Import Chars Lexer Ast Types Visitor Emitter EmitSpec TypeFacts EmitTypes EmitProgram EmitInv EmitErase EmitSig EmitOk EmitSteps EmitFail Reads ReadsFacts QuirkFacts.
Local Open Scope nat_scope.

(** A map key that is an address type saying [x] (in the sense of Reads.v). *)
Inductive address_key : NodeTypeMapKey -> texp -> Prop :=
| ak_plain a x ks : reads_address (node a) x ks -> address_key (AddressMapKeyType a) x
| ak_enclosed a x ks : reads_address (node a) x ks -> address_key (EnclosedAddressMapKeyType a) x.

(** A map with such a key somewhere in a type, not inside the fields of an
    address type. *)
Inductive keyed_type : NodeScillaType -> Prop :=
| kt_here k v x : address_key (node k) x -> keyed_type (MapType k v)
| kt_value k v : keyed_value (node v) -> keyed_type (MapType k v)
| kt_enclosed t : keyed_type (node t) -> keyed_type (EnclosedType t)
| kt_arg m args a : In a args -> keyed_arg (node a) -> keyed_type (GenericTypeWithArgs m args)
with keyed_arg : NodeTypeArgument -> Prop :=
| ka_enclosed t : keyed_type (node t) -> keyed_arg (EnclosedTypeArgument t)
| ka_here k v x : address_key (node k) x -> keyed_arg (MapTypeArgument k v)
| ka_value k v : keyed_value (node v) -> keyed_arg (MapTypeArgument k v)
with keyed_value : NodeTypeMapValue -> Prop :=
| kv_here e k v x : node e = mkTypeMapEntry k v -> address_key (node k) x -> keyed_value (MapKeyValue e)
| kv_value e k v : node e = mkTypeMapEntry k v -> keyed_value (node v) -> keyed_value (MapKeyValue e)
| kv_enclosed t : keyed_tva (node t) -> keyed_value (MapValueParenthesizedType t)
with keyed_tva : NodeTypeMapValueAllowingTypeArguments -> Prop :=
| kw_noargs t : keyed_value (node t) -> keyed_tva (TypeMapValueNoArgs t)
| kw_arg m args a : In a args -> keyed_tvarg (node a) -> keyed_tva (TypeMapValueWithArgs m args)
with keyed_tvarg : NodeTypeMapValueArguments -> Prop :=
| kg_enclosed t : keyed_tva (node t) -> keyed_tvarg (EnclosedTypeMapValue t).

Section Keys.
  Context (debug : stack_object -> str).
  Notation E := (sr_emitter debug).
  Notation vis := (visit E).

  Definition key_message (x : texp) : str := lit "Expected symbol name, but found " ++ debug (SoTypeDefinition (sr x)) ++ lit ".".

  Lemma key_fails f k x s : address_key k x -> depth_key k <= f ->
    if soundb x then exists s', vis f (ATypeMapKey k) s = Ret (Err (key_message x)) s' else vis f (ATypeMapKey k) s = Panic.
  Proof.
    intros H Hf. destruct f as [|f]; [destruct H; cbn in Hf; lia|].
    assert (G : forall a ks, reads_address (node a) x ks -> depth_addr (node a) <= f ->
      if soundb x then exists s', (wvisit (vis f) AAddressType a ;;; ident_to_type debug ;;; ret SkipChildren) s = Ret (Err (key_message x)) s'
      else (wvisit (vis f) AAddressType a ;;; ident_to_type debug ;;; ret SkipChildren) s = Panic).
    { intros a ks Ha Hd. destruct (visits_r_all debug f) as (_ & _ & _ & _ & Hv & _).
      assert (Ew : wvisit (vis f) AAddressType a s = ra_out x ks s) by (rewrite wvisit_eq; apply (Hv _ x ks _ Ha Hd)).
      unfold ra_out in Ew. destruct (soundb x); [eexists|]; unfold bind at 1; unfold bind_res at 1; rewrite Ew; reflexivity. }
    rewrite visit_S. unfold visit_node.
    destruct H as [a x ks Ha|a x ks Ha]; cbn [depth_key] in Hf; specialize (G a ks Ha ltac:(lia)); destruct (soundb x).
    - destruct G as [s' G]. exists s'. apply standard_err. exact G.
    - apply standard_panic. exact G.
    - destruct G as [s' G]. exists s'. apply standard_err. exact G.
    - apply standard_panic. exact G.
  Qed.

  Definition fails (f : nat) (n : anynode) : Prop := forall s r s', vis f n s <> Ret (Ok r) s'.
  Lemma key_never f k x : address_key k x -> depth_key k <= f -> fails f (ATypeMapKey k).
  Proof.
    intros H Hf s r s' E. pose proof (key_fails f k x s H Hf) as G. destruct (soundb x); [destruct G as [s1 G]|]; congruence.
  Qed.
  Lemma std_fails (e : mode -> EM tr) c s r s' : (forall s r s', e Enter s <> Ret (Ok r) s') -> standard e c s <> Ret (Ok r) s'.
  Proof.
    intros H. unfold standard, bind_res. destruct (e Enter s) as [[x|m] s1| |] eqn:Ee; intro G; try discriminate. destruct (H _ _ _ Ee).
  Qed.
  Lemma bind_never {A B} (m : EM A) (k : A -> EM B) :
    (forall s a s', m s <> Ret (Ok a) s') -> forall s b s', bind m k s <> Ret (Ok b) s'.
  Proof. intros H s b s' G. apply bind_inv in G. destruct G as (a & s1 & G & _). exact (H _ _ _ G). Qed.
  Lemma bind_never2 {A B} (m : EM A) (k : A -> EM B) :
    (forall a s b s', k a s <> Ret (Ok b) s') -> forall s b s', bind m k s <> Ret (Ok b) s'.
  Proof. intros H s b s' G. apply bind_inv in G. destruct G as (a & s1 & _ & G). exact (H _ _ _ _ G). Qed.
  Lemma wvisit_never f {A} (inj : A -> anynode) (w : wm A) : fails f (inj (node w)) -> forall s r s', wvisit (vis f) inj w s <> Ret (Ok r) s'.
  Proof. intros H s r s'. rewrite wvisit_eq. apply H. Qed.
  Lemma collect_never f {A} (inj : A -> anynode) (l : list (wm A)) a : In a l -> fails f (inj (node a)) ->
    forall main s r s', collect_sub_types debug (vis f) inj l main s <> Ret (Ok r) s'.
  Proof.
    intros Hi H. induction l as [|b l IH]; [destruct Hi|]. intro main. cbn [collect_sub_types]. destruct Hi as [->|Hi].
    - apply bind_never, wvisit_never, H.
    - apply bind_never2. intro. apply bind_never2. intro. apply IH, Hi.
  Qed.
  Lemma generic_never f {A} (inj : A -> anynode) lead (l : list (wm A)) a : In a l -> fails f (inj (node a)) ->
    forall s r s', generic_type debug (vis f) inj lead l s <> Ret (Ok r) s'.
  Proof.
    intros Hi H. unfold generic_type. apply bind_never2. intro. apply bind_never2. intro. destruct l as [|b l]; [destruct Hi|].
    apply bind_never2. intro. apply bind_never. apply (collect_never f inj _ a Hi H).
  Qed.
  Lemma entry_never f e k v : node e = mkTypeMapEntry k v ->
    fails f (ATypeMapKey (node k)) \/ fails f (ATypeMapValue (node v)) -> fails (S f) (ATypeMapEntry (node e)).
  Proof.
    intros He H s r s'. rewrite He, visit_S. unfold visit_node, standard. cbn [emit sr_emitter sr_emit children].
    unfold kid_of, bind, bind_res, ret. rewrite visit_wm_eq.
    destruct (vis f (ATypeMapKey (node k)) s) as [[[]|m] s1| |] eqn:Ek; try discriminate;
    try (destruct H as [H|H]; [destruct (H _ _ _ Ek)|]); rewrite ?visit_wm_eq;
      destruct (vis f (ATypeMapValue (node v)) s1) as [[[]|m] s2| |] eqn:Ev; try discriminate; exfalso; exact (H _ _ _ Ev).
  Qed.

  Definition never_keyed (f : nat) : Prop :=
    (forall t, keyed_type t -> depth_type t <= f -> fails f (AScillaType t)) /\
    (forall t, keyed_arg t -> depth_arg t <= f -> fails f (ATypeArgument t)) /\
    (forall t, keyed_value t -> depth_value t <= f -> fails f (ATypeMapValue t)) /\
    (forall t, keyed_tva t -> depth_tva t <= f -> fails f (ATypeMapValueAllowingTypeArguments t)) /\
    (forall t, keyed_tvarg t -> depth_tvarg t <= f -> fails f (ATypeMapValueArguments t)).

  Lemma never_keyed_all f : never_keyed f.
  Proof.
    induction f as [f IH0] using (well_founded_induction PeanoNat.Nat.lt_wf_0).
    destruct f as [|f].
    { repeat split; intros t H Hf; exfalso; inversion H; subst; cbn in Hf; lia. }
    destruct (IH0 f (PeanoNat.Nat.lt_succ_diag_r f)) as (IHt & IHa & IHv & IHw & IHg).
    assert (Hin : forall {A} (g : A -> nat) (l : list (wm A)) a, In a l -> g (node a) <= list_max (map (fun w => g (node w)) l)).
    { intros A g l a Hi. exact (list_max_in (fun w => g (node w)) l a Hi). }
    repeat split; intros t H Hf s r s'; rewrite visit_S; unfold visit_node; apply std_fails; clear s r s'; cbn [emit sr_emitter sr_emit];
      destruct H; cbn [depth_type depth_arg depth_value depth_tva depth_tvarg] in Hf.
    all: try (apply bind_never).
    - apply bind_never, wvisit_never. eapply key_never; [eassumption|lia].
    - apply bind_never2. intro. apply bind_never, wvisit_never, IHv; [assumption|lia].
    - apply bind_never, wvisit_never, IHt; [assumption|lia].
    - apply (generic_never f _ _ _ a H). apply IHa; [assumption|]. pose proof (Hin _ depth_arg args a H). lia.
    - apply bind_never, wvisit_never, IHt; [assumption|lia].
    - apply bind_never, wvisit_never. eapply key_never; [eassumption|lia].
    - apply bind_never2. intro. apply bind_never, wvisit_never, IHv; [assumption|lia].
    - rewrite H in Hf. cbn [depth_entry] in Hf. destruct f as [|f]; [lia|]. apply bind_never, wvisit_never, (entry_never f e k v H). left. eapply key_never; [eassumption|lia].
    - rewrite H in Hf. cbn [depth_entry] in Hf. destruct f as [|f]; [lia|]. apply bind_never, wvisit_never, (entry_never f e k v H). right.
      destruct (IH0 f ltac:(lia)) as (_ & _ & IHv' & _). apply IHv'; [assumption|lia].
    - apply bind_never, wvisit_never, IHw; [assumption|lia].
    - apply bind_never, wvisit_never, IHv; [assumption|lia].
    - apply (generic_never f _ _ _ a H). apply IHg; [assumption|]. pose proof (Hin _ depth_tvarg args a H). lia.
    - apply bind_never, wvisit_never, IHw; [assumption|lia].
  Qed.

  Lemma keyed_never d : keyed_type (typed_type d) -> never_ok debug d.
  Proof.
    intros H s f s'. unfold EmitSteps.decl. apply bind_never. unfold visit_ty.
    destruct (never_keyed_all (depth_type (typed_type d))) as [Hn _]. exact (Hn _ H (PeanoNat.Nat.le_refl _)).
  Qed.

  (** the message, when the map is the whole annotation *)
  Lemma map_key_fails d k v x s : typed_type d = MapType k v -> address_key (node k) x ->
    fails_with (if soundb x then EErr (key_message x) else EPanic) (decl debug d s).
  Proof.
    intros Et Hk. unfold EmitSteps.decl. apply fails_bind. unfold visit_ty. rewrite Et.
    destruct (depth_type (MapType k v)) as [|f] eqn:Ed; [cbn in Ed; lia|]. cbn [depth_type] in Ed.
    rewrite visit_S. unfold visit_node, standard. unfold bind_res at 1. cbn [emit sr_emitter sr_emit].
    unfold bind at 1 2. unfold bind_res at 1 2. rewrite wvisit_eq.
    pose proof (key_fails f (node k) x s Hk ltac:(lia)) as G. destruct (soundb x); [destruct G as [s' G]|]; rewrite G; cbn [fails_with].
    - eexists. reflexivity.
    - reflexivity.
  Qed.

  (** C26: a map whose value leaves a namespace behind *)
  Definition value_message (k : str) : str :=
    lit "Expected type definition, but found " ++ debug (IrIdentifier (mkId k KUnknown)) ++ lit ".".
  Lemma map_value_fails d k v xk kk xv n ns s : typed_type d = MapType k v ->
    reads_key (node k) xk kk -> reads_value (node v) xv (n :: ns) -> soundb xk = true -> soundb xv = true ->
    fails_with (EErr (value_message n)) (decl debug d s).
  Proof.
    intros Et Hk Hv Sk Sv. unfold EmitSteps.decl. apply fails_bind. unfold visit_ty. rewrite Et.
    destruct (depth_type (MapType k v)) as [|f] eqn:Ed; [cbn in Ed; lia|]. cbn [depth_type] in Ed.
    rewrite visit_S. unfold visit_node, standard. unfold bind_res at 1. cbn [emit sr_emitter sr_emit].
    destruct (visits_r_all debug f) as (_ & Gk & Gv & _).
    unfold bind at 1 2. unfold bind_res at 1 2. rewrite wvisit_eq, (Gk _ xk kk) by (assumption || lia). unfold r_out. rewrite Sk.
    unfold bind at 1. unfold bind_res at 1. rewrite wvisit_eq, (Gv _ xv (n :: ns)) by (assumption || lia). unfold r_out. rewrite Sv.
    cbn [fails_with]. eexists. reflexivity.
  Qed.
End Keys.
