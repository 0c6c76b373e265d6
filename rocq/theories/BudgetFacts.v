(** The budgeted emitter of Budget.v against the emitter of the model, and the
    number of visits and the nesting a program needs against its tokens. *)
From Verif Require Import Chars Lexer Ast Grammar Types Visitor Emitter EmitSpec TypeFacts EmitTypes EmitProgram EmitInv Print Budget.
Local Open Scope nat_scope.

(** ** [lsr_emit] is [sr_emit] *)
Section Same.
  Context (debug : stack_object -> str).
  Definition same {A} (m p : EM A) : Prop := forall s, m s = p s.
  Lemma same_refl {A} (m : EM A) : same m m.
  Proof. intro s. reflexivity. Qed.
  Lemma same_bind {A B} (m p : EM A) (k q : A -> EM B) : same m p -> (forall a, same (k a) (q a)) -> same (bind m k) (bind p q).
  Proof. intros H1 H2 s. unfold bind, bind_res. rewrite H1. destruct (p s) as [[a|e] s'| |]; auto. apply H2. Qed.
  Lemma same_wvisit {A} v (inj : A -> anynode) w : same (lwvisit v inj w) (wvisit v inj w).
  Proof. intro s. rewrite wvisit_eq. reflexivity. Qed.
  Notation id_lift := (fun (A : Type) (m : EM A) => m).
  Ltac same0 := repeat first [apply same_refl | apply same_wvisit | apply same_bind; [|intro] |
    match goal with |- same (match ?x with _ => _ end) (match ?x with _ => _ end) => destruct x end].
  Lemma same_sub {A} v (inj : A -> anynode) l : forall main,
    same (lcollect_sub_types debug id_lift v inj l main) (collect_sub_types debug v inj l main).
  Proof. induction l; intro; cbn [lcollect_sub_types collect_sub_types]; same0. apply IHl. Qed.
  Lemma same_generic {A} v (inj : A -> anynode) m l : same (lgeneric_type debug id_lift v inj m l) (generic_type debug v inj m l).
  Proof. unfold lgeneric_type, generic_type. same0. apply same_sub. Qed.
  Lemma same_afields v l : same (lcollect_address_fields debug id_lift v l) (collect_address_fields debug v l).
  Proof. induction l; cbn [lcollect_address_fields collect_address_fields]; same0. apply IHl. Qed.
  Lemma same_init v l : same (lemit_init_params debug id_lift v l) (emit_init_params debug v l).
  Proof. induction l; cbn [lemit_init_params emit_init_params]; same0. apply IHl. Qed.
  Lemma same_params v l : same (lcollect_params debug id_lift v l) (collect_params debug v l).
  Proof. induction l; cbn [lcollect_params collect_params]; same0. apply IHl. Qed.
  Lemma same_all {A} v (inj : A -> anynode) l : same (lwvisit_all v inj l) (wvisit_all v inj l).
  Proof. induction l; cbn [lwvisit_all wvisit_all]; same0. apply IHl. Qed.
  Theorem lifted_same v m n s : lsr_emit debug id_lift v m n s = sr_emit debug v m n s.
  Proof.
    revert s. change (same (lsr_emit debug id_lift v m n) (sr_emit debug v m n)).
    destruct n; cbn [lsr_emit sr_emit]; repeat first [apply same_generic | apply same_afields | apply same_init | apply same_params | apply same_all | apply same_refl | apply same_wvisit
      | apply same_bind; [|intro] | match goal with |- same (match ?x with _ => _ end) (match ?x with _ => _ end) => destruct x end].
  Qed.
End Same.

(** ** Visits needed *)
Definition c_meta (m : NodeMetaIdentifier) : nat :=
  match m with MetaName _ => 3 | MetaNameInNamespace _ _ => 5 | MetaNameInHexspace _ _ => 3 | MetaByteString => 1 end.
Definition sum (l : list nat) : nat := fold_right Nat.add 0 l.
Fixpoint c_key (k : NodeTypeMapKey) : nat :=
  match k with
  | GenericMapKey m | EnclosedGenericId m => 1 + c_meta (node m)
  | EnclosedAddressMapKeyType a | AddressMapKeyType a => 1 + c_addr (node a)
  end
with c_value (x : NodeTypeMapValue) : nat :=
  match x with
  | MapValueTypeOrEnumLikeIdentifier m => 1 + c_meta (node m)
  | MapKeyValue e => 1 + c_entry (node e)
  | MapValueParenthesizedType t => 1 + c_tva (node t)
  | MapValueAddressType a => 1 + c_addr (node a)
  end
with c_arg (x : NodeTypeArgument) : nat :=
  match x with
  | EnclosedTypeArgument t => 1 + c_type (node t)
  | GenericTypeArgument m => 1 + c_meta (node m)
  | TemplateTypeArgument _ => 1
  | AddressTypeArgument a => 1 + c_addr (node a)
  | MapTypeArgument k x => 1 + c_key (node k) + c_value (node x)
  end
with c_type (t : NodeScillaType) : nat :=
  match t with
  | GenericTypeWithArgs m args => 1 + c_meta (node m) + sum (map (fun a => c_arg (node a)) args)
  | MapType k x => 1 + c_key (node k) + c_value (node x)
  | FunctionType _ _ | PolyFunctionType _ _ | TypeVarType _ => 1
  | EnclosedType t => 1 + c_type (node t)
  | ScillaAddresseType a => 1 + c_addr (node a)
  end
with c_entry (e : NodeTypeMapEntry) : nat :=
  match e with mkTypeMapEntry k x => 1 + c_key (node k) + c_value (node x) end
with c_afield (f : NodeAddressTypeField) : nat :=
  match f with mkAddressTypeField _ t => 1 + c_type (node t) end
with c_addr (a : NodeAddressType) : nat :=
  match a with mkAddressType _ _ fs => 3 + sum (map (fun f => c_afield (node f)) fs) end
with c_tvarg (x : NodeTypeMapValueArguments) : nat :=
  match x with
  | EnclosedTypeMapValue t => 1 + c_tva (node t)
  | GenericMapValueArgument m => 1 + c_meta (node m)
  | MapKeyValueType _ _ => 1
  end
with c_tva (x : NodeTypeMapValueAllowingTypeArguments) : nat :=
  match x with
  | TypeMapValueNoArgs x => 1 + c_value (node x)
  | TypeMapValueWithArgs m args => 1 + c_meta (node m) + sum (map (fun a => c_tvarg (node a)) args)
  end.
Definition c_typed (t : NodeTypedIdentifier) : nat :=
  match t with mkTypedIdentifier _ a => 2 + c_type (node (let '(mkTypeAnnotation t) := node a in t)) end.
Definition c_pair (p : NodeParameterPair) : nat := match p with mkParameterPair t => 1 + c_typed (node t) end.
Definition c_list (ps : NodeComponentParameters) : nat :=
  match ps with mkComponentParameters l => sum (map (fun p => c_pair (node p)) l) end.
Definition c_field (f : NodeContractField) : nat := match f with mkContractField t _ => 2 + c_typed (node t) end.
Definition c_component (c : NodeComponentDefinition) : nat :=
  match c with
  | TransitionComponent t => 3 + match node t with mkTransitionDefinition _ ps _ => c_list (node ps) end
  | ProcedureComponent _ => 2
  end.
Definition c_contract (c : NodeContractDefinition) : nat :=
  match c with
  | mkContractDefinition _ ps _ fs cs =>
      6 + c_list (node ps) + c_list (node ps) + sum (map (fun f => c_field (node f)) fs) + sum (map (fun c => c_component (node c)) cs)
  end.

Section Cost.
  Context (debug : stack_object -> str).
  Notation E := (sr_emitter debug).
  Notation B := (budgeted debug).
  Notation vis := (visit E).
  Notation bvis := (visit B).

  (** [m], given at least [c] visits, does what [p] does and leaves all but [c]. *)
  Definition within {A} (c : nat) (m : M bstate A) (p : EM A) : Prop := forall k s, c <= k -> p s <> Fuel ->
    match p s with
    | Ret r s' => exists k', k <= k' + c /\ k' <= k /\ m (k, s) = Ret r (k', s')
    | Panic => m (k, s) = Panic
    | Fuel => True
    end.
  Lemma within_lift {A} (m : EM A) c : within c (blift A m) m.
  Proof. intros k s _ H. unfold blift. cbn [fst snd]. destruct (m s); auto. exists k. repeat split; lia. Qed.
  Lemma within_ret {A} (a : A) c : within c (ret a) (ret a).
  Proof. intros k s _ _. exists k. repeat split; lia. Qed.
  Lemma within_raise {A} e c : within c (raise (A:=A) e) (raise e).
  Proof. intros k s _ _. exists k. repeat split; lia. Qed.
  Lemma within_panic {A} c : within c (panic (A:=A)) panic.
  Proof. intros k s _ _. reflexivity. Qed.
  Lemma within_le {A} c c' (m : M bstate A) p : within c m p -> c <= c' -> within c' m p.
  Proof.
    intros H Hc k s Hk Hp. specialize (H k s ltac:(lia) Hp). destruct (p s); auto.
    destruct H as (k' & H1 & H2 & H3). exists k'. repeat split; (lia || assumption).
  Qed.
  Lemma within_bind_res {A R} c1 c2 (m : M bstate A) p (k : result A -> M bstate R) q :
    within c1 m p -> (forall r, within c2 (k r) (q r)) -> within (c1 + c2) (bind_res m k) (bind_res p q).
  Proof.
    intros Hm Hk n s Hn Hp. unfold bind_res in *. specialize (Hm n s ltac:(lia)).
    destruct (p s) as [r s'| |] eqn:Ep; [|rewrite Hm by congruence; reflexivity|congruence].
    destruct (Hm ltac:(congruence)) as (k' & H1 & H2 & ->).
    specialize (Hk r k' s' ltac:(lia) Hp). destruct (q r s'); auto.
    destruct Hk as (k'' & H3 & H4 & E''). exists k''. repeat split; (lia || assumption).
  Qed.
  Lemma within_bind {A R} c1 c2 (m : M bstate A) p (k : A -> M bstate R) q :
    within c1 m p -> (forall r, within c2 (k r) (q r)) -> within (c1 + c2) (bind m k) (bind p q).
  Proof. intros Hm Hk. apply within_bind_res; [exact Hm|]. intros [a|e]; [apply Hk|apply within_raise]. Qed.
  (** binding something free on either side *)
  Lemma within_then {A R} c (m : M bstate A) p (k : A -> M bstate R) q :
    within c m p -> (forall r, within 0 (k r) (q r)) -> within c (bind m k) (bind p q).
  Proof. intros Hm Hk. apply (within_le (c + 0)); [now apply within_bind|lia]. Qed.
  Lemma within_free {A R} c (m : M bstate A) p (k : A -> M bstate R) q :
    within 0 m p -> (forall r, within c (k r) (q r)) -> within c (bind m k) (bind p q).
  Proof. intros Hm Hk. apply (within_le (0 + c)); [now apply within_bind|lia]. Qed.

  Definition vwithin (c : nat) f n := within c (bvis f n) (vis f n).
  Lemma within_wvisit {A} f (inj : A -> anynode) w c : vwithin c f (inj (node w)) -> within c (lwvisit (bvis f) inj w) (wvisit (vis f) inj w).
  Proof. intros H k s. unfold lwvisit. rewrite wvisit_eq. apply H. Qed.
  Lemma within_visit_wm {A} f (inj : A -> anynode) w c : vwithin c f (inj (node w)) -> within c (visit_wm B (bvis f) inj w) (visit_wm E (vis f) inj w).
  Proof.
    intros H k s. rewrite visit_wm_eq. intros Hk Hp. specialize (H k s Hk Hp). unfold visit_wm. cbn [push_source_position pop_source_position budgeted].
    destruct (vis f (inj (node w)) s) as [r s'| |]; auto.
    - destruct H as (k' & H1 & H2 & ->). eauto.
    - now rewrite H.
  Qed.
  Lemma within_spend {A} c (m : M bstate A) p : within c m p -> within (S c) (spend ;;; m) p.
  Proof.
    intros H k s Hk Hp. destruct k as [|k]; [lia|]. unfold bind, bind_res, spend. cbn [fst snd].
    specialize (H k s ltac:(lia) Hp). destruct (p s); auto. destruct H as (k' & H1 & H2 & H3). exists k'. repeat split; (lia || assumption).
  Qed.
  (** a visit whose [Enter] does not skip the children *)
  Lemma within_standard f n c1 c2 : (match n with AAddressType _ => False | _ => True end) ->
    within c1 (lsr_emit debug blift (bvis f) Enter n) (sr_emit debug (vis f) Enter n) ->
    within 0 (lsr_emit debug blift (bvis f) Exit n) (sr_emit debug (vis f) Exit n) ->
    within c2 (children B (bvis f) n) (children E (vis f) n) -> vwithin (1 + c1 + c2) (S f) n.
  Proof.
    intros Hn H1 H2 H3. unfold vwithin. rewrite !visit_S. unfold visit_node.
    assert (G : within (S c1 + c2) (standard (fun m => emit B (bvis f) m n) (children B (bvis f) n)) (standard (fun m => emit E (vis f) m n) (children E (vis f) n))).
    { unfold standard. apply within_bind_res; [cbn [emit budgeted sr_emitter]; apply within_spend, H1|].
      intros r. apply within_then; [|intros [[]|]; [cbn [emit budgeted sr_emitter]; exact H2|apply within_ret|apply within_ret]].
      destruct r as [[]|e]; [exact H3|apply within_ret|apply within_raise]. }
    destruct n; try exact G. contradiction.
  Qed.
  (** one that always does *)
  Lemma within_skip f n c : (match n with AAddressType _ => False | _ => True end) ->
    within c (lsr_emit debug blift (bvis f) Enter n) (sr_emit debug (vis f) Enter n) ->
    (forall s t s', sr_emit debug (vis f) Enter n s = Ret (Ok t) s' -> t = SkipChildren) -> vwithin (1 + c) (S f) n.
  Proof.
    intros Hn H1 Hs. unfold vwithin. rewrite !visit_S. unfold visit_node.
    assert (G : within (1 + c) (standard (fun m => emit B (bvis f) m n) (children B (bvis f) n)) (standard (fun m => emit E (vis f) m n) (children E (vis f) n))).
    { apply within_spend in H1. intros k s Hk Hp. specialize (H1 k s Hk). unfold standard, bind_res in *. cbn [emit budgeted sr_emitter] in *.
      specialize (Hs s). destruct (sr_emit debug (vis f) Enter n s) as [[t|e] s'| |]; [| | |congruence].
      - pose proof (Hs _ _ eq_refl). subst t. destruct (H1 ltac:(discriminate)) as (k' & A1 & A2 & ->). cbn. exists k'. split; [lia|split; [lia|reflexivity]].
      - destruct (H1 ltac:(discriminate)) as (k' & A1 & A2 & ->). cbn. exists k'. split; [lia|split; [lia|reflexivity]].
      - now rewrite H1 by discriminate. }
    destruct n; try exact G. contradiction.
  Qed.

  (** the address type: every result of [Enter] is replaced by [Continue] *)
  Lemma within_address f n c :
    within c (lsr_emit debug blift (bvis f) Enter (AAddressType n)) (sr_emit debug (vis f) Enter (AAddressType n)) ->
    (forall s t s', sr_emit debug (vis f) Enter (AAddressType n) s = Ret (Ok t) s' -> t = SkipChildren) ->
    within 0 (lsr_emit debug blift (bvis f) Exit (AAddressType n)) (sr_emit debug (vis f) Exit (AAddressType n)) -> vwithin (1 + c) (S f) (AAddressType n).
  Proof.
    intros H1 Hs H2. unfold vwithin. rewrite visit_S. change (bvis (S f) (AAddressType n)) with (visit_node B (bvis f) (AAddressType n)). unfold visit_node. apply within_spend in H1.
    intros k s Hk Hp. specialize (H1 k s Hk). unfold bind_res in Hp. unfold bind_res. cbn [emit budgeted sr_emitter] in *.
    specialize (Hs s). destruct (sr_emit debug (vis f) Enter (AAddressType n) s) as [r s'| |]; [| |congruence].
    - destruct (H1 ltac:(discriminate)) as (k' & A1 & A2 & ->).
      assert (Er : match r with Ok Continue => False | _ => True end) by (destruct r as [t|]; [rewrite (Hs _ _ eq_refl)|]; exact I).
      assert (W : within 0 (lsr_emit debug blift (bvis f) Exit (AAddressType n)) (sr_emit debug (vis f) Exit (AAddressType n))) by exact H2.
      specialize (W k' s' ltac:(lia)).
      destruct r as [[]|e]; [contradiction| |]; unfold kcont, bind, bind_res, ret in *;
        (destruct (sr_emit debug (vis f) Exit (AAddressType n) s') as [r' s''| |]; [destruct (W ltac:(discriminate)) as (k'' & B1 & B2 & ->); exists k''; repeat split; lia
          |apply W; discriminate|congruence]).
    - now rewrite H1 by discriminate.
  Qed.

  Ltac wi := repeat first
    [ apply within_ret | apply within_raise | apply within_panic | apply within_lift ].
  Lemma c_name f n : vwithin 2 f (ATypeNameIdentifier n).
  Proof.
    destruct f as [|f]; [intros k s _ H; contradiction H; reflexivity|].
    apply (within_standard f (ATypeNameIdentifier n) 0 1 I).
    - destruct n as [b| |s]; cbn [lsr_emit sr_emit]; (apply within_then; [|intro]); wi.
    - destruct n as [b| |s]; cbn [lsr_emit sr_emit]; (apply within_then; [|intro]); wi.
    - destruct n as [b| |s]; cbn [children]; unfold kcont; wi.
      unfold kid_of. apply within_then; [|intro; wi]. destruct f as [|f]; [intros k s _ H; contradiction H; reflexivity|].
      apply (within_standard f (AByteStr b) 0 0 I); cbn [lsr_emit sr_emit children]; unfold kcont; wi.
  Qed.
  Lemma c_head f m : vwithin (c_meta m) f (AMetaIdentifier m).
  Proof.
    destruct f as [|f]; [intros k s _ H; contradiction H; reflexivity|].
    destruct m as [n|a b|h n|]; cbn [c_meta].
    - apply (within_standard f (AMetaIdentifier _) 0 2 I); cbn [lsr_emit sr_emit children]; wi. unfold kid_of. apply within_then; [|intro; wi]. apply within_visit_wm, c_name.
    - apply (within_standard f (AMetaIdentifier _) 0 4 I); cbn [lsr_emit sr_emit children]; wi. apply (within_bind 2 2); [apply within_visit_wm, c_name|intro].
      unfold kid_of. apply within_then; [|intro; wi]. apply within_visit_wm, c_name.
    - apply (within_standard f (AMetaIdentifier _) 0 2 I); cbn [lsr_emit sr_emit children]; wi. unfold kid_of. apply within_then; [|intro; wi]. apply within_visit_wm, c_name.
    - apply (within_skip f (AMetaIdentifier _) 0 I); cbn [lsr_emit sr_emit]; [apply within_then; [wi|intro; wi]|]. intros s t s'. apply skip_ends.
  Qed.

  Lemma w_sub {A} f (inj : A -> anynode) (g : A -> nat) : (forall n, vwithin (g n) f (inj n)) -> forall l main,
    within (sum (map (fun a => g (node a)) l)) (lcollect_sub_types debug blift (bvis f) inj l main) (collect_sub_types debug (vis f) inj l main).
  Proof.
    intro H. induction l as [|a l IH]; intro main; cbn [lcollect_sub_types collect_sub_types map sum fold_right]; [wi|].
    apply within_bind; [apply within_wvisit, H|intros _]. apply within_free; [wi|intro]. apply IH.
  Qed.
  Lemma w_generic {A} f (inj : A -> anynode) (g : A -> nat) : (forall n, vwithin (g n) f (inj n)) -> forall m l,
    within (c_meta (node m) + sum (map (fun a => g (node a)) l)) (lgeneric_type debug blift (bvis f) inj m l) (generic_type debug (vis f) inj m l).
  Proof.
    intros H m l. unfold lgeneric_type, generic_type. apply within_bind; [apply within_wvisit, c_head|intros _]. apply within_free; [wi|intros _].
    destruct l as [|a l]; [wi|]. apply within_free; [wi|intro]. apply within_then; [apply (w_sub f inj g H (a :: l))|intro; wi].
  Qed.
  Lemma w_afields f : (forall n, vwithin (c_afield n) f (AAddressTypeField n)) -> forall l,
    within (sum (map (fun a => c_afield (node a)) l)) (lcollect_address_fields debug blift (bvis f) l) (collect_address_fields debug (vis f) l).
  Proof.
    intro H. induction l as [|a l IH]; cbn [lcollect_address_fields collect_address_fields map sum fold_right]; [wi|].
    apply within_bind; [apply within_wvisit, H|intros _]. apply within_free; [wi|intro]. apply within_then; [apply IH|intro; wi].
  Qed.

  Definition cost_at (f : nat) : Prop :=
    (forall t, vwithin (c_type t) f (AScillaType t)) /\
    (forall t, vwithin (c_key t) f (ATypeMapKey t)) /\
    (forall t, vwithin (c_value t) f (ATypeMapValue t)) /\
    (forall t, vwithin (c_arg t) f (ATypeArgument t)) /\
    (forall t, vwithin (c_entry t) f (ATypeMapEntry t)) /\
    (forall t, vwithin (c_afield t) f (AAddressTypeField t)) /\
    (forall t, vwithin (c_addr t) f (AAddressType t)) /\
    (forall t, vwithin (c_tvarg t) f (ATypeMapValueArguments t)) /\
    (forall t, vwithin (c_tva t) f (ATypeMapValueAllowingTypeArguments t)).
  Ltac one H := apply within_then; [apply within_wvisit, H|intro; wi].
  Ltac skips := intros ? ? ?; cbn [sr_emit]; apply skip_ends.
  Lemma vwithin_0 c n : vwithin c 0 n.
  Proof. intros k s _ H. contradiction H. reflexivity. Qed.
  Lemma cost_all f : cost_at f.
  Proof.
    induction f as [|f (Ht & Hk & Hv & Ha & He & Hf & Hd & Hg & Hw)]; [repeat split; intro; apply vwithin_0|].
    repeat split; intro t.
    - assert (G : forall c, c_type t = S c -> within c (lsr_emit debug blift (bvis f) Enter (AScillaType t)) (sr_emit debug (vis f) Enter (AScillaType t))).
      { intros c Hc. cbn [lsr_emit sr_emit]. apply within_then; [|intro; wi]. destruct t; cbn [c_type plus] in Hc; injection Hc as <-; wi.
        - apply w_generic, Ha.
        - apply within_bind; [apply within_wvisit, Hk|intro]. one Hv.
        - one Ht.
        - one Hd. }
      destruct (c_type t) as [|c] eqn:Ec; [destruct t; discriminate|]. apply (within_skip f (AScillaType t) c I); [now apply G|skips].
    - assert (G : forall c, c_key t = S c -> within c (lsr_emit debug blift (bvis f) Enter (ATypeMapKey t)) (sr_emit debug (vis f) Enter (ATypeMapKey t))).
      { intros c Hc. cbn [lsr_emit sr_emit]. apply within_then; [|intro; apply within_then; [wi|intro; wi]].
        destruct t; cbn [c_key plus] in Hc; injection Hc as <-; apply within_wvisit; (apply c_head || apply Hd). }
      destruct (c_key t) as [|c] eqn:Ec; [destruct t; discriminate|]. apply (within_skip f (ATypeMapKey t) c I); [now apply G|].
      intros s t0 s'. destruct t; cbn [sr_emit]; unfold bind, bind_res;
          destruct (wvisit _ _ _ s) as [[]| |]; try discriminate;
          destruct (ident_to_type debug _) as [[]| |]; try discriminate; intro H; injection H as <-; reflexivity.
    - assert (G : forall c, c_value t = S c -> within c (lsr_emit debug blift (bvis f) Enter (ATypeMapValue t)) (sr_emit debug (vis f) Enter (ATypeMapValue t))).
      { intros c Hc. cbn [lsr_emit sr_emit]. apply within_then; [|intro; wi].
        destruct t; cbn [c_value plus] in Hc; injection Hc as <-; [one c_head|one He|one Hw|one Hd]. }
      destruct (c_value t) as [|c] eqn:Ec; [destruct t; discriminate|]. apply (within_skip f (ATypeMapValue t) c I); [now apply G|skips].
    - assert (G : forall c, c_arg t = S c -> within c (lsr_emit debug blift (bvis f) Enter (ATypeArgument t)) (sr_emit debug (vis f) Enter (ATypeArgument t))).
      { intros c Hc. cbn [lsr_emit sr_emit]. apply within_then; [|intro; wi].
        destruct t; cbn [c_arg plus] in Hc; injection Hc as <-; [one Ht|one c_head|wi|one Hd|].
        apply within_bind; [apply within_wvisit, Hk|intro]. one Hv. }
      destruct (c_arg t) as [|c] eqn:Ec; [destruct t; discriminate|]. apply (within_skip f (ATypeArgument t) c I); [now apply G|skips].
    - destruct t as [k x]. cbn [c_entry]. change (1 + c_key (node k) + c_value (node x)) with (1 + 0 + (c_key (node k) + c_value (node x))).
      apply (within_standard f (ATypeMapEntry _) 0 _ I); cbn [lsr_emit sr_emit children]; wi.
      apply within_bind; [apply within_visit_wm, Hk|intro]. unfold kid_of. apply within_then; [apply within_visit_wm, Hv|intro; wi].
    - destruct t as [i t]. cbn [c_afield]. apply (within_skip f (AAddressTypeField _) _ I); [|skips]. cbn [lsr_emit sr_emit].
      apply within_then; [|intro; wi]. destruct (node i); wi. apply within_then; [apply within_wvisit, Ht|intro].
      apply within_then; [wi|intro]. apply within_then; [wi|intro]. wi.
    - destruct t as [i tn fs]. cbn [c_addr]. change (3 + sum (map (fun f0 => c_afield (node f0)) fs)) with (1 + (2 + sum (map (fun f0 => c_afield (node f0)) fs))).
      apply (within_address f (mkAddressType i tn fs)); [|skips|]; cbn [lsr_emit sr_emit]; [|apply within_then; [wi|intro; wi]].
      apply within_then; [|intro; wi]. apply within_bind; [apply within_wvisit, c_name|intro]. apply within_free; [wi|intro]. apply within_free; [wi|intros [mt subs ad]].
      apply within_then; [apply w_afields, Hf|intro; wi].
    - assert (G : forall c, c_tvarg t = S c -> within c (lsr_emit debug blift (bvis f) Enter (ATypeMapValueArguments t)) (sr_emit debug (vis f) Enter (ATypeMapValueArguments t))).
      { intros c Hc. cbn [lsr_emit sr_emit]. apply within_then; [|intro; wi].
        destruct t; cbn [c_tvarg plus] in Hc; injection Hc as <-; [one Hw|one c_head|wi]. }
      destruct (c_tvarg t) as [|c] eqn:Ec; [destruct t; discriminate|]. apply (within_skip f (ATypeMapValueArguments t) c I); [now apply G|skips].
    - assert (G : forall c, c_tva t = S c -> within c (lsr_emit debug blift (bvis f) Enter (ATypeMapValueAllowingTypeArguments t)) (sr_emit debug (vis f) Enter (ATypeMapValueAllowingTypeArguments t))).
      { intros c Hc. cbn [lsr_emit sr_emit]. apply within_then; [|intro; wi].
        destruct t; cbn [c_tva plus] in Hc; injection Hc as <-; [one Hv|apply w_generic, Hg]. }
      destruct (c_tva t) as [|c] eqn:Ec; [destruct t; discriminate|]. apply (within_skip f (ATypeMapValueAllowingTypeArguments t) c I); [now apply G|skips].
  Qed.

  Lemma cost_typed f d : vwithin (c_typed d) f (ATypedIdentifier d).
  Proof.
    destruct f as [|f]; [apply vwithin_0|]. destruct d as [nm a]. cbn [c_typed]. apply (within_skip f (ATypedIdentifier _) (1 + _) I).
    - cbn [lsr_emit sr_emit]. apply within_then; [|intro; apply within_then; [wi|intro]; apply within_then; [wi|intro]; apply within_then; [wi|intro]; wi].
      apply within_wvisit. destruct f as [|f]; [apply vwithin_0|]. destruct (node a) as [t].
      apply (within_standard f (ATypeAnnotation _) 0 _ I); cbn [lsr_emit sr_emit children]; wi.
      unfold kid_of. apply within_then; [apply within_visit_wm, cost_all|intro; wi].
    - intros s t0 s'. cbn [sr_emit]. unfold bind, bind_res, field_of.
      destruct (wvisit _ _ _ s) as [[]| |]; try discriminate.
      destruct (pop_type_definition debug _) as [[x|]| |]; try discriminate.
      destruct (type_from x); try discriminate. cbn. intro H. injection H as <-. reflexivity.
  Qed.
  Lemma cost_pair f p : vwithin (c_pair p) f (AParameterPair p).
  Proof.
    destruct f as [|f]; [apply vwithin_0|]. destruct p as [t]. cbn [c_pair].
    apply (within_standard f (AParameterPair _) 0 _ I); cbn [lsr_emit sr_emit children]; wi.
    unfold kid_of. apply within_then; [apply within_visit_wm, cost_typed|intro; wi].
  Qed.
  Lemma cost_params f ps : vwithin (1 + c_list ps + c_list ps) f (AComponentParameters ps).
  Proof.
    destruct f as [|f]; [apply vwithin_0|]. destruct ps as [l]. cbn [c_list].
    apply (within_standard f (AComponentParameters _) _ _ I); cbn [lsr_emit sr_emit children].
    - apply within_then; [|intro; wi]. induction l as [|p l IH]; cbn [lemit_init_params emit_init_params map sum fold_right]; [wi|].
      apply within_bind; [apply within_wvisit, cost_pair|intros _]. apply within_free; [wi|intro]. apply within_free; [wi|intro]. apply IH.
    - apply within_then; [wi|intro; wi].
    - apply within_then; [|intro; unfold kcont; wi]. induction l as [|p l IH]; cbn [visit_all map sum fold_right]; [wi|].
      apply within_bind; [apply within_visit_wm, cost_pair|intros _]. apply IH.
  Qed.
  Lemma cost_id f c : vwithin 1 f (AComponentId c).
  Proof.
    destruct f as [|f]; [apply vwithin_0|]. apply (within_skip f (AComponentId _) 0 I); cbn [lsr_emit sr_emit]; [apply within_then; [wi|intro; wi]|].
    intros s t s'. apply skip_ends.
  Qed.
  Lemma cost_expr f e : vwithin 1 f (AFullExpression e).
  Proof.
    destruct f as [|f]; [apply vwithin_0|]. apply (within_skip f (AFullExpression _) 0 I); cbn [lsr_emit sr_emit]; [wi|].
    intros s t s' H. injection H as <-. reflexivity.
  Qed.
  Lemma cost_component f c : vwithin (c_component c) f (AComponentDefinition c).
  Proof.
    destruct f as [|f]; [apply vwithin_0|]. destruct c as [t|p]; cbn [c_component].
    - apply (within_standard f (AComponentDefinition _) 0 (2 + _) I); cbn [lsr_emit sr_emit children]; wi.
      unfold kid_of. apply within_then; [|intro; wi]. apply within_visit_wm. destruct f as [|f]; [apply vwithin_0|]. destruct (node t) as [n ps b].
      apply (within_skip f (ATransitionDefinition _) (1 + _) I).
      + cbn [lsr_emit sr_emit]. apply within_bind; [apply within_wvisit, cost_id|intro]. destruct (node ps) as [l]. cbn [c_list].
        apply within_then; [|intro; apply within_then; [wi|intro i; destruct (kind i); wi; apply within_then; [wi|intro; wi]]].
        induction l as [|p l IH]; cbn [lcollect_params collect_params map sum fold_right]; [wi|].
        apply within_bind; [apply within_wvisit, cost_pair|intros _]. apply within_free; [wi|intro]. apply within_then; [apply IH|intro; wi].
      + intros s t0 s'. cbn [sr_emit]. unfold bind, bind_res.
        destruct (wvisit _ _ _ s) as [[]| |]; try discriminate.
        destruct (collect_params debug _ _ _) as [[]| |]; try discriminate.
        destruct (pop_ir_identifier debug _) as [[x|]| |]; try discriminate.
        destruct (kind x); try discriminate. cbn. intro H. injection H as <-. reflexivity.
    - apply (within_standard f (AComponentDefinition _) 0 1 I); cbn [lsr_emit sr_emit children]; wi.
      unfold kid_of. apply within_then; [|intro; wi]. apply within_visit_wm. destruct f as [|f]; [apply vwithin_0|].
      apply (within_skip f (AProcedureDefinition _) 0 I); cbn [lsr_emit sr_emit]; [wi|]. intros s t s' H. injection H as <-. reflexivity.
  Qed.
  Lemma cost_field f w : vwithin (c_field w) f (AContractField w).
  Proof.
    destruct f as [|f]; [apply vwithin_0|]. destruct w as [t e]. cbn [c_field].
    apply (within_le (1 + (c_typed (node t) + 1))); [|lia]. apply (within_skip f (AContractField _) _ I).
    - cbn [lsr_emit sr_emit]. apply within_bind; [apply within_wvisit, cost_typed|intro]. apply within_free; [wi|intro].
      apply within_then; [apply within_wvisit, cost_expr|intro]. apply within_then; [wi|intro; wi].
    - intros s t0 s'. cbn [sr_emit]. unfold bind, bind_res.
      destruct (wvisit _ _ _ s) as [[]| |]; try discriminate.
      destruct (pop_variable_declaration debug _) as [[x|]| |]; try discriminate.
      destruct (wvisit _ _ _ _) as [[]| |]; try discriminate. cbn. intro H. injection H as <-. reflexivity.
  Qed.
  Lemma cost_visits {A} f (inj : A -> anynode) (g : A -> nat) : (forall n, vwithin (g n) f (inj n)) -> forall l,
    within (sum (map (fun a => g (node a)) l)) (lwvisit_all (bvis f) inj l) (wvisit_all (vis f) inj l).
  Proof.
    intro H. induction l as [|a l IH]; cbn [lwvisit_all wvisit_all map sum fold_right]; [wi|].
    apply within_bind; [apply within_wvisit, H|intros _]. apply IH.
  Qed.
  Theorem cost_contract f c : vwithin (c_contract c) f (AContractDefinition c).
  Proof.
    destruct f as [|f]; [apply vwithin_0|]. destruct c as [n ps con fs cs]. cbn [c_contract].
    apply (within_le (1 + (2 + (1 + c_list (node ps) + c_list (node ps) + (2 + (sum (map (fun f => c_field (node f)) fs) + sum (map (fun c => c_component (node c)) cs))))))); [|lia].
    apply (within_skip f (AContractDefinition _) _ I).
    - cbn [lsr_emit sr_emit]. apply within_bind; [apply within_wvisit, c_name|intro]. apply within_free; [wi|intro].
      apply within_bind; [apply within_wvisit, cost_params|intro]. apply within_bind.
      + destruct con as [w|]; [|wi]. apply within_then; [|intro; wi]. apply within_wvisit. destruct f as [|f]; [apply vwithin_0|]. destruct (node w) as [e].
        apply (within_standard f (AWithConstraint _) 0 1 I); cbn [lsr_emit sr_emit children]; wi.
        unfold kid_of. apply within_then; [apply within_visit_wm, cost_expr|intro; wi].
      + intro. apply within_bind; [apply cost_visits, cost_field|intro]. apply within_then; [apply cost_visits, cost_component|intro; wi].
    - intros s t0 s'. cbn [sr_emit]. intro H.
      do 6 (apply bind_inv in H; destruct H as (? & ? & _ & H)).
      injection H as <-. reflexivity.
  Qed.
End Cost.

(** ** Against the number of tokens *)
Definition ntok (ps : list piece) : nat := sum (map (fun p => match p with P _ => 1 | _ => 0 end) ps).
Lemma sum_cons x l : sum (x :: l) = x + sum l.
Proof. reflexivity. Qed.
Lemma sum_app a b : sum (a ++ b) = sum a + sum b.
Proof. induction a as [|x a IH]; [reflexivity|]. cbn [app]. rewrite !sum_cons, IH. lia. Qed.
Lemma ntok_app a b : ntok (a ++ b) = ntok a + ntok b.
Proof. unfold ntok. now rewrite map_app, sum_app. Qed.
Lemma ntok_P t a : ntok (P t :: a) = S (ntok a).
Proof. reflexivity. Qed.
Lemma ntok_kind k a : ntok (AddressKind k :: a) = ntok a.
Proof. reflexivity. Qed.
Lemma ntok_maybe k a : ntok (Maybe k :: a) = ntok a.
Proof. reflexivity. Qed.
Lemma ntok_nil : ntok [] = 0.
Proof. reflexivity. Qed.
Lemma ntok_flat {A} (f : A -> list piece) l : ntok (flat_map f l) = sum (map (fun a => ntok (f a)) l).
Proof. induction l as [|a l IH]; [reflexivity|]. cbn [flat_map map]. rewrite ntok_app, IH. reflexivity. Qed.
Lemma ntok_sep t l : sum (map ntok l) <= ntok (sep t l).
Proof.
  destruct l as [|a l]; [reflexivity|]. cbn [sep map]. rewrite ntok_app, ntok_flat.
  assert (H : sum (map ntok l) <= sum (map (fun a => ntok (P t :: a)) l)); [|rewrite sum_cons; lia].
  induction l as [|b l IH]; [reflexivity|]. cbn [map]. rewrite !sum_cons, ntok_P. lia.
Qed.
Lemma matches_ntok ps toks : matches ps toks -> ntok ps <= List.length toks.
Proof.
  induction 1; rewrite ?ntok_P, ?ntok_kind, ?ntok_maybe; cbn [List.length]; rewrite ?app_length; try lia. reflexivity.
Qed.
Lemma ntok_tni n : ntok (w_tni n) = 1.
Proof. destruct n as [[s|s]| |s]; reflexivity. Qed.
Lemma ntok_meta m : c_meta m <= 3 * ntok (w_meta m) /\ 1 <= ntok (w_meta m).
Proof. destruct m; cbn [w_meta c_meta w_hex]; rewrite ?ntok_app, ?ntok_P, ?ntok_app, ?ntok_tni, ?ntok_P, ?ntok_tni, ?ntok_nil; lia. Qed.
(** a list bounded element by element, where the elements are less deep than [f] *)
Lemma bound_list {A} (c d : A -> nat) (w : A -> list piece) f (l : list (wm A)) :
  (forall t, d t <= f -> c t <= 4 * ntok (w t) /\ d t <= 4 * ntok (w t)) -> list_max (map (fun a => d (node a)) l) <= f ->
  sum (map (fun a => c (node a)) l) <= 4 * sum (map (fun a => ntok (w (node a))) l)
  /\ list_max (map (fun a => d (node a)) l) <= 4 * sum (map (fun a => ntok (w (node a))) l).
Proof.
  intros H. induction l as [|a l IH]; intro Hl; [cbn; lia|]. apply list_max_cons in Hl. destruct Hl as [H1 H2]. specialize (IH H2). specialize (H _ H1).
  cbn [map]. rewrite !sum_cons. cbn [list_max fold_right]. unfold list_max in *. lia.
Qed.
Definition bound_at (f : nat) : Prop :=
  (forall t, depth_type t <= f -> c_type t <= 4 * ntok (w_type t) /\ depth_type t <= 4 * ntok (w_type t)) /\
  (forall t, depth_key t <= f -> c_key t <= 4 * ntok (w_key t) /\ depth_key t <= 4 * ntok (w_key t)) /\
  (forall t, depth_value t <= f -> c_value t <= 4 * ntok (w_value t) /\ depth_value t <= 4 * ntok (w_value t)) /\
  (forall t, depth_arg t <= f -> c_arg t <= 4 * ntok (w_arg t) /\ depth_arg t <= 4 * ntok (w_arg t)) /\
  (forall t, depth_entry t <= f -> c_entry t <= 1 + 4 * ntok (w_entry t) /\ depth_entry t <= 1 + 4 * ntok (w_entry t)) /\
  (forall t, depth_afield t <= f -> c_afield t <= 4 * ntok (w_afield t) /\ depth_afield t <= 4 * ntok (w_afield t)) /\
  (forall t, depth_addr t <= f -> c_addr t + 1 <= 4 * ntok (w_addr t) /\ depth_addr t + 1 <= 4 * ntok (w_addr t)) /\
  (forall t, depth_tvarg t <= f -> c_tvarg t <= 4 * ntok (w_tvarg t) /\ depth_tvarg t <= 4 * ntok (w_tvarg t)) /\
  (forall t, depth_tva t <= f -> c_tva t <= 1 + 4 * ntok (w_tva t) /\ depth_tva t <= 1 + 4 * ntok (w_tva t)).
Ltac nt := rewrite ?ntok_P, ?ntok_app, ?ntok_P, ?ntok_nil in *.
Lemma bound_all f : bound_at f.
Proof.
  induction f as [|f (Ht & Hk & Hv & Ha & He & Hf & Hd & Hg & Hw)].
  { repeat split; intros; exfalso; destruct t; cbn in H; lia. }
  Ltac use H x := pose proof (H (node x)); pose proof (H (node x) ltac:(lia)).
  assert (HM : forall m, c_meta (node m) <= 3 * ntok (w_meta (node m)) /\ 1 <= ntok (w_meta (node m))) by (intro; apply ntok_meta).
  split; [|split; [|split; [|split; [|split; [|split; [|split; [|split]]]]]]].
  - intros t H. destruct t as [m args|k x|a b|t|a|v t|v]; cbn [c_type depth_type w_type] in *; nt; cbn [w_template] in *; nt; try lia.
    + specialize (HM m). rewrite ntok_flat. pose proof (bound_list c_arg depth_arg w_arg f args Ha ltac:(lia)). lia.
    + specialize (Hk (node k) ltac:(lia)). specialize (Hv (node x) ltac:(lia)). lia.
    + specialize (Ht (node t) ltac:(lia)). lia.
    + specialize (Hd (node a) ltac:(lia)). lia.
    + unfold w_template. rewrite ntok_P. lia.
  - intros t H. destruct t as [m|m|a|a]; cbn [c_key depth_key w_key] in *; nt; try (specialize (HM m); lia); specialize (Hd (node a) ltac:(lia)); lia.
  - intros t H. destruct t as [m|e|t|a]; cbn [c_value depth_value w_value] in *; nt.
    + specialize (HM m); lia.
    + specialize (He (node e) ltac:(lia)). lia.
    + specialize (Hw (node t) ltac:(lia)). lia.
    + specialize (Hd (node a) ltac:(lia)). lia.
  - intros t H. destruct t as [t|m|s|a|k x]; cbn [c_arg depth_arg w_arg] in *; nt.
    + specialize (Ht (node t) ltac:(lia)). lia.
    + specialize (HM m); lia.
    + unfold w_template. rewrite ntok_P. lia.
    + specialize (Hd (node a) ltac:(lia)). lia.
    + specialize (Hk (node k) ltac:(lia)). specialize (Hv (node x) ltac:(lia)). lia.
  - intros t H. destruct t as [k x]; cbn [c_entry depth_entry w_entry] in *; nt. specialize (Hk (node k) ltac:(lia)). specialize (Hv (node x) ltac:(lia)). lia.
  - intros t H. destruct t as [i t]; cbn [c_afield depth_afield w_afield] in *; nt. specialize (Ht (node t) ltac:(lia)). lia.
  - intros t H. destruct t as [i tn fs]; cbn [c_addr depth_addr w_addr] in *; nt. rewrite ntok_tni, ntok_kind, ntok_app, ntok_P, ntok_nil.
    pose proof (ntok_sep TComma (map (fun f => w_afield (node f)) fs)) as Hs. rewrite map_map in Hs.
    pose proof (bound_list c_afield depth_afield w_afield f fs Hf ltac:(lia)). lia.
  - intros t H. destruct t as [t|m|k x]; cbn [c_tvarg depth_tvarg w_tvarg] in *; nt.
    + specialize (Hw (node t) ltac:(lia)). lia.
    + specialize (HM m); lia.
    + lia.
  - intros t H. destruct t as [x|m args]; cbn [c_tva depth_tva w_tva] in *; nt.
    + specialize (Hv (node x) ltac:(lia)). lia.
    + specialize (HM m). rewrite ntok_flat. pose proof (bound_list c_tvarg depth_tvarg w_tvarg f args Hg ltac:(lia)). lia.
Qed.
Lemma bound_type t : c_type t <= 4 * ntok (w_type t) /\ depth_type t <= 4 * ntok (w_type t).
Proof. apply (proj1 (bound_all (depth_type t))). lia. Qed.
Lemma bound_typed d : c_typed d + 4 <= 4 * ntok (w_typed d) /\ depth_typed d + 4 <= 4 * ntok (w_typed d).
Proof.
  destruct d as [n a]. cbn [c_typed depth_typed w_typed]. unfold w_id. rewrite ntok_app, ntok_P, ntok_nil. destruct (node a) as [t]. cbn [w_annot]. rewrite ntok_P.
  pose proof (bound_type (node t)). lia.
Qed.
Lemma bound_pair p : c_pair p <= 4 * ntok (w_pair p) /\ depth_pair p <= 4 * ntok (w_pair p).
Proof. destruct p as [t]. cbn [c_pair depth_pair w_pair]. pose proof (bound_typed (node t)). lia. Qed.
Lemma bound_sum {A} (c d : A -> nat) (w : A -> list piece) (l : list (wm A)) :
  (forall t, c t <= 4 * ntok (w t) /\ d t <= 4 * ntok (w t)) ->
  sum (map (fun a => c (node a)) l) <= 4 * sum (map (fun a => ntok (w (node a))) l)
  /\ list_max (map (fun a => d (node a)) l) <= 4 * sum (map (fun a => ntok (w (node a))) l).
Proof. intro H. apply (bound_list c d w (list_max (map (fun a => d (node a)) l))); [|lia]. intros t _. apply H. Qed.
Lemma bound_params ps : c_list ps + 8 <= 4 * ntok (w_params ps) /\ depth_params ps + 5 <= 4 * ntok (w_params ps).
Proof.
  destruct ps as [l]. cbn [c_list depth_params]. pose proof (bound_sum c_pair depth_pair w_pair l bound_pair) as H.
  pose proof (ntok_sep TComma (map (fun p => w_pair (node p)) l)) as Hs. rewrite map_map in Hs.
  unfold w_params. destruct l as [|p l]; [cbn in *; unfold ntok; cbn; lia|]. rewrite ntok_P, ntok_maybe, ntok_app, ntok_P, ntok_nil. lia.
Qed.
Lemma bound_field f : c_field f <= 4 * ntok (w_cfield f) /\ depth_field f <= 4 * ntok (w_cfield f).
Proof. destruct f as [t e]. cbn [c_field depth_field w_cfield]. rewrite ntok_P, ntok_app. pose proof (bound_typed (node t)). lia. Qed.
Lemma bound_component c : c_component c <= 4 * ntok (w_comp c) /\ depth_component c <= 4 * ntok (w_comp c).
Proof.
  destruct c as [t|p]; cbn [c_component depth_component w_comp].
  - destruct (node t) as [n ps b]. cbn [w_trans]. rewrite ntok_P, !ntok_app. pose proof (bound_params (node ps)). lia.
  - destruct (node p) as [n ps b]. cbn [w_proc]. rewrite ntok_P, !ntok_app. pose proof (bound_params (node ps)). lia.
Qed.
Lemma bound_contract c : c_contract c <= 8 * ntok (w_contract c) /\ depth_contract c <= 4 * ntok (w_contract c).
Proof.
  destruct c as [n ps con fs cs]. cbn [c_contract depth_contract w_contract]. rewrite ntok_P, !ntok_app, !ntok_flat, ntok_tni.
  pose proof (bound_params (node ps)). pose proof (bound_sum c_field depth_field w_cfield fs bound_field).
  pose proof (bound_sum c_component depth_component w_comp cs bound_component). lia.
Qed.
