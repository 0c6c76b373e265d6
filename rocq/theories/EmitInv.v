(** Facts about [SrEmitter::emit] on arbitrary programs: recursion depth, and
    what every successful run guarantees. *)
From Verif Require Import Chars Lexer Ast Types Visitor Emitter EmitSpec TypeFacts EmitTypes EmitProgram.
Local Open Scope nat_scope.

(** ** More fuel never changes a result *)
Definition refines {S A} (m m' : M S A) : Prop := forall s, m s = Fuel \/ m s = m' s.

Lemma refines_refl {S A} (m : M S A) : refines m m.
Proof. intro s. auto. Qed.
Lemma refines_bind_res {S A B} (m m' : M S A) (k k' : result A -> M S B) :
  refines m m' -> (forall r, refines (k r) (k' r)) -> refines (bind_res m k) (bind_res m' k').
Proof.
  intros Hm Hk s. unfold bind_res. destruct (Hm s) as [->| ->]; [auto|].
  destruct (m' s) as [r s'| |]; auto. apply Hk.
Qed.
Lemma refines_bind {S A B} (m m' : M S A) (k k' : A -> M S B) :
  refines m m' -> (forall a, refines (k a) (k' a)) -> refines (bind m k) (bind m' k').
Proof.
  intros Hm Hk. apply refines_bind_res; [exact Hm|]. intros [a|e]; [apply Hk|apply refines_refl].
Qed.

Section Mono.
  Context {S : Type} (E : emitter S) (v v' : anynode -> M S tr) (Hv : forall n, refines (v n) (v' n)).

  Lemma refines_visit_wm {A} (inj : A -> anynode) w : refines (visit_wm E v inj w) (visit_wm E v' inj w).
  Proof. intro s. unfold visit_wm. destruct (Hv (inj (node w)) (push_source_position E (wm_start w) (wm_end w) s)) as [->| ->]; auto. Qed.

  Lemma refines_visit_all {A} (inj : A -> anynode) l : refines (visit_all E v inj l) (visit_all E v' inj l).
  Proof.
    induction l as [|w l IH]; [apply refines_refl|]. apply refines_bind; [apply refines_visit_wm|]. intros _. exact IH.
  Qed.
  Lemma refines_visit_until {A} (inj : A -> anynode) l : refines (visit_until E v inj l) (visit_until E v' inj l).
  Proof.
    induction l as [|w l IH]; [apply refines_refl|]. apply refines_bind; [apply refines_visit_wm|].
    intros []; [exact IH|apply refines_refl].
  Qed.
  Lemma refines_visit_find {A} (inj : A -> anynode) m l : refines (visit_find E v inj m l) (visit_find E v' inj m l).
  Proof.
    induction l as [|w l IH]; [apply refines_refl|]. apply refines_bind_res; [apply refines_visit_wm|].
    intros [a|e]; [exact IH|]. destruct (str_eqb e m); [apply refines_refl|exact IH].
  Qed.
  Lemma refines_visit_args {A} (inj : A -> anynode) l : refines (visit_args E v inj l) (visit_args E v' inj l).
  Proof.
    induction l as [|w l IH]; [apply refines_refl|]. apply refines_bind; [apply refines_visit_wm|].
    intros []; [exact IH|apply refines_refl].
  Qed.

  Ltac mono :=
    repeat first
      [ apply refines_refl
      | apply Hv
      | apply refines_visit_wm | apply refines_visit_all | apply refines_visit_until
      | apply refines_visit_find | apply refines_visit_args
      | apply refines_bind; [|intro]
      | apply refines_bind_res; [|intro]
      | match goal with
        | |- refines (match ?x with _ => _ end) (match ?x with _ => _ end) => destruct x
        end
      | progress unfold kid_of, kcont ].

  Lemma refines_children n : refines (children E v n) (children E v' n).
  Proof.
    destruct n as [n|n|n|n|n|n|n|n|n|n|n|n|n|n|n|n|n|n|n|n|n|n|n|n|n|n|n|n|n|n|n|n|n|n|n|n|n|n|n|n|n|n|n|n|n|n];
      destruct n; cbn [children]; mono.
    induction statements as [|st l IH]; [apply refines_refl|]. apply refines_bind; [apply Hv|]. intros _. exact IH.
  Qed.

  Lemma refines_standard e e' ch ch' : (forall m : mode, refines (e m) (e' m)) -> refines ch ch' ->
    refines (standard (S:=S) e ch) (standard e' ch').
  Proof.
    intros He Hch. unfold standard. apply refines_bind_res; [apply He|]. intro r. apply refines_bind.
    - destruct r as [[]|]; [exact Hch| |]; apply refines_refl.
    - intros [[]|]; [apply He| |]; apply refines_refl.
  Qed.

  Lemma refines_visit_node n : (forall m, refines (emit E v m n) (emit E v' m n)) ->
    refines (visit_node E v n) (visit_node E v' n).
  Proof.
    intro He. pose proof (refines_children n) as Hch.
    destruct n; cbn [visit_node]; try (apply refines_standard; assumption).
    apply refines_bind_res; [apply He|]. intro r. apply refines_bind.
    - destruct r as [[]|]; [exact Hch| |]; apply refines_refl.
    - intros [[]|]; [apply He| |]; apply refines_refl.
  Qed.
End Mono.

Section SrMono.
  Context (debug : stack_object -> str).
  Notation E := (sr_emitter debug).
  Context (v v' : anynode -> EM tr) (Hv : forall n, refines (v n) (v' n)).

  Lemma refines_wvisit {A} (inj : A -> anynode) w : refines (wvisit v inj w) (wvisit v' inj w).
  Proof. intro s. rewrite !wvisit_eq. apply Hv. Qed.

  Ltac mono :=
    repeat first
      [ apply refines_refl
      | apply refines_wvisit
      | apply refines_bind; [|intro]
      | match goal with
        | |- refines (match ?x with _ => _ end) (match ?x with _ => _ end) => destruct x
        end ].

  Lemma refines_collect_sub {A} (inj : A -> anynode) l main :
    refines (collect_sub_types debug v inj l main) (collect_sub_types debug v' inj l main).
  Proof.
    revert main. induction l as [|a l IH]; intro main; [apply refines_refl|]. cbn [collect_sub_types]. mono. apply IH.
  Qed.
  Lemma refines_generic {A} (inj : A -> anynode) m l :
    refines (generic_type debug v inj m l) (generic_type debug v' inj m l).
  Proof. unfold generic_type. mono. apply refines_collect_sub. Qed.
  Lemma refines_collect_fields l :
    refines (collect_address_fields debug v l) (collect_address_fields debug v' l).
  Proof. induction l as [|a l IH]; [apply refines_refl|]. cbn [collect_address_fields]. mono. exact IH. Qed.
  Lemma refines_init l : refines (emit_init_params debug v l) (emit_init_params debug v' l).
  Proof. induction l as [|a l IH]; [apply refines_refl|]. cbn [emit_init_params]. mono. exact IH. Qed.
  Lemma refines_params l : refines (collect_params debug v l) (collect_params debug v' l).
  Proof. induction l as [|a l IH]; [apply refines_refl|]. cbn [collect_params]. mono. exact IH. Qed.
  Lemma refines_wvisit_all {A} (inj : A -> anynode) l : refines (wvisit_all v inj l) (wvisit_all v' inj l).
  Proof. induction l as [|a l IH]; [apply refines_refl|]. cbn [wvisit_all]. mono. exact IH. Qed.

  Lemma refines_sr_emit m n : refines (sr_emit debug v m n) (sr_emit debug v' m n).
  Proof.
    destruct n as [n|n|n|n|n|n|n|n|n|n|n|n|n|n|n|n|n|n|n|n|n|n|n|n|n|n|n|n|n|n|n|n|n|n|n|n|n|n|n|n|n|n|n|n|n|n];
      try apply refines_refl; destruct n; cbn [sr_emit];
      repeat first
        [ apply refines_refl | apply refines_wvisit | apply refines_generic | apply refines_collect_fields
        | apply refines_init | apply refines_params | apply refines_wvisit_all
        | apply refines_bind; [|intro]
        | match goal with
          | |- refines (match ?x with _ => _ end) (match ?x with _ => _ end) => destruct x
          end ].
  Qed.
End SrMono.

Section Program.
  Context (debug : stack_object -> str).
  Notation E := (sr_emitter debug).
  Notation vis := (visit E).

  Lemma visit_mono f g n : f <= g -> refines (vis f n) (vis g n).
  Proof.
    revert g n. induction f as [|f IH]; intros g n Hg; [left; reflexivity|].
    destruct g as [|g]; [lia|]. rewrite !visit_S. apply refines_visit_node.
    - intro n'. apply IH. lia.
    - intro m. apply refines_sr_emit. intro n'. apply IH. lia.
  Qed.

  Lemma bind_inv {A B} (m : EM A) (k : A -> EM B) s b s' : bind m k s = Ret (Ok b) s' ->
    exists a s1, m s = Ret (Ok a) s1 /\ k a s1 = Ret (Ok b) s'.
  Proof.
    unfold bind, bind_res. destruct (m s) as [[a|e] s1| |]; try discriminate. intro H. eauto.
  Qed.

  (** ** The depth bound suffices *)
  Definition nofuel {A} (m : EM A) : Prop := forall s, m s <> Fuel.
  Lemma nofuel_ret {A} (a : A) : nofuel (ret a).
  Proof. intros s H. discriminate. Qed.
  Lemma nofuel_raise {A} e : nofuel (raise (A:=A) e).
  Proof. intros s H. discriminate. Qed.
  Lemma nofuel_panic {A} : nofuel (panic (A:=A)).
  Proof. intros s H. discriminate. Qed.
  Lemma nofuel_bind_res {A B} (m : EM A) (k : result A -> EM B) :
    nofuel m -> (forall r, nofuel (k r)) -> nofuel (bind_res m k).
  Proof. intros Hm Hk s. unfold bind_res. specialize (Hm s). destruct (m s); [apply Hk|discriminate|congruence]. Qed.
  Lemma nofuel_bind {A B} (m : EM A) (k : A -> EM B) :
    nofuel m -> (forall a, nofuel (k a)) -> nofuel (bind m k).
  Proof. intros Hm Hk. apply nofuel_bind_res; [exact Hm|]. intros [a|e]; [apply Hk|apply nofuel_raise]. Qed.
  Lemma nofuel_pop_type : nofuel (pop_type_definition debug).
  Proof. intro s. unfold pop_type_definition. destruct (es_stack s) as [|[]]; discriminate. Qed.
  Lemma nofuel_pop_ident : nofuel (pop_ir_identifier debug).
  Proof. intro s. unfold pop_ir_identifier. destruct (es_stack s) as [|[]]; discriminate. Qed.
  Lemma nofuel_pop_decl : nofuel (pop_variable_declaration debug).
  Proof. intro s. unfold pop_variable_declaration. destruct (es_stack s) as [|[]]; discriminate. Qed.
  Lemma nofuel_push o : nofuel (push o).
  Proof. intros s H. discriminate. Qed.
  Lemma nofuel_upd o : nofuel (upd o).
  Proof. intros s H. discriminate. Qed.
  Lemma nofuel_field n t : nofuel (field_of n t).
  Proof. unfold field_of. destruct (type_from t); [apply nofuel_ret|apply nofuel_panic]. Qed.
  Lemma nofuel_wvisit {A} v (inj : A -> anynode) w : nofuel (v (inj (node w))) -> nofuel (wvisit v inj w).
  Proof. intros H s. rewrite wvisit_eq. apply H. Qed.
  Lemma nofuel_visit_wm {A} v (inj : A -> anynode) w : nofuel (v (inj (node w))) -> nofuel (visit_wm E v inj w).
  Proof. intros H s. rewrite visit_wm_eq. apply H. Qed.
  Lemma nofuel_standard (e : mode -> EM tr) ch : (forall m, nofuel (e m)) -> nofuel ch -> nofuel (standard e ch).
  Proof.
    intros He Hch. unfold standard. apply nofuel_bind_res; [apply He|]. intro r. apply nofuel_bind.
    - destruct r as [[]|]; [exact Hch|apply nofuel_ret|apply nofuel_raise].
    - intros [[]|]; [apply He| |]; apply nofuel_ret.
  Qed.
  (** a node that always skips its children *)
  Lemma nofuel_skip (e : mode -> EM tr) ch : (forall m, nofuel (e m)) ->
    (forall s t s', e Enter s = Ret (Ok t) s' -> t = SkipChildren) -> nofuel (standard e ch).
  Proof.
    intros He Hs s. unfold standard, bind_res. specialize (Hs s). pose proof (He Enter s) as Hf.
    destruct (e Enter s) as [[t|msg] s'| |]; [|discriminate|discriminate|congruence].
    rewrite (Hs t s' eq_refl). discriminate.
  Qed.
  Lemma skip_ends {A} (m : EM A) s t s' : (m ;;; ret SkipChildren) s = Ret (Ok t) s' -> t = SkipChildren.
  Proof.
    unfold bind, bind_res. destruct (m s) as [[a|e] s1| |]; try discriminate. intro H. injection H as <-. reflexivity.
  Qed.

  Lemma nofuel_map {A} (inj : A -> anynode) v l (k : list (wm A) -> EM unit) :
    (forall w, In w l -> nofuel (v (inj (node w)))) -> nofuel (wvisit_all v inj l).
  Proof.
    intro H. induction l as [|w l IH]; [apply nofuel_ret|]. apply nofuel_bind; [|intros _].
    - apply nofuel_wvisit, H. left. reflexivity.
    - apply IH. intros w' Hw'. apply H. right. exact Hw'.
  Qed.

  Ltac nf :=
    repeat first
      [ apply nofuel_ret | apply nofuel_raise | apply nofuel_panic | apply nofuel_pop_type | apply nofuel_pop_ident
      | apply nofuel_pop_decl | apply nofuel_push | apply nofuel_upd | apply nofuel_field
      | apply nofuel_wvisit | apply nofuel_visit_wm
      | match goal with |- nofuel (bind _ _) => apply nofuel_bind; [|intro] end
      | match goal with |- nofuel (bind_res _ _) => apply nofuel_bind_res; [|intro] end
      | match goal with
        | |- nofuel (match ?x with _ => _ end) => destruct x
        end
      | progress unfold ident_to_type, pops_to_map, kid_of, kcont ].

  Lemma nf_name f n : 2 <= f -> nofuel (vis f (ATypeNameIdentifier n)).
  Proof. intros Hf s. rewrite contract_name_out by exact Hf. discriminate. Qed.
  Lemma nf_head f m : 3 <= f -> nofuel (vis f (AMetaIdentifier m)).
  Proof.
    intro Hf. destruct f as [|f]; [lia|]. rewrite visit_S. unfold visit_node.
    apply nofuel_standard.
    - intro m'. destruct m; cbn [emit sr_emitter sr_emit]; nf.
    - destruct m; cbn [children]; nf; apply nf_name; lia.
  Qed.

  Lemma nf_collect {A} v (inj : A -> anynode) (g : A -> nat) f l main :
    (forall n, g n <= f -> nofuel (v (inj n))) -> list_max (map (fun a => g (node a)) l) <= f ->
    nofuel (collect_sub_types debug v inj l main).
  Proof.
    intro Hv. revert main. induction l as [|a l IH]; intros main Hd; [apply nofuel_ret|].
    apply list_max_cons in Hd. destruct Hd as [H1 H2]. cbn [collect_sub_types]. nf; [apply Hv, H1|apply IH, H2].
  Qed.
  Lemma nf_generic {A} f (inj : A -> anynode) (g : A -> nat) m l :
    (forall n, g n <= f -> nofuel (vis f (inj n))) -> list_max (map (fun a => g (node a)) l) <= f -> 3 <= f ->
    nofuel (generic_type debug (vis f) inj m l).
  Proof.
    intros Hv Hd Hf. unfold generic_type. nf; [apply nf_head, Hf|]. eapply nf_collect; eassumption.
  Qed.

  Definition nofuel_at (f : nat) : Prop :=
    (forall t, depth_type t <= f -> nofuel (vis f (AScillaType t))) /\
    (forall t, depth_key t <= f -> nofuel (vis f (ATypeMapKey t))) /\
    (forall t, depth_value t <= f -> nofuel (vis f (ATypeMapValue t))) /\
    (forall t, depth_arg t <= f -> nofuel (vis f (ATypeArgument t))) /\
    (forall t, depth_entry t <= f -> nofuel (vis f (ATypeMapEntry t))) /\
    (forall t, depth_afield t <= f -> nofuel (vis f (AAddressTypeField t))) /\
    (forall t, depth_addr t <= f -> nofuel (vis f (AAddressType t))) /\
    (forall t, depth_tvarg t <= f -> nofuel (vis f (ATypeMapValueArguments t))) /\
    (forall t, depth_tva t <= f -> nofuel (vis f (ATypeMapValueAllowingTypeArguments t))).

  Lemma nofuel_all f : nofuel_at f.
  Proof.
    induction f as [|f IH].
    { repeat split; intros [] H; cbn in H; lia. }
    destruct IH as (IHt & IHk & IHv & IHa & IHe & IHf & IHd & IHg & IHw).
    repeat split; intros t Hd; rewrite visit_S; unfold visit_node.
    - apply nofuel_skip.
      + intro m. destruct t; cbn [depth_type] in Hd; cbn [emit sr_emitter sr_emit]; nf;
          try (apply IHk; lia); try (apply IHv; lia); try (apply IHt; lia); try (apply IHd; lia).
        eapply nf_generic; [exact IHa|lia|lia].
      + intros s t0 s'. cbn [emit sr_emitter sr_emit]. apply skip_ends.
    - apply nofuel_skip.
      + intro m. destruct t; cbn [depth_key] in Hd; cbn [emit sr_emitter sr_emit]; nf;
          try (apply nf_head; lia); try (apply IHd; lia).
      + intros s t0 s'. destruct t; cbn [emit sr_emitter sr_emit]; unfold bind, bind_res;
          destruct (wvisit _ _ _ s) as [[]| |]; try discriminate;
          destruct (ident_to_type debug _) as [[]| |]; try discriminate; intro H; injection H as <-; reflexivity.
    - apply nofuel_skip.
      + intro m. destruct m; cbn [emit sr_emitter sr_emit]; [|nf].
        destruct t; cbn [depth_value] in Hd; nf;
          try (apply nf_head; lia); try (apply IHe; lia); try (apply IHw; lia); try (apply IHd; lia).
      + intros s t0 s'. cbn [emit sr_emitter sr_emit]. apply skip_ends.
    - apply nofuel_skip.
      + intro m. destruct t; cbn [depth_arg] in Hd; cbn [emit sr_emitter sr_emit]; nf;
          try (apply nf_head; lia); try (apply IHk; lia); try (apply IHv; lia); try (apply IHt; lia); try (apply IHd; lia).
      + intros s t0 s'. cbn [emit sr_emitter sr_emit]. apply skip_ends.
    - destruct t as [k x]. cbn [depth_entry] in Hd. apply nofuel_standard.
      + intro m. cbn [emit sr_emitter sr_emit]. nf.
      + cbn [children]. nf; [apply IHk|apply IHv]; lia.
    - destruct t as [i ty]. cbn [depth_afield] in Hd. apply nofuel_skip.
      + intro m. cbn [emit sr_emitter sr_emit]. nf. apply IHt; lia.
      + intros s t0 s'. cbn [emit sr_emitter sr_emit]. apply skip_ends.
    - destruct t as [i tn fs]. cbn [depth_addr] in Hd.
      assert (He : forall m, nofuel (emit E (vis f) m (AAddressType (mkAddressType i tn fs)))).
      { intro m. cbn [emit sr_emitter sr_emit]. nf; [apply nf_name; lia|].
        assert (Hl : list_max (map (fun a => depth_afield (node a)) fs) <= f) by lia. clear Hd. revert Hl.
        clear -IHf. induction fs as [|a l IH]; intro Hl; [apply nofuel_ret|].
        apply list_max_cons in Hl. destruct Hl as [H1 H2]. cbn [collect_address_fields].
        nf; [apply IHf, H1|apply IH, H2]. }
      intro s. unfold bind_res. pose proof (He Enter s) as H1.
      assert (Hskip : forall s t s', emit E (vis f) Enter (AAddressType (mkAddressType i tn fs)) s = Ret (Ok t) s' -> t = SkipChildren).
      { intros s0 t0 s'. cbn [emit sr_emitter sr_emit]. apply skip_ends. }
      destruct (emit E (vis f) Enter _ s) as [[t|msg] s'| |] eqn:Ee; try discriminate; [|congruence].
      rewrite (Hskip _ _ _ Ee). unfold bind, bind_res, kcont, ret. apply He.
    - apply nofuel_skip.
      + intro m. destruct m; cbn [emit sr_emitter sr_emit]; [|nf].
        destruct t; cbn [depth_tvarg] in Hd; nf; try (apply nf_head; lia); try (apply IHw; lia).
      + intros s t0 s'. cbn [emit sr_emitter sr_emit]. apply skip_ends.
    - apply nofuel_skip.
      + intro m. destruct m; cbn [emit sr_emitter sr_emit]; [|nf].
        destruct t; cbn [depth_tva] in Hd; nf; try (apply IHv; lia). eapply nf_generic; [exact IHg|lia|lia].
      + intros s t0 s'. cbn [emit sr_emitter sr_emit]. apply skip_ends.
  Qed.

  Lemma nf_typed f d : depth_typed d <= f -> nofuel (vis f (ATypedIdentifier d)).
  Proof.
    intro Hd. destruct d as [nm a]. cbn [depth_typed] in Hd. destruct (node a) as [t] eqn:Ea.
    destruct f as [|[|f]]; [lia|lia|]. rewrite visit_S. unfold visit_node. apply nofuel_skip.
    - intro m. cbn [emit sr_emitter sr_emit]. nf. rewrite Ea, visit_S. unfold visit_node. apply nofuel_standard.
      + intro m'. cbn [emit sr_emitter sr_emit]. nf.
      + cbn [children]. nf. apply nofuel_all. lia.
    - intros s t0 s'. cbn [emit sr_emitter sr_emit]. unfold bind, bind_res, field_of.
      destruct (wvisit _ _ _ s) as [[]| |]; try discriminate.
      destruct (pop_type_definition debug _) as [[x|]| |]; try discriminate.
      destruct (type_from x); try discriminate. cbn. intro H. injection H as <-. reflexivity.
  Qed.

  Lemma nf_pair f p : depth_pair p <= f -> nofuel (vis f (AParameterPair p)).
  Proof.
    intro Hd. destruct p as [d]. cbn [depth_pair] in Hd. destruct f as [|f]; [lia|].
    rewrite visit_S. unfold visit_node. apply nofuel_standard.
    - intro m'. cbn [emit sr_emitter sr_emit]. nf.
    - cbn [children]. nf. apply nf_typed. lia.
  Qed.

  Lemma nf_params f ps : depth_params ps <= f -> nofuel (vis f (AComponentParameters ps)).
  Proof.
    intro Hd. destruct ps as [l]. cbn [depth_params] in Hd. destruct f as [|f]; [lia|].
    assert (Hl : list_max (map (fun p => depth_pair (node p)) l) <= f) by lia. clear Hd.
    rewrite visit_S. unfold visit_node. apply nofuel_standard.
    - intros []; cbn [emit sr_emitter sr_emit]; nf.
      induction l as [|p l IH]; [apply nofuel_ret|]. apply list_max_cons in Hl. destruct Hl as [H1 H2].
      cbn [emit_init_params]. nf; [apply nf_pair, H1|apply IH, H2].
    - cbn [children]. nf. induction l as [|p l IH]; [apply nofuel_ret|]. apply list_max_cons in Hl. destruct Hl as [H1 H2].
      cbn [visit_all]. nf; [apply nf_pair, H1|apply IH, H2].
  Qed.

  Lemma nf_component f c : depth_component c <= f -> nofuel (vis f (AComponentDefinition c)).
  Proof.
    intro Hd. destruct c as [t|p]; cbn [depth_component] in Hd; (destruct f as [|[|f]]; [lia|lia|]);
      rewrite visit_S; unfold visit_node; (apply nofuel_standard; [intro m; cbn [emit sr_emitter sr_emit]; nf|]);
      cbn [children]; nf; rewrite visit_S; unfold visit_node.
    - destruct (node t) as [n ps b]. destruct (node ps) as [l] eqn:Eps. cbn [depth_params] in Hd. apply nofuel_skip.
      + intro m. cbn [emit sr_emitter sr_emit]. nf.
        * intro s. rewrite component_id_out by lia. discriminate.
        * rewrite Eps. clear Eps.
          assert (Hl : list_max (map (fun p => depth_pair (node p)) l) <= f) by lia. clear Hd.
          induction l as [|p l IH]; [apply nofuel_ret|]. apply list_max_cons in Hl. destruct Hl as [H1 H2].
          cbn [collect_params]. nf; [apply nf_pair, H1|apply IH, H2].
      + intros s t0 s'. cbn [emit sr_emitter sr_emit]. unfold bind, bind_res.
        destruct (wvisit _ _ _ s) as [[]| |]; try discriminate.
        destruct (collect_params debug _ _ _) as [[]| |]; try discriminate.
        destruct (pop_ir_identifier debug _) as [[x|]| |]; try discriminate.
        destruct (kind x); try discriminate. cbn. intro H. injection H as <-. reflexivity.
  Qed.

  Lemma nf_contract f c : depth_contract c <= f -> nofuel (vis f (AContractDefinition c)).
  Proof.
    intro Hd. destruct c as [n ps con fs cs]. cbn [depth_contract] in Hd. destruct f as [|f]; [lia|].
    rewrite visit_S. unfold visit_node. apply nofuel_skip.
    - intro m. cbn [emit sr_emitter sr_emit]. nf.
      + apply nf_name. lia.
      + apply nf_params. lia.
      + intro s. rewrite constraint_out by lia. discriminate.
      + apply (nofuel_map _ _ _ (fun _ => ret tt)). intros w Hw.
        pose proof (list_max_in (fun f => depth_field (node f)) fs w Hw) as Hx. cbv beta in Hx.
        destruct f as [|f]; [lia|]. rewrite visit_S. unfold visit_node. destruct (node w) as [i e]. cbn [depth_field] in Hx.
        apply nofuel_skip.
        * intro m'. cbn [emit sr_emitter sr_emit]. nf; [apply nf_typed; lia|].
          intro s. rewrite expr_out by lia. discriminate.
        * intros s t0 s'. cbn [emit sr_emitter sr_emit]. unfold bind, bind_res.
          destruct (wvisit _ _ _ s) as [[]| |]; try discriminate.
          destruct (pop_variable_declaration debug _) as [[x|]| |]; try discriminate.
          destruct (wvisit _ _ _ _) as [[]| |]; try discriminate. cbn. intro H. injection H as <-. reflexivity.
      + apply (nofuel_map _ _ _ (fun _ => ret tt)). intros w Hw.
        pose proof (list_max_in (fun c => depth_component (node c)) cs w Hw) as Hx. cbv beta in Hx.
        apply nf_component. lia.
    - intros s t0 s'. cbn [emit sr_emitter sr_emit]. intro H.
      do 6 (apply bind_inv in H; destruct H as (? & ? & _ & H)).
      injection H as <-. reflexivity.
  Qed.

  Theorem emit_no_fuel p : emit_program debug p <> EFuel.
  Proof.
    destruct p as [v i l c]. cbn [emit_program]. rewrite visit_wm_eq.
    pose proof (nf_contract _ (node c) (le_n _) sr_default) as H.
    destruct (vis (depth_contract (node c)) (AContractDefinition (node c)) sr_default) as [[]| |]; congruence.
  Qed.

  (** Any larger bound gives the same result. *)
  Lemma emit_any_fuel c f : depth_contract (node c) <= f ->
    vis f (AContractDefinition (node c)) sr_default = vis (depth_contract (node c)) (AContractDefinition (node c)) sr_default.
  Proof.
    intro Hf. destruct (visit_mono _ _ (AContractDefinition (node c)) Hf sr_default) as [H|H]; [|symmetry; exact H].
    exfalso. exact (nf_contract _ (node c) (le_n _) sr_default H).
  Qed.
End Program.
