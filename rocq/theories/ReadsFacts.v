(** What the emitter does with namespaced types. *)
From Verif Require Import Chars Lexer Ast Types Visitor Emitter EmitSpec TypeFacts EmitTypes EmitProgram EmitInv EmitErase EmitSig EmitOk EmitSteps EmitFail Reads.
Local Open Scope nat_scope.

Definition leftover (ks : list str) (s : sr_state) : sr_state :=
  mkst (map (fun k => IrIdentifier (mkId k KUnknown)) ks ++ es_stack s) (es_contract s).
Lemma leftover_nil s : leftover [] s = s.
Proof. now destruct s. Qed.
Lemma leftover_app k1 k2 s : leftover (k1 ++ k2) s = leftover k1 (leftover k2 s).
Proof. unfold leftover. cbn. now rewrite map_app, app_assoc. Qed.
Definition r_out (x : texp) (ks : list str) (s : sr_state) : outcome sr_state tr :=
  if soundb x then Ret (Ok Continue) (pushed (SoTypeDefinition (sr x)) (leftover ks s)) else Panic.
Definition ra_out (x : texp) (ks : list str) (s : sr_state) : outcome sr_state tr :=
  if soundb x then Ret (Ok SkipChildren) (pushed (SoTypeDefinition (sr x)) (leftover ks s)) else Panic.
Definition rd_out (name : str) (x : texp) (ks : list str) (s : sr_state) : outcome sr_state tr :=
  match denote x with
  | Some t => Ret (Ok Continue) (pushed (VariableDeclaration (mkField name t)) (leftover ks s))
  | None => Panic
  end.

Section Reads.
  Context (debug : stack_object -> str).
  Notation E := (sr_emitter debug).
  Notation vis := (visit E).

  Lemma visit_rhead f m x k s : reads_head m x k -> 3 <= f ->
    vis f (AMetaIdentifier m) s = Ret (Ok Continue) (pushed (IrIdentifier (mkId x KUnknown)) (leftover k s)).
  Proof.
    intros H Hf. destruct H as [m x H|a b ns x Ha Hb].
    - rewrite leftover_nil. now apply visit_head.
    - destruct f as [|f]; [lia|].
      rewrite visit_S. cbn [visit_node emit sr_emitter sr_emit children]. unfold standard, kid_of, bind, bind_res, ret.
      rewrite visit_wm_eq, (visit_name _ _ _ ns) by (assumption || lia).
      rewrite visit_wm_eq, (visit_name _ _ _ x) by (assumption || lia). reflexivity.
  Qed.

  Definition visits_r (f : nat) : Prop :=
    (forall t x ks s, reads_type t x ks -> depth_type t <= f -> vis f (AScillaType t) s = r_out x ks s) /\
    (forall t x ks s, reads_key t x ks -> depth_key t <= f -> vis f (ATypeMapKey t) s = r_out x ks s) /\
    (forall t x ks s, reads_value t x ks -> depth_value t <= f -> vis f (ATypeMapValue t) s = r_out x ks s) /\
    (forall t x ks s, reads_arg t x ks -> depth_arg t <= f -> vis f (ATypeArgument t) s = r_out x ks s) /\
    (forall t x ks s, reads_address t x ks -> depth_addr t <= f -> vis f (AAddressType t) s = ra_out x ks s) /\
    (forall t x ks s, reads_tvarg t x ks -> depth_tvarg t <= f -> vis f (ATypeMapValueArguments t) s = r_out x ks s) /\
    (forall t x ks s, reads_tva t x ks -> depth_tva t <= f -> vis f (ATypeMapValueAllowingTypeArguments t) s = r_out x ks s).

  Inductive each_reads {A} (P : A -> texp -> list str -> Prop) : list A -> list texp -> list str -> Prop :=
  | er_nil : each_reads P [] [] []
  | er_cons a x k l xs ks : P a x k -> each_reads P l xs ks -> each_reads P (a :: l) (x :: xs) (ks ++ k).

  Lemma r_collect_args f {A} (inj : A -> anynode) (l : list (wm A)) xs ks main s :
    each_reads (fun a x k => forall s, vis f (inj (node a)) s = r_out x k s) l xs ks ->
    collect_sub_types debug (vis f) inj l main s =
    if forallb soundb xs then Ret (Ok (add_subs main xs)) (leftover ks s) else Panic.
  Proof.
    intro H. revert main s. induction H as [|a x k l xs ks Ha Hl IH]; intros main s; [now rewrite leftover_nil|].
    cbn [collect_sub_types forallb]. unfold bind at 1. unfold bind_res at 1.
    rewrite wvisit_eq, Ha. unfold r_out. destruct (soundb x); [|reflexivity]. cbn [andb].
    rewrite (bind_ok _ _ _ _ _ (pop_type_pushed _ _ _)). rewrite IH, leftover_app. reflexivity.
  Qed.

  Lemma r_generic_out f {A} (inj : A -> anynode) (lead : wm NodeMetaIdentifier) n k (l : list (wm A)) xs ks s :
    reads_head (node lead) n k -> 3 <= f ->
    each_reads (fun a x k => forall s, vis f (inj (node a)) s = r_out x k s) l xs ks ->
    skip_out (generic_type debug (vis f) inj lead l s) = r_out (TName n xs) (ks ++ k) s.
  Proof.
    intros Hn Hf H. unfold generic_type. unfold bind at 1. unfold bind_res at 1.
    rewrite wvisit_eq, (visit_rhead _ _ n k) by assumption.
    rewrite (bind_ok _ _ _ _ _ (ident_to_type_pushed _ _ _)).
    destruct H as [|a x k1 l xs ks Ha Hl]; [reflexivity|].
    rewrite (bind_ok _ _ _ _ _ (pop_type_pushed _ _ _)).
    unfold bind at 1. unfold bind_res at 1.
    rewrite (r_collect_args _ _ _ (x :: xs) (ks ++ k1)) by (constructor; assumption).
    unfold r_out. cbn [soundb]. destruct (forallb soundb (x :: xs)); [|reflexivity].
    rewrite add_subs_spec, !leftover_app. reflexivity.
  Qed.

  Lemma r_map_out f k v xk xv kk s :
    (forall s, vis f (ATypeMapKey (node k)) s = r_out xk kk s) ->
    (forall s, vis f (ATypeMapValue (node v)) s = r_out xv [] s) ->
    skip_out ((wvisit (vis f) ATypeMapKey k ;;; wvisit (vis f) ATypeMapValue v ;;; pops_to_map debug) s)
    = r_out (TName (lit "Map") [xk; xv]) kk s.
  Proof.
    intros Hk Hv. unfold r_out. cbn [soundb forallb]. unfold bind at 1. unfold bind_res at 1.
    rewrite wvisit_eq, Hk. unfold r_out. destruct (soundb xk); [|reflexivity].
    unfold bind at 1. unfold bind_res at 1. rewrite wvisit_eq, Hv. unfold r_out.
    destruct (soundb xv); [|reflexivity]. rewrite leftover_nil, pops_to_map_pushed. reflexivity.
  Qed.

  Lemma r_one_out f {A} (inj : A -> anynode) (w : wm A) x ks s : vis f (inj (node w)) s = r_out x ks s ->
    skip_out ((wvisit (vis f) inj w ;;; ret tt) s) = r_out x ks s.
  Proof.
    intro H. unfold bind, bind_res. rewrite wvisit_eq, H. unfold r_out. destruct (soundb x); reflexivity.
  Qed.
  Lemma r_addr_out_w f (w : wm NodeAddressType) x ks s : vis f (AAddressType (node w)) s = ra_out x ks s ->
    skip_out ((wvisit (vis f) AAddressType w ;;; ret tt) s) = r_out x ks s.
  Proof.
    intro H. unfold bind, bind_res. rewrite wvisit_eq, H. unfold ra_out, r_out. destruct (soundb x); reflexivity.
  Qed.
  Lemma r_head_out f m n k s : reads_head (node m) n k -> 3 <= f ->
    skip_out ((wvisit (vis f) AMetaIdentifier m ;;; ident_to_type debug) s) = r_out (TName n []) k s.
  Proof.
    intros Hn Hf. unfold bind at 1. unfold bind_res at 1. rewrite wvisit_eq, (visit_rhead _ _ n k) by assumption.
    rewrite ident_to_type_pushed. reflexivity.
  Qed.
  Lemma r_visit_afield f i n t x ks s :
    (forall s, vis f (AScillaType (node t)) s = r_out x ks s) -> node i = VariableName n ->
    vis (S f) (AAddressTypeField (mkAddressTypeField i t)) s = rd_out (node n) x ks s.
  Proof.
    intros Ht Hi. rewrite visit_S. unfold visit_node.
    erewrite standard_unit; [|cbn [emit sr_emitter sr_emit]; reflexivity].
    rewrite Hi. unfold rd_out, denote. unfold bind at 1. unfold bind_res at 1. rewrite wvisit_eq, Ht. unfold r_out.
    destruct (soundb x); [|reflexivity].
    rewrite (bind_ok _ _ _ _ _ (pop_type_pushed _ _ _)). unfold field_of, bind, bind_res.
    destruct (type_from (sr x)); reflexivity.
  Qed.
  Inductive fields_read (f : nat) : list (wm NodeAddressTypeField) -> list (str * texp) -> list str -> Prop :=
  | fr_nil : fields_read f [] [] []
  | fr_cons a nx k l xs ks : (forall s, vis f (AAddressTypeField (node a)) s = rd_out (fst nx) (snd nx) k s) ->
      fields_read f l xs ks -> fields_read f (a :: l) (nx :: xs) (ks ++ k).
  Lemma r_collect_fields f l xs ks s : fields_read f l xs ks ->
    collect_address_fields debug (vis f) l s =
    match denote_list xs with Some r => Ret (Ok r) (leftover ks s) | None => Panic end.
  Proof.
    intro H. revert s. induction H as [|a [n x] k l xs ks Ha Hl IH]; intro s; [cbn; now rewrite leftover_nil|].
    cbn [collect_address_fields denote_list fst snd] in *. unfold bind at 1. unfold bind_res at 1.
    rewrite wvisit_eq, Ha. unfold rd_out. destruct (denote x); [|reflexivity].
    rewrite (bind_ok _ _ _ _ _ (pop_decl_pushed _ _ _)). unfold bind at 1. unfold bind_res at 1.
    rewrite IH, leftover_app. destruct (denote_list xs); reflexivity.
  Qed.
  Lemma r_entry_out f k v xk xv kk s :
    (forall s, vis f (ATypeMapKey (node k)) s = r_out xk kk s) ->
    (forall s, vis f (ATypeMapValue (node v)) s = r_out xv [] s) ->
    vis (S f) (ATypeMapEntry (mkTypeMapEntry k v)) s =
    if soundb xk && soundb xv
    then Ret (Ok Continue) (pushed (SoTypeDefinition (sr xv)) (pushed (SoTypeDefinition (sr xk)) (leftover kk s)))
    else Panic.
  Proof.
    intros Hk Hv. rewrite visit_S. unfold visit_node, standard. cbn [emit sr_emitter sr_emit children].
    unfold kid_of, bind, bind_res, ret. rewrite visit_wm_eq, Hk. unfold r_out.
    destruct (soundb xk); [|reflexivity]. rewrite visit_wm_eq, Hv. unfold r_out.
    destruct (soundb xv); [|reflexivity]. cbn [andb]. now rewrite leftover_nil.
  Qed.

  Lemma visits_r_all f : visits_r f.
  Proof.
    induction f as [f IH0] using (well_founded_induction PeanoNat.Nat.lt_wf_0).
    destruct f as [|f].
    { repeat split; intros t x ks s H Hf; exfalso; inversion H; subst; cbn in Hf; lia. }
    destruct (IH0 f (PeanoNat.Nat.lt_succ_diag_r f)) as (IHt & IHk & IHv & IHa & IHd & IHg & IHw).
    assert (Hargs : forall l xs ks, reads_args l xs ks -> list_max (map (fun a => depth_arg (node a)) l) <= f ->
      each_reads (fun a x k => forall s, vis f (ATypeArgument (node a)) s = r_out x k s) l xs ks).
    { induction l as [|a l IHl]; intros xs ks H Hd; inversion H; subst; constructor;
        apply list_max_cons in Hd; destruct Hd as [Hd1 Hd2].
      - intro s. apply IHa; assumption.
      - apply IHl; assumption. }
    assert (Htvargs : forall l xs ks, reads_tvargs l xs ks -> list_max (map (fun a => depth_tvarg (node a)) l) <= f ->
      each_reads (fun a x k => forall s, vis f (ATypeMapValueArguments (node a)) s = r_out x k s) l xs ks).
    { induction l as [|a l IHl]; intros xs ks H Hd; inversion H; subst; constructor;
        apply list_max_cons in Hd; destruct Hd as [Hd1 Hd2].
      - intro s. apply IHg; assumption.
      - apply IHl; assumption. }
    assert (Hfields : forall l xs ks, reads_fields l xs ks -> list_max (map (fun a => depth_afield (node a)) l) <= f ->
      fields_read f l xs ks).
    { induction l as [|a l IHl]; intros xs ks H Hd; inversion H as [|? i n t x k ? ? ks' Ea Ei Ht Hl]; subst; constructor;
        apply list_max_cons in Hd; destruct Hd as [Hd1 Hd2].
      - intro s. rewrite Ea in Hd1 |- *. cbn [depth_afield fst snd] in *. destruct f as [|f]; [lia|].
        apply r_visit_afield; [|exact Ei]. intro s'. apply IH0; [lia|exact Ht|lia].
      - apply IHl; assumption. }
    repeat split; intros t x ks s H Hf; rewrite visit_S; unfold visit_node.
    - (* type *)
      destruct H as [m n k args xs ks Hm Hargs'|k v xk xv ks Hk Hv|t x ks Ht|a x ks Ha|a b|v t|v]; cbn [depth_type] in Hf.
      + erewrite standard_unit; [|cbn [emit sr_emitter sr_emit]; reflexivity].
        apply r_generic_out; [assumption|lia|]. apply Hargs; [assumption|lia].
      + erewrite standard_unit; [|cbn [emit sr_emitter sr_emit]; reflexivity].
        apply r_map_out; intro s'; [apply IHk|apply IHv]; (assumption || lia).
      + erewrite standard_unit; [|cbn [emit sr_emitter sr_emit]; reflexivity].
        apply r_one_out. apply IHt; [assumption|lia].
      + erewrite standard_unit; [|cbn [emit sr_emitter sr_emit]; reflexivity].
        apply r_addr_out_w. apply IHd; [assumption|lia].
      + reflexivity.
      + reflexivity.
      + reflexivity.
    - (* key *)
      destruct H as [m n k Hm|m n k Hm]; cbn [depth_key] in Hf.
      + apply standard_skip. cbn [emit sr_emitter sr_emit]. unfold bind at 1. unfold bind_res at 1.
        rewrite wvisit_eq, (visit_rhead _ _ n k) by (assumption || lia).
        rewrite (bind_ok _ _ _ _ _ (ident_to_type_pushed _ _ _)). reflexivity.
      + apply standard_skip. cbn [emit sr_emitter sr_emit]. unfold bind at 1. unfold bind_res at 1.
        rewrite wvisit_eq, (visit_rhead _ _ n k) by (assumption || lia).
        rewrite (bind_ok _ _ _ _ _ (ident_to_type_pushed _ _ _)). reflexivity.
    - (* value *)
      destruct H as [m n k Hm|e k v xk xv ks He Hk Hv|t x ks Ht|a x ks Ha]; cbn [depth_value] in Hf;
        (erewrite standard_unit; [|cbn [emit sr_emitter sr_emit]; reflexivity]).
      + apply r_head_out; [assumption|lia].
      + rewrite He in Hf. cbn [depth_entry] in Hf. destruct f as [|f]; [lia|].
        unfold r_out. cbn [soundb forallb]. unfold bind at 1. unfold bind_res at 1.
        rewrite wvisit_eq, He.
        rewrite (r_entry_out _ _ _ xk xv ks);
          [|intro s'; apply IH0; [lia|assumption|lia]|intro s'; apply IH0; [lia|assumption|lia]].
        rewrite andb_true_r. destruct (soundb xk && soundb xv); [|reflexivity].
        rewrite pops_to_map_pushed. reflexivity.
      + apply r_one_out, IHw; [assumption|lia].
      + apply r_addr_out_w, IHd; [assumption|lia].
    - (* argument *)
      destruct H as [t x ks Ht|m n k Hm|a|a x ks Ha|k v xk xv ks Hk Hv]; cbn [depth_arg] in Hf;
        (erewrite standard_unit; [|cbn [emit sr_emitter sr_emit]; reflexivity]).
      + apply r_one_out, IHt; [assumption|lia].
      + apply r_head_out; [assumption|lia].
      + reflexivity.
      + apply r_addr_out_w, IHd; [assumption|lia].
      + apply r_map_out; intro s'; [apply IHk|apply IHv]; (assumption || lia).
    - (* address type *)
      destruct H as [i n tn fs xs ks Hi Hfs]. cbn [depth_addr] in Hf.
      cbn [emit sr_emitter sr_emit]. unfold bind_res at 1. unfold bind at 1. unfold bind_res at 1.
      unfold bind at 1. unfold bind_res at 1.
      rewrite wvisit_eq, (visit_name _ _ _ n) by (assumption || lia).
      rewrite (bind_ok _ _ _ _ _ (ident_to_type_pushed _ _ _)).
      rewrite (bind_ok _ _ _ _ _ (pop_type_pushed _ _ _)).
      unfold bind at 1. unfold bind_res at 1.
      rewrite (r_collect_fields _ _ xs ks) by (apply Hfields; [assumption|lia]).
      unfold ra_out. cbn [soundb]. rewrite denote_list_fields. destruct (forallb _ xs); reflexivity.
    - (* argument of a map value *)
      destruct H as [t x ks Ht|m n k Hm|k v]; cbn [depth_tvarg] in Hf;
        (erewrite standard_unit; [|cbn [emit sr_emitter sr_emit]; reflexivity]).
      + apply r_one_out, IHw; [assumption|lia].
      + apply r_head_out; [assumption|lia].
      + reflexivity.
    - (* parenthesised map value *)
      destruct H as [t x ks Ht|m n k args xs ks Hm Hargs']; cbn [depth_tva] in Hf;
        (erewrite standard_unit; [|cbn [emit sr_emitter sr_emit]; reflexivity]).
      + apply r_one_out, IHv; [assumption|lia].
      + apply r_generic_out; [assumption|lia|]. apply Htvargs; [assumption|lia].
  Qed.

  Lemma decl_reads d nx ks s : reads_decl d nx ks ->
    decl debug d s = match denote (snd nx) with Some t => Ret (Ok (mkField (fst nx) t)) (leftover ks s) | None => Panic end.
  Proof.
    intros [Hn Ht]. unfold EmitSteps.decl, visit_ty. unfold bind at 1. unfold bind_res at 1.
    destruct (visits_r_all (depth_type (typed_type d))) as [Hv _].
    rewrite (Hv _ (snd nx) ks) by (exact Ht || lia). unfold r_out, denote. destruct (soundb (snd nx)); [|reflexivity].
    rewrite (bind_ok _ _ _ _ _ (pop_type_pushed _ _ _)). unfold field_of. rewrite Hn. destruct (type_from (sr (snd nx))); reflexivity.
  Qed.
End Reads.
