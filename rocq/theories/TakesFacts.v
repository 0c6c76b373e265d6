(** What the emitter does with unnamed fields of address types. *)
From Verif Require Import Chars Lexer Ast Types Visitor Emitter EmitSpec TypeFacts EmitTypes EmitProgram EmitInv EmitErase EmitSig EmitOk EmitSteps EmitFail
  Reads ReadsFacts QuirkFacts EventFacts Takes.
Local Open Scope nat_scope.

Scheme takes_type_mind := Induction for takes_type Sort Prop
  with takes_arg_mind := Induction for takes_arg Sort Prop
  with takes_args_mind := Induction for takes_args Sort Prop
  with takes_address_mind := Induction for takes_address Sort Prop
  with takes_fields_mind := Induction for takes_fields Sort Prop.
Combined Scheme takes_mind from takes_type_mind, takes_arg_mind, takes_args_mind, takes_address_mind, takes_fields_mind.
Scheme lacks_type_mind := Induction for lacks_type Sort Prop
  with lacks_arg_mind := Induction for lacks_arg Sort Prop
  with lacks_args_mind := Induction for lacks_args Sort Prop
  with lacks_address_mind := Induction for lacks_address Sort Prop
  with lacks_fields_mind := Induction for lacks_fields Sort Prop.
Combined Scheme lacks_mind from lacks_type_mind, lacks_arg_mind, lacks_args_mind, lacks_address_mind, lacks_fields_mind.

(** available parameters as declarations on the stack *)
Definition vd (nx : str * texp) : stack_object :=
  VariableDeclaration (mkField (fst nx) (match denote (snd nx) with Some t => t | None => Int32 end)).
Definition good (nx : str * texp) : Prop := denote (snd nx) <> None.
Definition stk (av : list (str * texp)) (st : list stack_object) (c : contract) : sr_state := mkst (map vd av ++ st) c.

Section Takes.
  Context (debug : stack_object -> str).
  Notation E := (sr_emitter debug).
  Notation vis := (visit E).

  Lemma t_says_arg f a x s : says_arg a x -> depth_arg a <= f -> vis f (ATypeArgument a) s = type_out x s.
  Proof. apply visits_as_all. Qed.

  Definition tout (x : texp) (s : sr_state) := type_out x s.
  Definition P_type av t x av' := Forall good av -> Forall good av' /\ forall f st c, depth_type t <= f ->
    vis f (AScillaType t) (stk av st c) = type_out x (stk av' st c).
  Definition P_arg av t x av' := Forall good av -> Forall good av' /\ forall f st c, depth_arg t <= f ->
    vis f (ATypeArgument t) (stk av st c) = type_out x (stk av' st c).
  Definition P_args av l xs av' := Forall good av -> Forall good av' /\ forall f main st c, list_max (map (fun a => depth_arg (node a)) l) <= f ->
    collect_sub_types debug (vis f) ATypeArgument l main (stk av st c)
    = if forallb soundb xs then Ret (Ok (add_subs main xs)) (stk av' st c) else Panic.
  Definition P_addr av t x av' := Forall good av -> Forall good av' /\ forall f st c, depth_addr t <= f ->
    vis f (AAddressType t) (stk av st c) = addr_out x (stk av' st c).
  Definition P_fields av l xs av' := Forall good av -> Forall good av' /\ forall f st c, list_max (map (fun a => depth_afield (node a)) l) <= f ->
    collect_address_fields debug (vis f) l (stk av st c)
    = match denote_list xs with Some r => Ret (Ok r) (stk av' st c) | None => Panic end.

  Lemma t_one f {A} (inj : A -> anynode) (w : wm A) x s s' : vis f (inj (node w)) s = type_out x s' ->
    skip_out ((wvisit (vis f) inj w ;;; ret tt) s) = type_out x s'.
  Proof. intro H. unfold bind, bind_res. rewrite wvisit_eq, H. unfold type_out. destruct (soundb x); reflexivity. Qed.
  Lemma t_addr f (w : wm NodeAddressType) x s s' : vis f (AAddressType (node w)) s = addr_out x s' ->
    skip_out ((wvisit (vis f) AAddressType w ;;; ret tt) s) = type_out x s'.
  Proof. intro H. unfold bind, bind_res. rewrite wvisit_eq, H. unfold addr_out, type_out. destruct (soundb x); reflexivity. Qed.
  Lemma t_unnamed f i t s : unnamed (node i) -> vis (S f) (AAddressTypeField (mkAddressTypeField i t)) s = Ret (Ok Continue) s.
  Proof. intro H. rewrite visit_S. unfold visit_node, standard. cbn [emit sr_emitter sr_emit]. destruct (node i) as [n|n|a b]; [exfalso; exact (H n eq_refl)| |]; reflexivity. Qed.
  Lemma t_named f i n t x s s' : vis f (AScillaType (node t)) s = type_out x s' -> node i = VariableName n ->
    vis (S f) (AAddressTypeField (mkAddressTypeField i t)) s = decl_out (node n) x s'.
  Proof.
    intros Ht Hi. rewrite visit_S. unfold visit_node.
    erewrite standard_unit; [|cbn [emit sr_emitter sr_emit]; reflexivity].
    rewrite Hi. unfold decl_out, denote. unfold bind at 1. unfold bind_res at 1. rewrite wvisit_eq, Ht. unfold type_out.
    destruct (soundb x); [|reflexivity].
    rewrite (bind_ok _ _ _ _ _ (pop_type_pushed _ _ _)). unfold field_of, bind, bind_res.
    destruct (type_from (sr x)); reflexivity.
  Qed.

  Lemma pop_vd p av st c : pop_variable_declaration debug (stk (p :: av) st c)
    = Ret (Ok (mkField (fst p) (match denote (snd p) with Some t => t | None => Int32 end))) (stk av st c).
  Proof. reflexivity. Qed.

  Lemma takes_all :
    (forall av t x av', takes_type av t x av' -> P_type av t x av') /\
    (forall av t x av', takes_arg av t x av' -> P_arg av t x av') /\
    (forall av l xs av', takes_args av l xs av' -> P_args av l xs av') /\
    (forall av t x av', takes_address av t x av' -> P_addr av t x av') /\
    (forall av l xs av', takes_fields av l xs av' -> P_fields av l xs av').
  Proof.
    apply (takes_mind (fun av t x av' _ => P_type av t x av') (fun av t x av' _ => P_arg av t x av') (fun av t x av' _ => P_args av t x av')
      (fun av t x av' _ => P_addr av t x av') (fun av t x av' _ => P_fields av t x av')).
    - intros av t x H G. split; [exact G|]. intros f st c Hf. now apply visit_type.
    - intros av m n args xs av' Hm _ IH G. destruct (IH G) as [G' IH']. split; [exact G'|]. intros f st c Hf. cbn [depth_type] in Hf.
      destruct f as [|f]; [lia|]. rewrite visit_S. unfold visit_node. erewrite standard_unit; [|cbn [emit sr_emitter sr_emit]; reflexivity].
      unfold generic_type. unfold bind at 1. unfold bind_res at 1. rewrite wvisit_eq, (visit_head _ _ _ n) by (assumption || lia).
      rewrite (bind_ok _ _ _ _ _ (ident_to_type_pushed _ _ _)).
      destruct args as [|a l].
      + specialize (IH' f (mkSr n [] None) st c ltac:(cbn; lia)). cbn [collect_sub_types] in IH'. unfold ret in IH'.
        destruct (forallb soundb xs) eqn:Hs; [|discriminate]. injection IH' as Ha Hb. unfold type_out. cbn [soundb]. rewrite Hs.
        unfold skip_out, ret, pushed. unfold stk in *. cbn [es_stack es_contract]. rewrite Hb.
        rewrite Ha. rewrite add_subs_spec. reflexivity.
      + rewrite (bind_ok _ _ _ _ _ (pop_type_pushed _ _ _)). unfold bind at 1. unfold bind_res at 1.
        rewrite IH' by lia. unfold type_out. cbn [soundb]. destruct (forallb soundb xs); [|reflexivity]. rewrite add_subs_spec. reflexivity.
    - intros av t x av' _ IH G. destruct (IH G) as [G' IH']. split; [exact G'|]. intros f st c Hf. cbn [depth_type] in Hf.
      destruct f as [|f]; [lia|]. rewrite visit_S. unfold visit_node. erewrite standard_unit; [|cbn [emit sr_emitter sr_emit]; reflexivity].
      apply t_one, IH'. lia.
    - intros av a x av' _ IH G. destruct (IH G) as [G' IH']. split; [exact G'|]. intros f st c Hf. cbn [depth_type] in Hf.
      destruct f as [|f]; [lia|]. rewrite visit_S. unfold visit_node. erewrite standard_unit; [|cbn [emit sr_emitter sr_emit]; reflexivity].
      apply t_addr, IH'. lia.
    - intros av t x H G. split; [exact G|]. intros f st c Hf. now apply t_says_arg.
    - intros av t x av' _ IH G. destruct (IH G) as [G' IH']. split; [exact G'|]. intros f st c Hf. cbn [depth_arg] in Hf.
      destruct f as [|f]; [lia|]. rewrite visit_S. unfold visit_node. erewrite standard_unit; [|cbn [emit sr_emitter sr_emit]; reflexivity].
      apply t_one, IH'. lia.
    - intros av a x av' _ IH G. destruct (IH G) as [G' IH']. split; [exact G'|]. intros f st c Hf. cbn [depth_arg] in Hf.
      destruct f as [|f]; [lia|]. rewrite visit_S. unfold visit_node. erewrite standard_unit; [|cbn [emit sr_emitter sr_emit]; reflexivity].
      apply t_addr, IH'. lia.
    - intros av G. split; [exact G|]. intros. reflexivity.
    - intros av a x av1 l xs av2 _ IH1 _ IH2 G. destruct (IH1 G) as [G1 IH1']. destruct (IH2 G1) as [G2 IH2']. split; [exact G2|].
      intros f main st c Hf. apply list_max_cons in Hf. destruct Hf as [Hf1 Hf2].
      cbn [collect_sub_types forallb]. unfold bind at 1. unfold bind_res at 1. rewrite wvisit_eq, IH1' by assumption. unfold type_out.
      destruct (soundb x); [|reflexivity]. cbn [andb]. rewrite (bind_ok _ _ _ _ _ (pop_type_pushed _ _ _)). rewrite IH2' by assumption. reflexivity.
    - intros av i n tn fs xs av' Hi _ IH G. destruct (IH G) as [G' IH']. split; [exact G'|]. intros f st c Hf. cbn [depth_addr] in Hf.
      destruct f as [|f]; [lia|]. rewrite visit_S. unfold visit_node.
      cbn [emit sr_emitter sr_emit]. unfold bind_res at 1. unfold bind at 1. unfold bind_res at 1.
      unfold bind at 1. unfold bind_res at 1.
      rewrite wvisit_eq, (visit_name _ _ _ n) by (assumption || lia).
      rewrite (bind_ok _ _ _ _ _ (ident_to_type_pushed _ _ _)).
      rewrite (bind_ok _ _ _ _ _ (pop_type_pushed _ _ _)).
      unfold bind at 1. unfold bind_res at 1. rewrite IH' by lia.
      unfold addr_out. cbn [soundb]. rewrite denote_list_fields. destruct (forallb _ xs); reflexivity.
    - intros av G. split; [exact G|]. intros. reflexivity.
    - intros av a i n t x av1 l xs av2 Ea Ei _ IH1 _ IH2 G. destruct (IH1 G) as [G1 IH1']. destruct (IH2 G1) as [G2 IH2']. split; [exact G2|].
      intros f st c Hf. apply list_max_cons in Hf. destruct Hf as [Hf1 Hf2]. rewrite Ea in Hf1. cbn [depth_afield] in Hf1.
      cbn [collect_address_fields denote_list]. unfold bind at 1. unfold bind_res at 1. rewrite wvisit_eq, Ea.
      destruct f as [|f]; [lia|]. rewrite (t_named _ _ n _ x _ _ (IH1' f st c ltac:(lia)) Ei). unfold decl_out.
      destruct (denote x) as [ty|]; [|reflexivity]. rewrite (bind_ok _ _ _ _ _ (pop_decl_pushed _ _ _)).
      unfold bind at 1. unfold bind_res at 1. rewrite IH2' by assumption. destruct (denote_list xs); reflexivity.
    - intros av a i t p l xs av' Ea Hi _ IH G. inversion G as [|? ? Gp G']; subst. destruct (IH G') as [G2 IH']. split; [exact G2|].
      intros f st c Hf. apply list_max_cons in Hf. destruct Hf as [Hf1 Hf2]. rewrite Ea in Hf1. cbn [depth_afield] in Hf1.
      destruct p as [pn px]. cbn [collect_address_fields denote_list]. unfold bind at 1. unfold bind_res at 1. rewrite wvisit_eq, Ea.
      destruct f as [|f]; [lia|]. rewrite t_unnamed by exact Hi. unfold good in Gp. cbn [snd] in Gp.
      rewrite (bind_ok _ _ _ _ _ (pop_vd _ _ _ _)). cbn [fst snd]. destruct (denote px) as [ty|]; [|congruence].
      unfold bind at 1. unfold bind_res at 1. rewrite IH' by assumption.
      destruct (denote_list xs); reflexivity.
  Qed.

  (** ** No parameter left *)
  Definition missing (o : option stack_object) : str :=
    lit "Expected type definition, but found " ++ match o with Some o => debug o | None => lit "nothing" end ++ lit ".".
  Definition suffix (a b : list stack_object) : Prop := exists p, b = p ++ a.
  Definition notype (st : list stack_object) : Prop := Forall (fun o => match o with SoTypeDefinition _ => False | _ => True end) st.
  Definition nodecl (st : list stack_object) : Prop := match st with VariableDeclaration _ :: _ => False | _ => True end.
  Lemma suffix_refl a : suffix a a.
  Proof. exists []. reflexivity. Qed.
  Lemma suffix_tl a b : suffix a b -> suffix (tl a) b.
  Proof. intros [p ->]. destruct a as [|x a]; [exists p; reflexivity|]. exists (p ++ [x]). cbn. now rewrite <- app_assoc. Qed.
  Lemma notype_suffix a b : suffix a b -> notype b -> notype a.
  Proof. intros [p ->] H. apply Forall_app in H. apply H. Qed.
  Lemma notype_tl a : notype a -> notype (tl a).
  Proof. intro H. destruct a; [exact H|]. inversion H. assumption. Qed.
  Lemma pop_missing st c : notype st -> pop_type_definition debug (mkst st c) = Ret (Err (missing (hd_error st))) (mkst (tl st) c).
  Proof. intro H. destruct st as [|[i|f|t] st]; try reflexivity. inversion H. contradiction. Qed.

  Definition fails_from (st : list stack_object) (r : result tr) : Prop :=
    match r with Ok _ => True | Err m => exists st'', suffix st'' (tl st) /\ m = missing (hd_error st'') end.
  Definition L_node (n : anynode) (d : nat) av := Forall good av -> forall f st c, d <= f -> notype st -> nodecl st ->
    exists r st', vis f n (stk av st c) = Ret r (mkst st' c) /\ suffix st' (tl st) /\ fails_from st r.
  Definition L_args av l := Forall good av -> forall f main st c, list_max (map (fun a => depth_arg (node a)) l) <= f -> notype st -> nodecl st ->
    exists m st', collect_sub_types debug (vis f) ATypeArgument l main (stk av st c) = Ret (Err m) (mkst st' c) /\ suffix st' (tl st)
      /\ fails_from st (Err m).
  Definition L_addr av t := Forall good av -> forall f st c, depth_addr t <= f -> notype st -> nodecl st ->
    exists st', vis f (AAddressType t) (stk av st c) = Ret (Ok SkipChildren) (mkst st' c) /\ suffix st' (tl st).
  Definition L_fields av l := Forall good av -> forall f st c, list_max (map (fun a => depth_afield (node a)) l) <= f -> notype st -> nodecl st ->
    exists m st', collect_address_fields debug (vis f) l (stk av st c) = Ret (Err m) (mkst st' c) /\ suffix st' (tl st).

  Lemma sound_b x : sound x -> soundb x = true.
  Proof. apply sound_iff. Qed.

  Lemma l_enclosed f {A} (inj : A -> anynode) (w : wm A) st c s :
    (exists r st', vis f (inj (node w)) s = Ret r (mkst st' c) /\ suffix st' (tl st) /\ fails_from st r) ->
    exists r st', skip_out ((wvisit (vis f) inj w ;;; ret tt) s) = Ret r (mkst st' c) /\ suffix st' (tl st) /\ fails_from st r.
  Proof.
    intros (r & st' & E & Hs & Hr). unfold bind, bind_res. rewrite wvisit_eq, E. destruct r as [t|m].
    - exists (Ok Continue), st'. split; [reflexivity|]. auto.
    - exists (Err m), st'. split; [reflexivity|]. auto.
  Qed.
  Lemma l_address f (w : wm NodeAddressType) st c s :
    (exists st', vis f (AAddressType (node w)) s = Ret (Ok SkipChildren) (mkst st' c) /\ suffix st' (tl st)) ->
    exists r st', skip_out ((wvisit (vis f) AAddressType w ;;; ret tt) s) = Ret r (mkst st' c) /\ suffix st' (tl st) /\ fails_from st r.
  Proof.
    intros (st' & E & Hs). unfold bind, bind_res. rewrite wvisit_eq, E. exists (Ok Continue), st'. split; [reflexivity|]. split; [exact Hs|exact I].
  Qed.

  Lemma lacks_all :
    (forall av t, lacks_type av t -> L_node (AScillaType t) (depth_type t) av) /\
    (forall av t, lacks_arg av t -> L_node (ATypeArgument t) (depth_arg t) av) /\
    (forall av l, lacks_args av l -> L_args av l) /\
    (forall av t, lacks_address av t -> L_addr av t) /\
    (forall av l, lacks_fields av l -> L_fields av l).
  Proof.
    destruct takes_all as (T1 & T2 & T3 & T4 & T5).
    apply (lacks_mind (fun av t _ => L_node (AScillaType t) (depth_type t) av) (fun av t _ => L_node (ATypeArgument t) (depth_arg t) av)
      (fun av l _ => L_args av l) (fun av t _ => L_addr av t) (fun av l _ => L_fields av l)).
    - intros av m n args Hm Hl IH G f st c Hf Hn Hd. cbn [depth_type] in Hf. destruct f as [|f]; [lia|].
      rewrite visit_S. unfold visit_node. erewrite standard_unit; [|cbn [emit sr_emitter sr_emit]; reflexivity].
      unfold generic_type. unfold bind at 1. unfold bind_res at 1. rewrite wvisit_eq, (visit_head _ _ _ n) by (assumption || lia).
      rewrite (bind_ok _ _ _ _ _ (ident_to_type_pushed _ _ _)).
      destruct args as [|a l]; [inversion Hl|]. rewrite (bind_ok _ _ _ _ _ (pop_type_pushed _ _ _)). unfold bind at 1. unfold bind_res at 1.
      destruct (IH G f (mkSr n [] None) st c ltac:(lia) Hn Hd) as (m' & st' & E & Hs & Hr). rewrite E.
      exists (Err m'), st'. split; [reflexivity|]. split; assumption.
    - intros av t _ IH G f st c Hf Hn Hd. cbn [depth_type] in Hf. destruct f as [|f]; [lia|].
      rewrite visit_S. unfold visit_node. erewrite standard_unit; [|cbn [emit sr_emitter sr_emit]; reflexivity].
      apply l_enclosed. apply IH; (assumption || lia).
    - intros av a _ IH G f st c Hf Hn Hd. cbn [depth_type] in Hf. destruct f as [|f]; [lia|].
      rewrite visit_S. unfold visit_node. erewrite standard_unit; [|cbn [emit sr_emitter sr_emit]; reflexivity].
      apply l_address. apply IH; (assumption || lia).
    - intros av t _ IH G f st c Hf Hn Hd. cbn [depth_arg] in Hf. destruct f as [|f]; [lia|].
      rewrite visit_S. unfold visit_node. erewrite standard_unit; [|cbn [emit sr_emitter sr_emit]; reflexivity].
      apply l_enclosed. apply IH; (assumption || lia).
    - intros av a _ IH G f st c Hf Hn Hd. cbn [depth_arg] in Hf. destruct f as [|f]; [lia|].
      rewrite visit_S. unfold visit_node. erewrite standard_unit; [|cbn [emit sr_emitter sr_emit]; reflexivity].
      apply l_address. apply IH; (assumption || lia).
    - intros av a l _ IH G f main st c Hf Hn Hd. apply list_max_cons in Hf. destruct Hf as [Hf1 Hf2].
      cbn [collect_sub_types]. unfold bind at 1. unfold bind_res at 1. rewrite wvisit_eq.
      destruct (IH G f st c Hf1 Hn Hd) as (r & st' & E & Hs & Hr). rewrite E. destruct r as [t|m].
      + unfold bind at 1. unfold bind_res at 1. rewrite pop_missing by (apply (notype_suffix _ _ Hs), notype_tl, Hn).
        exists (missing (hd_error st')), (tl st'). split; [reflexivity|]. split; [now apply suffix_tl|]. exists st'. auto.
      + exists m, st'. split; [reflexivity|]. split; assumption.
    - intros av a x av1 l Ht Hx _ IH G f main st c Hf Hn Hd. apply list_max_cons in Hf. destruct Hf as [Hf1 Hf2].
      destruct (T2 _ _ _ _ Ht G) as [G1 E]. cbn [collect_sub_types]. unfold bind at 1. unfold bind_res at 1. rewrite wvisit_eq, E by assumption.
      unfold type_out. rewrite (sound_b _ Hx). rewrite (bind_ok _ _ _ _ _ (pop_type_pushed _ _ _)). apply IH; assumption.
    - intros av i n tn fs Hi _ IH G f st c Hf Hn Hd. cbn [depth_addr] in Hf. destruct f as [|f]; [lia|]. rewrite visit_S. unfold visit_node.
      cbn [emit sr_emitter sr_emit]. unfold bind_res at 1. unfold bind at 1. unfold bind_res at 1.
      unfold bind at 1. unfold bind_res at 1.
      rewrite wvisit_eq, (visit_name _ _ _ n) by (assumption || lia).
      rewrite (bind_ok _ _ _ _ _ (ident_to_type_pushed _ _ _)).
      rewrite (bind_ok _ _ _ _ _ (pop_type_pushed _ _ _)).
      unfold bind at 1. unfold bind_res at 1. destruct (IH G f st c ltac:(lia) Hn Hd) as (m & st' & E & Hs). rewrite E.
      exists st'. split; [reflexivity|exact Hs].
    - intros a i t l Ea Hi G f st c Hf Hn Hd. apply list_max_cons in Hf. destruct Hf as [Hf1 Hf2]. rewrite Ea in Hf1. cbn [depth_afield] in Hf1.
      cbn [collect_address_fields]. unfold bind at 1. unfold bind_res at 1. rewrite wvisit_eq, Ea. destruct f as [|f]; [lia|].
      rewrite t_unnamed by exact Hi. unfold stk. cbn [map app].
      destruct st as [|[j|g|y] st]; [|  | contradiction |].
      + eexists _, []. split; [reflexivity|apply suffix_refl].
      + eexists _, st. split; [reflexivity|apply suffix_refl].
      + eexists _, st. split; [reflexivity|apply suffix_refl].
    - intros av a i n t l Ea Ei _ IH G f st c Hf Hn Hd. apply list_max_cons in Hf. destruct Hf as [Hf1 Hf2]. rewrite Ea in Hf1. cbn [depth_afield] in Hf1.
      cbn [collect_address_fields]. unfold bind at 1. unfold bind_res at 1. rewrite wvisit_eq, Ea. destruct f as [|f]; [lia|].
      rewrite visit_S. unfold visit_node. erewrite standard_unit; [|cbn [emit sr_emitter sr_emit]; reflexivity]. rewrite Ei.
      unfold bind at 1. unfold bind_res at 1. rewrite wvisit_eq.
      destruct (IH G f st c ltac:(lia) Hn Hd) as (r & st' & E & Hs & Hr). rewrite E. destruct r as [y|m].
      + unfold bind at 1. unfold bind_res at 1. rewrite pop_missing by (apply (notype_suffix _ _ Hs), notype_tl, Hn).
        eexists _, (tl st'). split; [reflexivity|now apply suffix_tl].
      + eexists _, st'. split; [reflexivity|exact Hs].
    - intros av a i n t x ty av1 l Ea Ei Ht Hx _ IH G f st c Hf Hn Hd. apply list_max_cons in Hf. destruct Hf as [Hf1 Hf2].
      rewrite Ea in Hf1. cbn [depth_afield] in Hf1. destruct (T1 _ _ _ _ Ht G) as [G1 E].
      cbn [collect_address_fields]. unfold bind at 1. unfold bind_res at 1. rewrite wvisit_eq, Ea. destruct f as [|f]; [lia|].
      rewrite (t_named _ _ n _ x _ _ (E f st c ltac:(lia)) Ei). unfold decl_out. apply denote_iff in Hx. rewrite Hx.
      rewrite (bind_ok _ _ _ _ _ (pop_decl_pushed _ _ _)). unfold bind at 1. unfold bind_res at 1.
      destruct (IH G1 (S f) st c Hf2 Hn Hd) as (m & st' & E' & Hs). rewrite E'. exists m, st'. split; [reflexivity|exact Hs].
    - intros av a i t p l Ea Hi _ IH G f st c Hf Hn Hd. inversion G as [|? ? Gp G']; subst. apply list_max_cons in Hf. destruct Hf as [Hf1 Hf2].
      rewrite Ea in Hf1. cbn [depth_afield] in Hf1.
      cbn [collect_address_fields]. unfold bind at 1. unfold bind_res at 1. rewrite wvisit_eq, Ea. destruct f as [|f]; [lia|].
      rewrite t_unnamed by exact Hi. rewrite (bind_ok _ _ _ _ _ (pop_vd _ _ _ _)). unfold bind at 1. unfold bind_res at 1.
      destruct (IH G' (S f) st c Hf2 Hn Hd) as (m & st' & E' & Hs). rewrite E'. exists m, st'. split; [reflexivity|exact Hs].
  Qed.

  (** ** Declarations *)
  Lemma takes_decl av d x av' : takes_type av (typed_type d) x av' -> Forall good av -> Forall good av' /\ forall st c,
    decl debug d (stk av st c) = match denote x with Some t => Ret (Ok (mkField (typed_name d) t)) (stk av' st c) | None => Panic end.
  Proof.
    intros H G. destruct (proj1 takes_all _ _ _ _ H G) as [G' E]. split; [exact G'|]. intros st c.
    unfold EmitSteps.decl, visit_ty. unfold bind at 1. unfold bind_res at 1. rewrite E by lia. unfold type_out, denote.
    destruct (soundb x); [|reflexivity]. rewrite (bind_ok _ _ _ _ _ (pop_type_pushed _ _ _)). unfold field_of. destruct (type_from (sr x)); reflexivity.
  Qed.
  Lemma lacks_decl av d st c : lacks_type av (typed_type d) -> Forall good av -> notype st -> nodecl st ->
    exists o st' s', suffix st' (tl st) /\ o = hd_error st' /\ decl debug d (stk av st c) = Ret (Err (missing o)) s'.
  Proof.
    intros H G Hn Hd. destruct (proj1 lacks_all _ _ H G (depth_type (typed_type d)) st c (le_n _) Hn Hd) as (r & st' & E & Hs & Hr).
    unfold EmitSteps.decl, visit_ty. unfold bind at 1. unfold bind_res at 1. rewrite E. destruct r as [t|m].
    - unfold bind at 1. unfold bind_res at 1. rewrite pop_missing by (apply (notype_suffix _ _ Hs), notype_tl, Hn).
      exists (hd_error st'), st', (mkst (tl st') c). auto.
    - destruct Hr as (st'' & Hs'' & ->). exists (hd_error st''), st'', (mkst st' c). auto.
  Qed.
  Lemma takes_fields_run av ds xs av' fs : takes_decls av ds xs av' -> Forall good av -> denote_list xs = Some fs -> forall st c,
    Forall good av' /\ each (step_field debug) ds (stk av st c) = Ret (Ok tt) (stk av' st (fields_added c fs)).
  Proof.
    intro H. revert fs. induction H as [av|av d x av1 ds xs av2 Hd _ IH]; intros fs G E st c.
    - injection E as <-. split; [exact G|]. unfold fields_added. rewrite app_nil_r. now destruct c.
    - cbn [denote_list] in E. destruct (takes_decl _ _ _ _ Hd G) as [G1 E1]. destruct (denote x) as [t|]; [|discriminate].
      destruct (denote_list xs) as [fs'|]; [|discriminate]. injection E as <-. cbn [each]. unfold step_field at 1.
      unfold bind at 1. unfold bind_res at 1. unfold bind at 1. unfold bind_res at 1. rewrite E1. cbn [upd]. unfold stk at 1.
      cbn [es_stack es_contract]. destruct (IH fs' G1 eq_refl st (add_field (mkField (typed_name d) t) c)) as [G2 E2].
      split; [exact G2|]. etransitivity; [exact E2|]. unfold fields_added, add_field. cbn. now rewrite <- app_assoc.
  Qed.
End Takes.
