(** Properties C26-C28: where the result of [Contract::from_str] is not what
    the annotation says: namespaced names, address types as map keys and the
    type [Event]. *)
From Verif Require Import Chars Lexer LexSpec LexFacts LexWritten PropLexer Ast Grammar Cfg Parser GrammarLink Types Visitor Emitter EmitInv
  Contract Erase EraseFacts EmitErase EmitSpec TypeFacts EmitTypes EmitProgram EmitSig EmitOk EmitSteps EmitFail PropParse2
  Print PrintFacts PrintRead PropPrint DerInv Spell SpellFacts Spaced PropEmit Reads ReadsFacts QuirkFacts AddressKeys EventFacts.

(** The declaration [d] is written as [f], its annotation being understood as it
    is written ([says_as]) or with all namespaces left out ([reads_as]). *)
Definition says_as (d : NodeTypedIdentifier) (f : field) : Prop :=
  field_name f = typed_name d /\ exists x, says_type (typed_type d) x /\ denotes x (field_type f).
Definition reads_as (d : NodeTypedIdentifier) (f : field) : Prop :=
  field_name f = typed_name d /\ exists x ks, reads_type (typed_type d) x ks /\ denotes x (field_type f).
Definition transition_says (d : str * list NodeTypedIdentifier) (t : transition) : Prop :=
  t_name t = fst d /\ Forall2 says_as (snd d) (t_params t).

Lemma says_given debug d f : says_as d f -> given debug [] d f.
Proof.
  destruct f as [n t]. intros (E & x & Hx & Ht). cbn in E, Ht. subst n. apply (given_says debug d _ x t); [split; [reflexivity|exact Hx]|exact Ht].
Qed.
Lemma reads_given debug d f : reads_as d f -> given_some debug d f.
Proof.
  destruct f as [n t]. intros (E & x & ks & Hx & Ht). cbn in E, Ht. subst n. exists ks. apply (given_reads debug d _ x ks t); [split; [reflexivity|exact Hx]|exact Ht].
Qed.
Lemma given_all debug ds fs : Forall2 says_as ds fs -> Forall2 (given debug []) ds fs.
Proof. induction 1; constructor; [now apply says_given|assumption]. Qed.
Lemma given_all_some debug ds fs : Forall2 reads_as ds fs -> Forall2 (given_some debug) ds fs.
Proof. induction 1; constructor; [now apply reads_given|assumption]. Qed.
Lemma given_trans debug ds ts : Forall2 transition_says ds ts -> Forall2 (trans_given debug) ds ts.
Proof. induction 1 as [|d t ds ts [Hn Hp] _ IH]; constructor; [split; [exact Hn|now apply given_all]|assumption]. Qed.

(** Whatever is said without namespaces is read with none left out, and
    conversely. *)
Scheme says_type_mind := Induction for says_type Sort Prop
  with says_key_mind := Induction for says_key Sort Prop
  with says_value_mind := Induction for says_value Sort Prop
  with says_arg_mind := Induction for says_arg Sort Prop
  with says_args_mind := Induction for says_args Sort Prop
  with says_address_mind := Induction for says_address Sort Prop
  with says_fields_mind := Induction for says_fields Sort Prop
  with says_tvarg_mind := Induction for says_tvarg Sort Prop
  with says_tvargs_mind := Induction for says_tvargs Sort Prop
  with says_tva_mind := Induction for says_tva Sort Prop.
Theorem C26_says_reads : forall t x, says_type t x -> reads_type t x [].
Proof.
  assert (A1 : forall m n args xs, plain_head (node m) n -> reads_args args xs [] -> reads_type (GenericTypeWithArgs m args) (TName n xs) []).
  { intros m n args xs Hm Ha. exact (rt_generic m n [] args xs [] (rh_plain _ _ Hm) Ha). }
  assert (A2 : forall a x l xs, reads_arg (node a) x [] -> reads_args l xs [] -> reads_args (a :: l) (x :: xs) []).
  { intros a x l xs Ha Hl. exact (ras_cons a x [] l xs [] Ha Hl). }
  assert (A3 : forall f i n t x l xs, node f = mkAddressTypeField i t -> node i = VariableName n ->
    reads_type (node t) x [] -> reads_fields l xs [] -> reads_fields (f :: l) ((node n, x) :: xs) []).
  { intros f i n t x l xs Hf Hi Ht Hl. exact (rf_cons f i n t x [] l xs [] Hf Hi Ht Hl). }
  assert (A4 : forall a x l xs, reads_tvarg (node a) x [] -> reads_tvargs l xs [] -> reads_tvargs (a :: l) (x :: xs) []).
  { intros a x l xs Ha Hl. exact (rgs_cons a x [] l xs [] Ha Hl). }
  assert (A5 : forall m n args xs, plain_head (node m) n -> reads_tvargs args xs [] -> reads_tva (TypeMapValueWithArgs m args) (TName n xs) []).
  { intros m n args xs Hm Ha. exact (rw_args m n [] args xs [] (rh_plain _ _ Hm) Ha). }
  intros t x H. induction H using says_type_mind with
    (P0 := fun t x _ => reads_key t x []) (P1 := fun t x _ => reads_value t x []) (P2 := fun t x _ => reads_arg t x [])
    (P3 := fun t x _ => reads_args t x []) (P4 := fun t x _ => reads_address t x []) (P5 := fun t x _ => reads_fields t x [])
    (P6 := fun t x _ => reads_tvarg t x []) (P7 := fun t x _ => reads_tvargs t x []) (P8 := fun t x _ => reads_tva t x []);
    eauto using rh_plain, rt_map, rt_enclosed, rt_address, rt_function, rt_poly, rt_var, rk_plain, rk_enclosed, rv_plain, rv_map, rv_enclosed,
      rv_address, ra_enclosed, ra_plain, ra_template, ra_address, ra_map, ras_nil, rd_address, rf_nil, rg_enclosed, rg_plain, rg_map, rgs_nil, rw_noargs.
Qed.

(** ** C26 *)

(** Parameters and fields may mention names [Ns.T] (except in the value of a
    map): the result is the same as if [T] had been written. *)
Theorem C26_namespaces_dropped : forall U debug text p ps fs ts,
  parse_str U Program text = POk p ->
  Forall2 reads_as (contract_param_decls (contract_of p)) ps ->
  Forall2 reads_as (field_decls (contract_of p)) fs ->
  Forall2 transition_says (transition_decls (contract_of p)) ts ->
  from_str U debug text = RValue (mkContract (declared_name (contract_of p)) ps fs ts).
Proof.
  intros U debug text p ps fs ts Hp H1 H2 H3. rewrite (from_str_parsed _ _ _ _ Hp). unfold emit_api.
  rewrite (emit_given debug p ps fs ts); [reflexivity| | |]; auto using given_all_some, given_trans.
Qed.

(** In particular: a field annotated [Ns.T], for a [T] without a special
    meaning, has type [Other T]. *)
Corollary C26_field_other : forall m a b ns n i ann,
  node ann = mkTypeAnnotation (w0 (GenericTypeWithArgs m [])) -> node m = MetaNameInNamespace a b ->
  plain_name (node a) ns -> plain_name (node b) n -> denotes (TName n []) (Other n) ->
  reads_as (mkTypedIdentifier i ann) (mkField (node i) (Other n)).
Proof.
  intros m a b ns n i ann Ha Hm Hns Hn Hd. split; [reflexivity|]. exists (TName n []), ([] ++ [ns]). split; [|exact Hd].
  cbn [typed_type]. rewrite Ha. cbn [node w0]. apply rt_generic; [rewrite Hm; constructor; assumption|constructor].
Qed.

(** A transition with a parameter that mentions a namespaced name makes
    [from_str] panic, provided that what is treated before it is read without
    a failure and no parameter of it uses the features of C27, C28. *)
Theorem C26_transition_panics : forall U debug text p ps fs pre ts n ds post nxks,
  parse_str U Program text = POk p ->
  Forall2 reads_as (contract_param_decls (contract_of p)) ps ->
  Forall2 reads_as (field_decls (contract_of p)) fs ->
  transition_decls (contract_of p) = pre ++ (n, ds) :: post -> Forall2 transition_says pre ts ->
  Forall2 (fun d xk => reads_type (typed_type d) (fst xk) (snd xk)) ds nxks ->
  Exists (fun xk => snd xk <> []) nxks ->
  from_str U debug text = RPanic.
Proof.
  intros U debug text p ps fs pre ts n ds post nxks Hp H1 H2 Ht Hpre Hds He. rewrite (from_str_parsed _ _ _ _ Hp). unfold emit_api.
  rewrite (emit_leftover_transition debug p ps fs pre ts n ds post); auto using given_all_some, given_trans.
  exists (map (fun dxk => ((typed_name (fst dxk), fst (snd dxk)), snd (snd dxk))) (combine ds nxks)). split.
  - clear -Hds. induction Hds as [|d xk ds nxks H _ IH]; cbn; [constructor|]. constructor; [split; [reflexivity|exact H]|exact IH].
  - assert (Em : map snd (map (fun dxk : NodeTypedIdentifier * (texp * list str) => ((typed_name (fst dxk), fst (snd dxk)), snd (snd dxk))) (combine ds nxks)) = map snd nxks).
    { clear -Hds. induction Hds as [|d xk ds nxks H _ IH]; cbn; [reflexivity|]. now rewrite IH. }
    rewrite Em. apply Exists_exists in He. destruct He as (xk & Hi & Hn).
    destruct (List.concat (rev (map snd nxks))) as [|k ks] eqn:Ec; [|eauto]. exfalso. apply Hn.
    assert (Hk : In (snd xk) (rev (map snd nxks))) by (apply -> in_rev; apply in_map, Hi).
    destruct (snd xk) as [|k l]; [reflexivity|]. assert (Hk' : In k (List.concat (rev (map snd nxks)))).
    { apply in_concat. exists (k :: l). split; [exact Hk|left; reflexivity]. }
    rewrite Ec in Hk'. destruct Hk'.
Qed.

(** A map with a namespaced value is an error if everything before it is well
    described. *)
Theorem C26_map_value : forall U debug text p pre d post fpre k v xk kk xv n ns,
  parse_str U Program text = POk p ->
  all_decls (contract_of p) = pre ++ d :: post -> Forall2 says_as pre fpre ->
  typed_type d = MapType k v -> reads_key (node k) xk kk -> reads_value (node v) xv (n :: ns) -> sound xk -> sound xv ->
  from_str U debug text
  = RError (ParseErrorEmit (lit "Expected type definition, but found " ++ debug (IrIdentifier (mkId n KUnknown)) ++ lit ".")).
Proof.
  intros U debug text p pre d post fpre k v xk kk xv n ns Hp Ha Hpre Et Hk Hv Sk Sv. rewrite (from_str_parsed _ _ _ _ Hp). unfold emit_api.
  apply sound_iff in Sk, Sv.
  rewrite (emit_first_failure debug p pre d post (EErr (value_message debug n)) Ha); [reflexivity| |].
  - clear -Hpre. induction Hpre as [|e f pre fpre He _ IH]; constructor; [|exact IH]. exists f. intro s.
    rewrite (says_given debug e f He s). now rewrite leftover_nil.
  - intro s. exact (map_value_fails debug d k v xk kk xv n ns s Et Hk Hv Sk Sv).
Qed.

(** ** C27 *)

(** Wherever a map with an address type as key occurs in a declaration (other
    than inside the fields of another address type), the program is not
    accepted.  [keyed_type], [address_key]: AddressKeys.v. *)
Theorem C27_address_key_never_accepted : forall U debug text p d c,
  parse_str U Program text = POk p -> In d (all_decls (contract_of p)) -> keyed_type (typed_type d) ->
  from_str U debug text <> RValue c.
Proof.
  intros U debug text p d c Hp Hi Hk H. rewrite (from_str_parsed _ _ _ _ Hp) in H. unfold emit_api in H.
  destruct (emit_program debug p) as [c'| | |] eqn:Ee; try discriminate.
  exact (emit_never debug p d c' Hi (keyed_never debug d Hk) Ee).
Qed.

(** If everything before it is well described and the map is the whole
    annotation, the outcome is this error (a panic, if a field of the address
    denotes no type). *)
Theorem C27_address_key_error : forall U debug text p pre d post fpre k v x,
  parse_str U Program text = POk p ->
  all_decls (contract_of p) = pre ++ d :: post -> Forall2 says_as pre fpre ->
  typed_type d = MapType k v -> address_key (node k) x -> sound x ->
  from_str U debug text
  = RError (ParseErrorEmit (lit "Expected symbol name, but found " ++ debug (SoTypeDefinition (sr x)) ++ lit ".")).
Proof.
  intros U debug text p pre d post fpre k v x Hp Ha Hpre Et Hk Hs. rewrite (from_str_parsed _ _ _ _ Hp). unfold emit_api.
  apply sound_iff in Hs.
  rewrite (emit_first_failure debug p pre d post (EErr (key_message debug x)) Ha); [reflexivity| |].
  - clear -Hpre. induction Hpre as [|e f pre fpre He _ IH]; constructor; [|exact IH]. exists f. intro s.
    rewrite (says_given debug e f He s). now rewrite leftover_nil.
  - intro s. pose proof (map_key_fails debug d k v x s Et Hk) as G. now rewrite Hs in G.
Qed.
Theorem C27_address_key_panic : forall U debug text p pre d post fpre k v x,
  parse_str U Program text = POk p ->
  all_decls (contract_of p) = pre ++ d :: post -> Forall2 says_as pre fpre ->
  typed_type d = MapType k v -> address_key (node k) x -> ~ sound x ->
  from_str U debug text = RPanic.
Proof.
  intros U debug text p pre d post fpre k v x Hp Ha Hpre Et Hk Hs. rewrite (from_str_parsed _ _ _ _ Hp). unfold emit_api.
  assert (Hs' : soundb x = false). { destruct (soundb x) eqn:E; [|reflexivity]. destruct Hs. apply sound_iff, E. }
  rewrite (emit_first_failure debug p pre d post EPanic Ha); [reflexivity| |].
  - clear -Hpre. induction Hpre as [|e f pre fpre He _ IH]; constructor; [|exact IH]. exists f. intro s.
    rewrite (says_given debug e f He s). now rewrite leftover_nil.
  - intro s. pose proof (map_key_fails debug d k v x s Et Hk) as G. now rewrite Hs' in G.
Qed.

(** ** C28 *)

(** Contract without parameters: the first field of type [Event] gets the type
    that the name of the contract denotes. *)
Theorem C28_event_field_is_the_contract : forall U debug text p cn t pre d post fpre fpost ts,
  parse_str U Program text = POk p ->
  contract_param_decls (contract_of p) = [] ->
  plain_name (contract_name_node (contract_of p)) cn -> denotes (TName cn []) t ->
  field_decls (contract_of p) = pre ++ d :: post -> event_type (typed_type d) ->
  Forall2 says_as pre fpre -> Forall2 says_as post fpost ->
  Forall2 transition_says (transition_decls (contract_of p)) ts ->
  from_str U debug text = RValue (mkContract cn [] (fpre ++ mkField (typed_name d) t :: fpost) ts).
Proof.
  intros U debug text p cn t pre d post fpre fpost ts Hp Hc Hn Ht Hf He H1 H2 H3. rewrite (from_str_parsed _ _ _ _ Hp). unfold emit_api.
  rewrite (event_field debug p cn pre d post t fpre fpost ts); auto using given_all, given_trans.
  assert (En : declared_name (contract_of p) = cn).
  { clear -Hn. unfold contract_of, contract_name_node in *. destruct p as [v i l [c st e]]. cbn [node] in *. destruct c as [n ps cc fs cs].
    cbn [declared_name] in *. destruct Hn; reflexivity. }
  unfold contract_of in En. rewrite En. reflexivity.
Qed.
(** A further one is an error. *)
Theorem C28_second_event_field : forall U debug text p cn t pre d mid d2 post fpre fmid,
  parse_str U Program text = POk p ->
  contract_param_decls (contract_of p) = [] ->
  plain_name (contract_name_node (contract_of p)) cn -> denotes (TName cn []) t ->
  field_decls (contract_of p) = pre ++ d :: mid ++ d2 :: post -> event_type (typed_type d) -> event_type (typed_type d2) ->
  Forall2 says_as pre fpre -> Forall2 says_as mid fmid ->
  from_str U debug text = RError (ParseErrorEmit (lit "Expected symbol name, but found nothing.")).
Proof.
  intros U debug text p cn t pre d mid d2 post fpre fmid Hp Hc Hn Ht Hf He He2 H1 H2. rewrite (from_str_parsed _ _ _ _ Hp). unfold emit_api.
  rewrite (event_field_twice debug p cn pre d mid d2 post t fpre fmid); auto using given_all.
Qed.
(** Contract with parameters: a field of type [Event] is an error that shows the
    last parameter. *)
Theorem C28_event_field_with_params : forall U debug text p fps pn pre d post fpre,
  parse_str U Program text = POk p ->
  Forall2 says_as (contract_param_decls (contract_of p)) (fps ++ [pn]) ->
  field_decls (contract_of p) = pre ++ d :: post -> event_type (typed_type d) -> Forall2 says_as pre fpre ->
  from_str U debug text
  = RError (ParseErrorEmit (lit "Expected symbol name, but found " ++ debug (VariableDeclaration pn) ++ lit ".")).
Proof.
  intros U debug text p fps pn pre d post fpre Hp Hps Hf He H1. rewrite (from_str_parsed _ _ _ _ Hp). unfold emit_api.
  rewrite (event_field_params debug p fps pn pre d post fpre); auto using given_all.
Qed.
(** A parameter of type [Event] is an error. *)
Theorem C28_event_param : forall U debug text p cn t pre d post fpre fpost,
  parse_str U Program text = POk p ->
  plain_name (contract_name_node (contract_of p)) cn -> denotes (TName cn []) t ->
  contract_param_decls (contract_of p) = pre ++ d :: post -> event_type (typed_type d) ->
  Forall2 says_as pre fpre -> Forall2 says_as post fpost ->
  exists m, from_str U debug text = RError (ParseErrorEmit m).
Proof.
  intros U debug text p cn t pre d post fpre fpost Hp Hn Ht Hc He H1 H2. rewrite (from_str_parsed _ _ _ _ Hp). unfold emit_api.
  rewrite (event_param debug p cn t pre d post fpre fpost); auto using given_all. eexists. reflexivity.
Qed.
(** A transition with a parameter of type [Event] is a panic in a contract
    without parameters and an error in one with parameters. *)
Theorem C28_event_transition : forall U debug text p fps fs pre us n ds1 d ds2 f1 f2 post t cn,
  parse_str U Program text = POk p -> plain_name (contract_name_node (contract_of p)) cn ->
  Forall2 says_as (contract_param_decls (contract_of p)) fps -> Forall2 says_as (field_decls (contract_of p)) fs ->
  transition_decls (contract_of p) = pre ++ (n, ds1 ++ d :: ds2) :: post -> Forall2 transition_says pre us ->
  Forall2 says_as ds1 f1 -> Forall2 says_as ds2 f2 -> event_type (typed_type d) -> denotes (TName n []) t ->
  (fps = [] -> from_str U debug text = RPanic)
  /\ (forall l pn, fps = l ++ [pn] -> from_str U debug text
        = RError (ParseErrorEmit (lit "Expected symbol name, but found " ++ debug (VariableDeclaration pn) ++ lit "."))).
Proof.
  intros U debug text p fps fs pre us n ds1 d ds2 f1 f2 post t cn Hp Hn Hps Hfs Ht Hpre H1 H2 He Hd.
  rewrite (from_str_parsed _ _ _ _ Hp). unfold emit_api.
  rewrite (event_transition debug p fps fs pre us n ds1 d ds2 f1 f2 post t); auto using given_all, given_trans.
  split.
  - intros ->. cbn [rev hd_error]. fold (contract_of p). destruct Hn; reflexivity.
  - intros l pn ->. rewrite rev_app_distr. reflexivity.
Qed.

(** ** Witnesses *)

(** namespaces in a parameter, in fields and in an address type's field *)
Definition nsrc := lit "scilla_version 0 contract C (a : Lib.T) field f : List (Lib.U) = e field g : Map A.K (Option Bool) = e transition Go (x : T) end".
Example C26_witness : exists p, parse_str U_none Program nsrc = POk p
  /\ Forall2 reads_as (contract_param_decls (contract_of p)) [mkField (lit "a") (Other (lit "T"))]
  /\ Forall2 reads_as (field_decls (contract_of p)) [mkField (lit "f") (TyList (Other (lit "U"))); mkField (lit "g") (TyMap (Other (lit "K")) (TyOption TyBool))]
  /\ Forall2 transition_says (transition_decls (contract_of p)) [mkTransition (lit "Go") [mkField (lit "x") (Other (lit "T"))]].
Proof.
  eexists. split; [vm_compute; reflexivity|]. split; [|split].
  - constructor; [|constructor]. split; [reflexivity|]. exists (N0 "T"). eexists. split; [|apply denote_iff; vm_compute; reflexivity].
    vm_compute. econstructor; [eapply rh_namespace; cbn; constructor|constructor].
  - constructor; [|constructor; [|constructor]].
    + split; [reflexivity|]. exists (TName (lit "List") [N0 "U"]). eexists. split; [|apply denote_iff; vm_compute; reflexivity].
      vm_compute. econstructor; [eapply rh_plain; repeat (cbn; constructor)|].
      econstructor; [cbn; eapply ra_enclosed; cbn; econstructor; [eapply rh_namespace; cbn; constructor|constructor]|constructor].
    + split; [reflexivity|]. exists (TName (lit "Map") [N0 "K"; TName (lit "Option") [N0 "Bool"]]). eexists. split; [|apply denote_iff; vm_compute; reflexivity].
      vm_compute. econstructor.
      * cbn. econstructor. eapply rh_namespace; cbn; constructor.
      * cbn. eapply rv_enclosed. cbn.
        refine (rw_args _ _ [] _ _ [] _ _); [eapply rh_plain; repeat (cbn; constructor)|].
        refine (rgs_cons _ _ [] _ _ [] _ _); [|constructor]. cbn. constructor. eapply rh_plain. repeat (cbn; constructor).
  - constructor; [|constructor]. split; [reflexivity|]. constructor; [|constructor]. split; [reflexivity|].
    exists (N0 "T"). split; [vm_compute; says|apply denote_iff; vm_compute; reflexivity].
Qed.
Example C26_witness_value : from_str U_none no_debug nsrc = RValue (mkContract (lit "C") [mkField (lit "a") (Other (lit "T"))]
  [mkField (lit "f") (TyList (Other (lit "U"))); mkField (lit "g") (TyMap (Other (lit "K")) (TyOption TyBool))]
  [mkTransition (lit "Go") [mkField (lit "x") (Other (lit "T"))]]).
Proof. vm_compute. reflexivity. Qed.
Definition ntsrc := lit "scilla_version 0 contract C (a : Lib.T) transition Go (x : T) end transition Stop (y : Int32, z : Lib.T, w : Bool) end".
Example C26_witness_transition : exists p pre ts n ds nxks, parse_str U_none Program ntsrc = POk p
  /\ transition_decls (contract_of p) = pre ++ [(n, ds)] /\ List.length pre = 1%nat /\ Forall2 transition_says pre ts
  /\ Forall2 (fun d xk => reads_type (typed_type d) (fst xk) (snd xk)) ds nxks /\ Exists (fun xk => snd xk <> []) nxks
  /\ from_str U_none no_debug ntsrc = RPanic.
Proof.
  eexists. eexists [_], [mkTransition (lit "Go") [mkField (lit "x") (Other (lit "T"))]], _, _,
    [(N0 "Int32", [] ++ []); (N0 "T", [] ++ [lit "Lib"]); (N0 "Bool", [] ++ [])].
  split; [vm_compute; reflexivity|]. split; [reflexivity|]. split; [reflexivity|]. split; [|split; [|split]].
  - constructor; [|constructor]. split; [reflexivity|]. constructor; [|constructor]. split; [reflexivity|].
    exists (N0 "T"). split; [vm_compute; says|apply denote_iff; vm_compute; reflexivity].
  - constructor; [|constructor; [|constructor; [|constructor]]].
    + vm_compute. apply (rt_generic _ _ [] _ _ []); [eapply rh_plain; repeat (cbn; constructor)|constructor].
    + vm_compute. apply (rt_generic _ _ [_] _ _ []); [eapply rh_namespace; repeat (cbn; constructor)|constructor].
    + vm_compute. apply (rt_generic _ _ [] _ _ []); [eapply rh_plain; repeat (cbn; constructor)|constructor].
  - apply Exists_cons_tl, Exists_cons_hd. discriminate.
  - vm_compute. reflexivity.
Qed.
(** "Any transition with a parameter of a namespaced type panics" is false in
    general: the namespace that is left behind can be taken up by a parameter of
    type [Event]. *)
Theorem C26_any_transition_panics_refuted :
  from_str U_none no_debug (lit "scilla_version 0 contract C () transition T (a : Ns.K, b : Event) end")
  = RValue (mkContract (lit "C") [] [] [mkTransition (lit "T") [mkField (lit "a") (Other (lit "K")); mkField (lit "b") (Other (lit "Ns"))]]).
Proof. vm_compute. reflexivity. Qed.

Definition msrc := lit "scilla_version 0 contract C (a : Int32) field f : Map Int32 Lib.T = e".
Example C26_witness_map : exists p pre d k v, parse_str U_none Program msrc = POk p
  /\ all_decls (contract_of p) = pre ++ [d] /\ List.length pre = 1%nat /\ typed_type d = MapType k v
  /\ reads_key (node k) (N0 "Int32") [] /\ reads_value (node v) (N0 "T") [lit "Lib"]
  /\ from_str U_none no_debug msrc = RError (ParseErrorEmit (lit "Expected type definition, but found ?.")).
Proof.
  eexists. eexists [_], _, _, _. split; [vm_compute; reflexivity|]. split; [reflexivity|]. split; [reflexivity|]. split; [reflexivity|].
  split; [|split].
  - cbn. constructor. apply rh_plain. repeat (cbn; constructor).
  - cbn. constructor. eapply rh_namespace; cbn; constructor.
  - vm_compute. reflexivity.
Qed.

Definition ksrc := lit "scilla_version 0 contract C (a : Int32) field f : Map (ByStr20 with contract field x : Int32 end) Bool = e".
Definition ksrc2 := lit "scilla_version 0 contract C (a : Int32) field f : Pair Int32 (List (Map String (Map ByStr20 with end Bool))) = e".
Example C27_witness : exists p pre d k v x, parse_str U_none Program ksrc = POk p
  /\ all_decls (contract_of p) = pre ++ [d] /\ List.length pre = 1%nat /\ typed_type d = MapType k v
  /\ address_key (node k) x /\ sound x /\ keyed_type (typed_type d)
  /\ from_str U_none no_debug ksrc = RError (ParseErrorEmit (lit "Expected symbol name, but found ?.")).
Proof.
  eexists. eexists [_], _, _, _, _.
  split; [vm_compute; reflexivity|]. split; [reflexivity|]. split; [reflexivity|]. split; [reflexivity|].
  match goal with |- ?A /\ _ => assert (H : A) end.
  { cbn. eapply ak_enclosed. cbn. econstructor; [cbn; constructor|].
    eapply (rf_cons _ _ _ _ _ [] _ _ []); [cbn; reflexivity|cbn; reflexivity| |constructor].
    cbn. eapply (rt_generic _ _ [] _ _ []); [eapply rh_plain; cbn; constructor; cbn; constructor|constructor]. }
  split; [exact H|]. split; [apply sound_iff; vm_compute; reflexivity|]. split; [eapply kt_here; exact H|]. vm_compute. reflexivity.
Qed.
Example C27_witness_nested : exists p d, parse_str U_none Program ksrc2 = POk p /\ In d (all_decls (contract_of p))
  /\ keyed_type (typed_type d) /\ from_str U_none no_debug ksrc2 = RError (ParseErrorEmit (lit "Expected symbol name, but found ?.")).
Proof.
  eexists. eexists. split; [vm_compute; reflexivity|]. split; [right; left; reflexivity|]. split.
  - cbn. eapply kt_arg; [right; left; reflexivity|]. cbn. eapply ka_enclosed. cbn. eapply kt_arg; [left; reflexivity|]. cbn.
    eapply ka_enclosed. cbn. eapply kt_value. cbn. eapply kv_enclosed. cbn. eapply kw_noargs. cbn. eapply kv_here; [cbn; reflexivity|]. cbn.
    eapply ak_plain. cbn. econstructor; [cbn; constructor|constructor].
  - vm_compute. reflexivity.
Qed.
(** "A map with an address type as key is never accepted" is false in general:
    the visit of an address type over [Event] fails without being reported
    (C29) and leaves the contract name on top of the stack, which becomes the
    key. *)
Theorem C27_every_address_key_rejected_refuted :
  from_str U_none no_debug (lit "scilla_version 0 contract C (a : Int32) field f : Map (Event with end) Int32 = e")
  = RValue (mkContract (lit "C") [mkField (lit "a") Int32] [mkField (lit "f") (TyMap (Other (lit "C")) Int32)] []).
Proof. vm_compute. reflexivity. Qed.

Definition esrc := lit "scilla_version 0 contract Bank () field a : Int32 = e field f : Event = e field g : Bool = e transition T (x : Int32) end".
Example C28_witness : exists p pre d post, parse_str U_none Program esrc = POk p
  /\ contract_param_decls (contract_of p) = [] /\ plain_name (contract_name_node (contract_of p)) (lit "Bank")
  /\ denotes (TName (lit "Bank") []) (Other (lit "Bank"))
  /\ field_decls (contract_of p) = pre ++ d :: post /\ event_type (typed_type d)
  /\ Forall2 says_as pre [mkField (lit "a") Int32] /\ Forall2 says_as post [mkField (lit "g") TyBool]
  /\ Forall2 transition_says (transition_decls (contract_of p)) [mkTransition (lit "T") [mkField (lit "x") Int32]].
Proof.
  eexists. eexists [_], _, [_]. split; [vm_compute; reflexivity|]. split; [reflexivity|]. split; [cbn; apply pn_type|].
  split; [apply denote_iff; vm_compute; reflexivity|]. split; [reflexivity|]. split; [eexists; eexists; repeat split; reflexivity|].
  split; [|split].
  - constructor; [|constructor]. split; [reflexivity|]. exists (N0 "Int32"). split; [vm_compute; says|apply denote_iff; vm_compute; reflexivity].
  - constructor; [|constructor]. split; [reflexivity|]. exists (N0 "Bool"). split; [vm_compute; says|apply denote_iff; vm_compute; reflexivity].
  - constructor; [|constructor]. split; [reflexivity|]. constructor; [|constructor]. split; [reflexivity|].
    exists (N0 "Int32"). split; [vm_compute; says|apply denote_iff; vm_compute; reflexivity].
Qed.
(** "A field of type [Event] has type [Other Event]" is false. *)
Theorem C28_event_is_other_event_refuted : from_str U_none no_debug esrc = RValue (mkContract (lit "Bank") []
  [mkField (lit "a") Int32; mkField (lit "f") (Other (lit "Bank")); mkField (lit "g") TyBool] [mkTransition (lit "T") [mkField (lit "x") Int32]]).
Proof. vm_compute. reflexivity. Qed.
Example C28_witness_second : from_str U_none no_debug (lit "scilla_version 0 contract Bank () field f : Event = e field a : Int32 = e field g : Event = e")
  = RError (ParseErrorEmit (lit "Expected symbol name, but found nothing.")).
Proof. vm_compute. reflexivity. Qed.
Example C28_witness_with_params : from_str U_none no_debug (lit "scilla_version 0 contract Bank (p : Int32) field f : Event = e")
  = RError (ParseErrorEmit (lit "Expected symbol name, but found ?.")).
Proof. vm_compute. reflexivity. Qed.
Example C28_witness_param : from_str U_none no_debug (lit "scilla_version 0 contract Bank (p : Event)")
  = RError (ParseErrorEmit (lit "Expected symbol name, but found nothing.")).
Proof. vm_compute. reflexivity. Qed.
Example C28_witness_transition : from_str U_none no_debug (lit "scilla_version 0 contract Bank () transition T (e : Event) end") = RPanic
  /\ from_str U_none no_debug (lit "scilla_version 0 contract Bank (a : Int32) transition T (e : Event) end")
     = RError (ParseErrorEmit (lit "Expected symbol name, but found ?.")).
Proof. split; vm_compute; reflexivity. Qed.
