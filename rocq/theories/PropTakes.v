(** C56: address types with fields that are not plain identifiers, against the
    specification in Takes.v. *)
From Verif Require Import Chars Lexer Ast Grammar Cfg Parser GrammarLink Types Visitor Emitter EmitInv
  Contract Erase EraseFacts EmitErase EmitSpec TypeFacts EmitTypes EmitProgram EmitSig EmitOk EmitSteps EmitFail PropParse2
  Print PropEmit Reads ReadsFacts QuirkFacts EventFacts PropQuirks Takes TakesFacts.

Section Run.
  Context (debug : stack_object -> str).
  Notation C p := (match p with mkProgram _ _ _ c => node c end).

  Lemma given_described ds ps : Forall2 says_decl ds ps -> forall fps, denote_list ps = Some fps -> Forall2 (given debug []) ds fps.
  Proof.
    induction 1 as [|d [n x] ds ps [Hn Hx] _ IH]; intros fps E; cbn [denote_list fst snd] in *.
    - injection E as <-. constructor.
    - destruct (denote x) as [t|] eqn:Et; [|discriminate]. destruct (denote_list ps) as [l|]; [|discriminate]. injection E as <-.
      constructor; [|now apply IH]. apply (given_says debug d n x t); [split; [exact Hn|exact Hx]|apply denote_iff, Et].
  Qed.
  Lemma vd_fields ps : forall fps, denote_list ps = Some fps -> map vd ps = map VariableDeclaration fps /\ Forall good ps.
  Proof.
    induction ps as [|[n x] ps IH]; intros fps E; cbn [denote_list] in E.
    - injection E as <-. split; constructor.
    - destruct (denote x) as [t|] eqn:Et; [|discriminate]. destruct (denote_list ps) as [l|]; [|discriminate]. injection E as <-.
      destruct (IH l eq_refl) as [E1 G]. split; [|constructor; [unfold good; cbn; congruence|exact G]].
      cbn [map]. rewrite E1. unfold vd. cbn [fst snd]. now rewrite Et.
  Qed.
  (** after the parameters: the state in which the fields are treated *)
  Lemma after_params c ps fps : Forall2 says_decl (contract_param_decls c) ps -> denote_list ps = Some fps ->
    Forall good (rev ps) /\
    forall k : EM unit, (each (step_param debug) (contract_param_decls c) ;;; each (step_again debug) (contract_param_decls c) ;;; k) (first_state c)
    = k (stk (rev ps) (name_stack (contract_name_node c)) (mkContract (declared_name c) fps [] [])).
  Proof.
    intros Hs E. pose proof (given_described _ _ Hs _ E) as Hg. destruct (vd_fields _ _ E) as [Ev G]. split; [now apply Forall_rev|].
    intro k. unfold bind at 1. unfold bind_res at 1. rewrite (params_exact _ _ _ Hg). unfold bind at 1. unfold bind_res at 1.
    rewrite (again_exact _ _ _ Hg). unfold stk. rewrite map_rev, Ev. reflexivity.
  Qed.
  Lemma name_notype n : notype (name_stack n) /\ nodecl (name_stack n) /\ tl (name_stack n) = [].
  Proof. destruct n as [[s|s]| |s]; repeat split; repeat constructor. Qed.
  Lemma suffix_nil a : suffix a [] -> a = [].
  Proof. intros [p E]. symmetry in E. apply app_eq_nil in E. apply E. Qed.

  Lemma run_taken p ps fps xs av' fs ts :
    Forall2 says_decl (contract_param_decls (C p)) ps -> denote_list ps = Some fps ->
    takes_decls (rev ps) (field_decls (C p)) xs av' -> denote_list xs = Some fs ->
    Forall2 (trans_given debug) (transition_decls (C p)) ts ->
    emit_program debug p = EOk (mkContract (declared_name (C p)) fps fs ts).
  Proof.
    intros Hp Ep Hf Ef Ht. rewrite emit_steps. cbv zeta. set (c := C p) in *. unfold steps. destruct (after_params c ps fps Hp Ep) as [G E].
    rewrite E. unfold bind at 1. unfold bind_res at 1.
    destruct (takes_fields_run debug _ _ _ _ _ Hf G Ef (name_stack (contract_name_node c)) (mkContract (declared_name c) fps [] [])) as [_ E2].
    rewrite E2, (transitions_given _ _ _ Ht). reflexivity.
  Qed.
  Lemma run_none_left p ps fps pre d post xs av' fpre :
    Forall2 says_decl (contract_param_decls (C p)) ps -> denote_list ps = Some fps ->
    field_decls (C p) = pre ++ d :: post -> takes_decls (rev ps) pre xs av' -> denote_list xs = Some fpre ->
    lacks_type av' (typed_type d) -> emit_program debug p = EErr (missing debug None).
  Proof.
    intros Hp Ep Hd Hf Ef Hl. rewrite emit_steps. cbv zeta. set (c := C p) in *. unfold steps. destruct (after_params c ps fps Hp Ep) as [G E].
    rewrite E, Hd. unfold bind at 1. unfold bind_res at 1.
    destruct (takes_fields_run debug _ _ _ _ _ Hf G Ef (name_stack (contract_name_node c)) (mkContract (declared_name c) fps [] [])) as [G' E2].
    rewrite (each_app _ _ _ _ _ E2). cbn [each]. unfold bind at 1. unfold bind_res at 1. unfold step_field at 1.
    unfold bind at 1. unfold bind_res at 1. destruct (name_notype (contract_name_node c)) as (N1 & N2 & N3).
    destruct (lacks_decl debug av' d (name_stack (contract_name_node c)) (fields_added (mkContract (declared_name c) fps [] []) fpre) Hl G' N1 N2)
      as (o & st' & s' & Hs & -> & E3). rewrite E3. rewrite N3 in Hs. apply suffix_nil in Hs. subst st'. reflexivity.
  Qed.
  Lemma run_param p pre d post fpre :
    contract_param_decls (C p) = pre ++ d :: post -> Forall2 (given debug []) pre fpre ->
    lacks_type [] (typed_type d) -> emit_program debug p = EErr (missing debug None).
  Proof.
    intros Hp Hpre Hl. rewrite emit_steps. cbv zeta. set (c := C p) in *. unfold steps. rewrite Hp.
    unfold bind at 1. unfold bind_res at 1. rewrite (each_app _ _ _ _ _ (params_exact _ _ _ Hpre _)). cbn [each].
    unfold bind at 1. unfold bind_res at 1. unfold step_param at 1. unfold bind at 1. unfold bind_res at 1.
    destruct (name_notype (contract_name_node c)) as (N1 & N2 & N3).
    destruct (lacks_decl debug [] d (name_stack (contract_name_node c)) (param_done (es_contract (first_state c)) fpre) Hl (Forall_nil _) N1 N2)
      as (o & st' & s' & Hs & -> & E3). unfold stk in E3. cbn [map app] in E3. unfold first_state in *. cbn [es_stack es_contract] in *. rewrite E3.
    rewrite N3 in Hs. apply suffix_nil in Hs. subst st'. reflexivity.
  Qed.
  Lemma suffix_hd (st' st : list stack_object) : suffix st' st -> match hd_error st' with Some o => In o st | None => True end.
  Proof. intros [p ->]. destruct st' as [|o st']; [exact I|]. cbn. apply in_or_app. right. now left. Qed.
  Lemma notype_app a b : notype a -> notype b -> notype (a ++ b).
  Proof. intros Ha Hb. now apply Forall_app. Qed.
  Lemma run_transition p ps fps xs av' fs pre us n ds1 d ds2 f1 post :
    Forall2 says_decl (contract_param_decls (C p)) ps -> denote_list ps = Some fps ->
    takes_decls (rev ps) (field_decls (C p)) xs av' -> denote_list xs = Some fs ->
    transition_decls (C p) = pre ++ (n, ds1 ++ d :: ds2) :: post -> Forall2 (trans_given debug) pre us ->
    Forall2 (given debug []) ds1 f1 -> lacks_type [] (typed_type d) ->
    exists o, emit_program debug p = EErr (missing debug o) /\ match o with Some o => In o (map vd av' ++ name_stack (contract_name_node (C p))) | None => True end.
  Proof.
    intros Hp Ep Hf Ef Ht Hpre H1 Hl. rewrite emit_steps. cbv zeta. set (c := C p) in *. unfold steps. destruct (after_params c ps fps Hp Ep) as [G E].
    rewrite E. unfold bind at 1. unfold bind_res at 1.
    destruct (takes_fields_run debug _ _ _ _ _ Hf G Ef (name_stack (contract_name_node c)) (mkContract (declared_name c) fps [] [])) as [_ E2].
    rewrite E2, Ht. rewrite (each_app _ _ _ _ _ (transitions_given _ _ _ Hpre _)). cbn [each]. unfold bind at 1. unfold bind_res at 1.
    unfold step_transition at 1. unfold bind at 1. unfold bind_res at 1. cbn [push fst snd es_stack es_contract]. unfold bind at 1. unfold bind_res at 1.
    assert (D : forall s o s', decl debug d s = Ret (Err o) s' -> decls debug (ds1 ++ d :: ds2) s = Ret (Err o) s').
    { intros s o s' Es. clear -Es H1. induction H1 as [|e g ds1 f1 He _ IH]; cbn [app decls].
      - unfold bind, bind_res. rewrite Es. reflexivity.
      - unfold bind at 1. unfold bind_res at 1. rewrite He, leftover_nil. unfold bind at 1. unfold bind_res at 1. rewrite IH. reflexivity. }
    destruct (name_notype (contract_name_node c)) as (N1 & N2 & N3).
    assert (L : forall c', exists o st' s', suffix st' (map vd av' ++ name_stack (contract_name_node c)) /\ o = hd_error st' /\
      decl debug d (mkst (IrIdentifier (mkId n KComponentName) :: map vd av' ++ name_stack (contract_name_node c)) c') = Ret (Err (missing debug o)) s').
    { intro c'. apply (lacks_decl debug [] d (IrIdentifier (mkId n KComponentName) :: map vd av' ++ name_stack (contract_name_node c)) c' Hl (Forall_nil _)).
      - constructor; [exact I|]. apply notype_app; [|exact N1]. apply Forall_forall. intros y Hy. apply in_map_iff in Hy. destruct Hy as (z & <- & _). exact I.
      - exact I. }
    unfold stk. cbn [es_stack es_contract].
    match goal with |- context [decls debug _ (mkst _ ?c0)] => destruct (L c0) as (o & st' & s' & Hs & -> & E3) end.
    rewrite (D _ _ _ E3).
    exists (hd_error st'). split; [reflexivity|]. exact (suffix_hd _ _ Hs).
  Qed.
End Run.

Lemma takes_decls_sub av ds xs av' : takes_decls av ds xs av' -> forall nx, In nx av' -> In nx av.
Proof.
  assert (S : (forall av t x av', takes_type av t x av' -> forall nx, In nx av' -> In nx av) /\
    (forall av t x av', takes_arg av t x av' -> forall nx, In nx av' -> In nx av) /\
    (forall av l xs av', takes_args av l xs av' -> forall nx, In nx av' -> In nx av) /\
    (forall av t x av', takes_address av t x av' -> forall nx, In nx av' -> In nx av) /\
    (forall av l xs av', takes_fields av l xs av' -> forall nx, In nx av' -> In nx av)).
  { apply (takes_mind (fun av _ _ av' _ => forall nx, In nx av' -> In nx av) (fun av _ _ av' _ => forall nx, In nx av' -> In nx av)
      (fun av _ _ av' _ => forall nx, In nx av' -> In nx av) (fun av _ _ av' _ => forall nx, In nx av' -> In nx av)
      (fun av _ _ av' _ => forall nx, In nx av' -> In nx av)); auto. intros. right. auto. }
  induction 1 as [|av d x av1 ds xs av2 Hd _ IH]; auto. intros nx H. exact (proj1 S _ _ _ _ Hd _ (IH _ H)).
Qed.

(** ** Theorems *)

(** In the declarations of the contract's fields, each unnamed field of an
    address type takes up the last contract parameter not taken yet. *)
Theorem C56_parameters_taken : forall U debug text p ps fps xs left fs ts,
  parse_str U Program text = POk p ->
  Forall2 says_decl (contract_param_decls (contract_of p)) ps -> denote_fields ps fps ->
  takes_decls (rev ps) (field_decls (contract_of p)) xs left -> denote_fields xs fs ->
  Forall2 transition_says (transition_decls (contract_of p)) ts ->
  from_str U debug text = RValue (mkContract (declared_name (contract_of p)) fps fs ts).
Proof.
  intros U debug text p ps fps xs left fs ts Hp H1 D1 H2 D2 H3. apply denote_list_iff in D1. apply denote_list_iff in D2.
  rewrite (from_str_parsed _ _ _ _ Hp). unfold emit_api.
  rewrite (run_taken debug p ps fps xs left fs ts); auto using given_trans.
Qed.
(** If none is left, parsing fails. *)
Theorem C56_none_left : forall U debug text p ps fps pre d post xs left fpre,
  parse_str U Program text = POk p ->
  Forall2 says_decl (contract_param_decls (contract_of p)) ps -> denote_fields ps fps ->
  field_decls (contract_of p) = pre ++ d :: post -> takes_decls (rev ps) pre xs left -> denote_fields xs fpre ->
  lacks_type left (typed_type d) ->
  from_str U debug text = RError (ParseErrorEmit (lit "Expected type definition, but found nothing.")).
Proof.
  intros U debug text p ps fps pre d post xs left fpre Hp H1 D1 Hd H2 D2 Hl. apply denote_list_iff in D1. apply denote_list_iff in D2.
  rewrite (from_str_parsed _ _ _ _ Hp). unfold emit_api.
  rewrite (run_none_left debug p ps fps pre d post xs left fpre); auto.
Qed.
(** In a contract parameter there is never one. *)
Theorem C56_contract_parameter : forall U debug text p pre d post fpre,
  parse_str U Program text = POk p ->
  contract_param_decls (contract_of p) = pre ++ d :: post -> Forall2 says_as pre fpre -> lacks_type [] (typed_type d) ->
  from_str U debug text = RError (ParseErrorEmit (lit "Expected type definition, but found nothing.")).
Proof.
  intros U debug text p pre d post fpre Hp Hd H1 Hl. rewrite (from_str_parsed _ _ _ _ Hp). unfold emit_api.
  rewrite (run_param debug p pre d post fpre); auto using given_all.
Qed.
(** Nor in a parameter of a transition, where the message may name a contract
    parameter or the contract. *)
Theorem C56_transition_parameter : forall U debug text p ps fps xs left fs pre us n ds1 d ds2 f1 post,
  parse_str U Program text = POk p ->
  Forall2 says_decl (contract_param_decls (contract_of p)) ps -> denote_fields ps fps ->
  takes_decls (rev ps) (field_decls (contract_of p)) xs left -> denote_fields xs fs ->
  transition_decls (contract_of p) = pre ++ (n, ds1 ++ d :: ds2) :: post -> Forall2 transition_says pre us ->
  Forall2 says_as ds1 f1 -> lacks_type [] (typed_type d) ->
  exists found, from_str U debug text = RError (ParseErrorEmit (lit "Expected type definition, but found " ++ found ++ lit "."))
    /\ (found = lit "nothing" \/ (exists f, In f fps /\ found = debug (VariableDeclaration f))
        \/ (exists cn, plain_name (contract_name_node (contract_of p)) cn /\ found = debug (IrIdentifier (mkId cn KUnknown)))).
Proof.
  intros U debug text p ps fps xs left fs pre us n ds1 d ds2 f1 post Hp H1 D1 H2 D2 Ht Hpre Hds Hl. apply denote_list_iff in D1. apply denote_list_iff in D2.
  rewrite (from_str_parsed _ _ _ _ Hp). unfold emit_api.
  destruct (run_transition debug p ps fps xs left fs pre us n ds1 d ds2 f1 post) as (o & E & Ho); auto using given_all, given_trans.
  rewrite E. unfold missing. destruct o as [o|].
  - exists (debug o). split; [reflexivity|]. right. apply in_app_or in Ho. destruct Ho as [Ho|Ho].
    + left. apply in_map_iff in Ho. destruct Ho as (nx & <- & Hin). apply (takes_decls_sub _ _ _ _ H2), in_rev in Hin.
      assert (Hv : In (vd nx) (map vd ps)) by (now apply in_map). rewrite (proj1 (vd_fields _ _ D1)) in Hv. apply in_map_iff in Hv.
      destruct Hv as (f & Ef & Hf). exists f. split; [exact Hf|]. now rewrite Ef.
    + right. change (match p with mkProgram _ _ _ c => node c end) with (contract_of p) in Ho.
      destruct (contract_name_node (contract_of p)) as [[s|s]| |s]; cbn in Ho; try contradiction; destruct Ho as [<-|[]]; eexists; (split; [constructor|reflexivity]).
  - exists (lit "nothing"). split; [reflexivity|]. now left.
Qed.

(** ** Witnesses *)

Definition tsrc := lit "scilla_version 0 contract C (a : Int32, b : String, c : Bool) field f : ByStr20 with contract field x : Bool, field _y : Uint128, field z : List (ByStr20 with contract field L.w : Int64 end) end = e field g : Int64 = e transition T (q : Int32) end".
Ltac tdecl x := split; [reflexivity|]; exists x; split; [vm_compute; says|apply denote_iff; vm_compute; reflexivity].
Lemma tc_cons' av d n x av1 ds xs av2 : typed_name d = n -> takes_type av (typed_type d) x av1 -> takes_decls av1 ds xs av2 ->
  takes_decls av (d :: ds) ((n, x) :: xs) av2.
Proof. intros <-. apply tc_cons. Qed.
Lemma tf_named' av f i n m t x av1 l xs av2 : node f = mkAddressTypeField i t -> node i = VariableName n -> node n = m ->
    takes_type av (node t) x av1 -> takes_fields av1 l xs av2 ->
    takes_fields av (f :: l) ((m, x) :: xs) av2.
Proof. intros H1 H2 <-. now apply (tf_named _ _ i). Qed.
Lemma tt_generic' av m n n' args xs av' : plain_head (node m) n -> n = n' -> takes_args av args xs av' ->
    takes_type av (GenericTypeWithArgs m args) (TName n' xs) av'.
Proof. intros H <-. now apply tt_generic. Qed.
Lemma td_address' av i n n' tn k fs xs av' : plain_name (node i) n -> n = n' -> node tn = k -> takes_fields av fs xs av' ->
    takes_address av (mkAddressType i tn fs) (TAddr n' k xs) av'.
Proof. intros H <- <-. now apply td_address. Qed.
Ltac open_decls := match goal with |- takes_decls _ ?l _ _ => let l' := eval vm_compute in l in change l with l' end.

Definition inner : texp := TAddr (lit "ByStr20") (lit "contract") [(lit "b", N0 "String")].
Definition taken : texp := TAddr (lit "ByStr20") (lit "contract") [(lit "x", N0 "Bool"); (lit "c", N0 "Bool"); (lit "z", TName (lit "List") [inner])].

Example C56_witness : exists p, parse_str U_none Program tsrc = POk p
  /\ Forall2 says_decl (contract_param_decls (contract_of p)) [(lit "a", N0 "Int32"); (lit "b", N0 "String"); (lit "c", N0 "Bool")]
  /\ takes_decls [(lit "c", N0 "Bool"); (lit "b", N0 "String"); (lit "a", N0 "Int32")] (field_decls (contract_of p))
       [(lit "f", taken); (lit "g", N0 "Int64")] [(lit "a", N0 "Int32")]
  /\ Forall2 transition_says (transition_decls (contract_of p)) [mkTransition (lit "T") [mkField (lit "q") Int32]]
  /\ from_str U_none no_debug tsrc = RValue (mkContract (lit "C") [mkField (lit "a") Int32; mkField (lit "b") TyString; mkField (lit "c") TyBool]
       [mkField (lit "f") (ByStr20With (lit "contract") [mkField (lit "x") TyBool; mkField (lit "c") TyBool;
          mkField (lit "z") (TyList (ByStr20With (lit "contract") [mkField (lit "b") TyString]))]); mkField (lit "g") Int64]
       [mkTransition (lit "T") [mkField (lit "q") Int32]]).
Proof.
  eexists. split; [vm_compute; reflexivity|]. split; [|split; [|split]].
  - repeat (constructor; [split; [reflexivity|vm_compute; says]|]). constructor.
  - open_decls. eapply tc_cons'; [reflexivity| |eapply tc_cons'; [reflexivity| |constructor]].
    + cbn [typed_type node]. eapply tt_address. eapply td_address'; [constructor|reflexivity|reflexivity|].
      eapply tf_named'; [reflexivity|reflexivity|reflexivity|eapply tt_says; vm_compute; says|].
      eapply tf_unnamed; [reflexivity|intros ? H; discriminate H|].
      eapply tf_named'; [reflexivity|reflexivity|reflexivity| |constructor].
      eapply tt_generic'; [eapply ph_name; constructor|reflexivity|]. eapply tas_cons; [|constructor].
      eapply ta_enclosed. eapply tt_address. eapply td_address'; [constructor|reflexivity|reflexivity|].
      eapply tf_unnamed; [reflexivity|intros ? H; discriminate H|constructor].
    + eapply tt_says; vm_compute; says.
  - constructor; [|constructor]. split; [reflexivity|]. constructor; [|constructor]. tdecl (N0 "Int32").
  - vm_compute. reflexivity.
Qed.

Definition nsrc2 := lit "scilla_version 0 contract C (a : Int32, b : Bool) field f : ByStr20 with contract field _x : Bool end = e field g : ByStr20 with contract field x : Bool, field _y : Bool, field _z : Bool end = e".
Example C56_witness_none_left : exists p pre d, parse_str U_none Program nsrc2 = POk p
  /\ Forall2 says_decl (contract_param_decls (contract_of p)) [(lit "a", N0 "Int32"); (lit "b", N0 "Bool")]
  /\ field_decls (contract_of p) = pre ++ [d]
  /\ takes_decls [(lit "b", N0 "Bool"); (lit "a", N0 "Int32")] pre [(lit "f", TAddr (lit "ByStr20") (lit "contract") [(lit "b", N0 "Bool")])] [(lit "a", N0 "Int32")]
  /\ lacks_type [(lit "a", N0 "Int32")] (typed_type d)
  /\ from_str U_none no_debug nsrc2 = RError (ParseErrorEmit (lit "Expected type definition, but found nothing.")).
Proof.
  eexists. eexists [_], _. split; [vm_compute; reflexivity|]. split; [|split; [vm_compute; reflexivity|split; [|split]]].
  - repeat (constructor; [split; [reflexivity|vm_compute; says]|]). constructor.
  - eapply tc_cons'; [reflexivity| |constructor]. cbn [typed_type node]. eapply tt_address. eapply td_address'; [constructor|reflexivity|reflexivity|].
    eapply tf_unnamed; [reflexivity|intros ? H; discriminate H|constructor].
  - cbn [typed_type node]. eapply lt_address. cbn [node]. eapply ld_address; [constructor|].
    eapply lf_later_named; [reflexivity|reflexivity|eapply (tt_says _ _ (N0 "Bool")); vm_compute; says|apply denote_iff; vm_compute; reflexivity|].
    eapply lf_later_unnamed; [reflexivity|intros ? H; discriminate H|]. eapply lf_none; [reflexivity|intros ? H; discriminate H].
  - vm_compute. reflexivity.
Qed.
Definition psrc2 := lit "scilla_version 0 contract C (a : Int32, b : List (ByStr20 with contract field _x : Bool end))".
Example C56_witness_contract_parameter : exists p pre d, parse_str U_none Program psrc2 = POk p
  /\ contract_param_decls (contract_of p) = pre ++ [d] /\ Forall2 says_as pre [mkField (lit "a") Int32] /\ lacks_type [] (typed_type d)
  /\ from_str U_none no_debug psrc2 = RError (ParseErrorEmit (lit "Expected type definition, but found nothing.")).
Proof.
  eexists. eexists [_], _. split; [vm_compute; reflexivity|]. split; [vm_compute; reflexivity|split; [|split]].
  - constructor; [|constructor]. tdecl (N0 "Int32").
  - cbn [typed_type node]. eapply lt_generic; [eapply ph_name; constructor|]. eapply las_here. cbn [node]. eapply lr_enclosed. cbn [node].
    eapply lt_address. cbn [node]. eapply ld_address; [constructor|]. eapply lf_none; [reflexivity|intros ? H; discriminate H].
  - vm_compute. reflexivity.
Qed.
Definition rsrc2 := lit "scilla_version 0 contract C (a : Int32) transition S (r : Bool) end transition T (u : Bool, v : ByStr20 with contract field _x : Bool end, w : Int32) end".
Example C56_witness_transition_parameter : exists p pre n ds1 d ds2, parse_str U_none Program rsrc2 = POk p
  /\ Forall2 says_decl (contract_param_decls (contract_of p)) [(lit "a", N0 "Int32")] /\ field_decls (contract_of p) = []
  /\ transition_decls (contract_of p) = pre ++ [(n, ds1 ++ d :: ds2)] /\ Forall2 transition_says pre [mkTransition (lit "S") [mkField (lit "r") TyBool]]
  /\ Forall2 says_as ds1 [mkField (lit "u") TyBool] /\ lacks_type [] (typed_type d)
  /\ from_str U_none no_debug rsrc2 = RError (ParseErrorEmit (lit "Expected type definition, but found " ++ no_debug (VariableDeclaration (mkField (lit "a") Int32)) ++ lit ".")).
Proof.
  eexists. eexists [_], _, [_], _, [_]. split; [vm_compute; reflexivity|]. split; [|split; [reflexivity|split; [vm_compute; reflexivity|split; [|split; [|split]]]]].
  - repeat (constructor; [split; [reflexivity|vm_compute; says]|]). constructor.
  - constructor; [|constructor]. split; [reflexivity|]. constructor; [|constructor]. tdecl (N0 "Bool").
  - constructor; [|constructor]. tdecl (N0 "Bool").
  - cbn [typed_type node]. eapply lt_address. cbn [node]. eapply ld_address; [constructor|]. eapply lf_none; [reflexivity|intros ? H; discriminate H].
  - vm_compute. reflexivity.
Qed.
