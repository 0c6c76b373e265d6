(** The emitter does what the machine of Machine.v does. *)
From Verif Require Import Chars Lexer Ast Types Visitor Emitter EmitSpec TypeFacts EmitTypes EmitProgram EmitInv EmitSig EmitSteps Machine.
Local Open Scope nat_scope.

Definition st (s : sr_state) : state := (es_stack s, es_contract s).
Definition agree {A} (o : out) (m : outcome sr_state A) : Prop :=
  match m with
  | Ret (Ok _) s => o = Done (st s)
  | Ret (Err e) s => o = Fail e (st s)
  | Panic => o = Abort
  | Fuel => False
  end.

Section Facts.
  Context (debug : stack_object -> str).
  Notation E := (sr_emitter debug).
  Notation vis := (visit E).
  Notation ex := (exec debug).
  Notation exs := (execs debug).

  Lemma execs_app a b s : exs (a ++ b) s = andthen (exs a s) (exs b).
  Proof.
    revert s. induction a as [|c a IH]; intro s; [reflexivity|]. cbn [app execs]. destruct (ex c s); cbn [andthen]; auto.
  Qed.
  Lemma execs_one c s : exs [c] s = ex c s.
  Proof. cbn [execs]. destruct (ex c s); reflexivity. Qed.

  (** ** Sequencing *)
  Lemma agree_bind {A B} o (m : EM A) (k : A -> EM B) j s : agree o (m s) ->
    (forall a s', m s = Ret (Ok a) s' -> agree (j (st s')) (k a s')) -> agree (andthen o j) (bind m k s).
  Proof.
    unfold bind, bind_res. destruct (m s) as [[a|e] s'| |]; cbn [agree]; intros H Hk; try contradiction; subst; cbn [andthen]; auto. reflexivity.
  Qed.
  Lemma agree_seq {A B} a b (m : EM A) (k : A -> EM B) s : agree (exs a (st s)) (m s) ->
    (forall x s', agree (exs b (st s')) (k x s')) -> agree (exs (a ++ b) (st s)) (bind m k s).
  Proof. intros H Hk. rewrite execs_app. apply agree_bind; auto. Qed.
  Lemma agree_ret {A B} o (m : EM A) (b : B) s : agree o (m s) -> agree o ((m ;;; ret b) s).
  Proof. unfold bind, bind_res. destruct (m s) as [[a|e] s'| |]; cbn; auto. Qed.
  Lemma agree_w {A} v (inj : A -> anynode) (w : wm A) o s : agree o (v (inj (node w)) s) -> agree o (wvisit v inj w s).
  Proof. rewrite wvisit_eq. auto. Qed.
  Lemma agree_skip (e : mode -> EM tr) ch (m : EM unit) o s :
    e Enter s = (m ;;; ret SkipChildren) s -> agree o (m s) -> agree o (standard e ch s).
  Proof. intros H Ha. rewrite (standard_unit e ch m s H). destruct (m s) as [[a|msg] s'| |]; exact Ha. Qed.

  (** ** Taking *)
  Lemma agree_type {A} (k : sr_type -> state -> out) (m : sr_type -> EM A) s :
    (forall t s', agree (k t (st s')) (m t s')) -> agree (take_type debug k (st s)) (bind (pop_type_definition debug) m s).
  Proof.
    intro H. unfold take_type, take, bind, bind_res, pop_type_definition, st. destruct s as [[|[i|d|t] r] c]; cbn; try reflexivity. apply (H t (mkst r c)).
  Qed.
  Lemma agree_name {A} (k : sr_identifier -> state -> out) (m : sr_identifier -> EM A) s :
    (forall t s', agree (k t (st s')) (m t s')) -> agree (take_name debug k (st s)) (bind (pop_ir_identifier debug) m s).
  Proof.
    intro H. unfold take_name, take, bind, bind_res, pop_ir_identifier, st. destruct s as [[|[i|d|t] r] c]; cbn; try reflexivity. apply (H i (mkst r c)).
  Qed.
  Lemma agree_decl {A} (k : field -> state -> out) (m : field -> EM A) s :
    (forall t s', agree (k t (st s')) (m t s')) -> agree (take_decl debug k (st s)) (bind (pop_variable_declaration debug) m s).
  Proof.
    intro H. unfold take_decl, take, bind, bind_res, pop_variable_declaration, st. destruct s as [[|[i|d|t] r] c]; cbn; try reflexivity. apply (H d (mkst r c)).
  Qed.
  Lemma agree_put o s : agree (put o (st s)) (push o s).
  Proof. reflexivity. Qed.
  Lemma agree_to_type s : agree (exs [ToType] (st s)) (ident_to_type debug s).
  Proof. rewrite execs_one. cbn [exec]. apply agree_name. intros [n k] s'. apply agree_put. Qed.
  Lemma agree_to_map s : agree (exs [ToMap] (st s)) (pops_to_map debug s).
  Proof. rewrite execs_one. cbn [exec]. apply agree_type. intros v s'. apply agree_type. intros k s''. apply agree_put. Qed.

  (** ** Names *)
  Lemma agree_tni f n s : 2 <= f -> agree (exs (code_name n) (st s)) (vis f (ATypeNameIdentifier n) s).
  Proof. intro Hf. rewrite contract_name_out by exact Hf. destruct n as [[b|b]| |t]; reflexivity. Qed.
  Lemma agree_meta f m s : 3 <= f -> agree (exs (code_meta m) (st s)) (vis f (AMetaIdentifier m) s).
  Proof.
    intro Hf. destruct f as [|f]; [lia|]. rewrite visit_S. unfold visit_node, standard. destruct m as [n|ns n|h n|]; cbn [emit sr_emitter sr_emit children code_meta].
    - unfold bind_res at 1. cbn [ret]. unfold kid_of, bind, bind_res, ret. rewrite visit_wm_eq, contract_name_out by lia. cbn. destruct (node n) as [[b|b]| |t]; reflexivity.
    - unfold bind_res at 1. cbn [ret]. unfold kid_of, bind, bind_res, ret. rewrite visit_wm_eq, contract_name_out by lia. cbn.
      rewrite visit_wm_eq, contract_name_out by lia. cbn. destruct (node ns) as [[b|b]| |t], (node n) as [[b'|b']| |t']; reflexivity.
    - unfold bind_res at 1. cbn [ret]. unfold kid_of, bind, bind_res, ret. rewrite visit_wm_eq, contract_name_out by lia. cbn. destruct (node n) as [[b|b]| |t]; reflexivity.
    - reflexivity.
  Qed.
  Lemma agree_head f (m : wm NodeMetaIdentifier) s : 3 <= f ->
    agree (exs (code_meta (node m) ++ [ToType]) (st s)) ((wvisit (vis f) AMetaIdentifier m ;;; ident_to_type debug) s).
  Proof. intro Hf. apply agree_seq; [apply agree_w, agree_meta, Hf|]. intros _ s'. apply agree_to_type. Qed.

  (** ** Arguments *)
  Definition each_arg (m : str) (a : option address_type) :=
    fix each (l : list (list cmd)) (subs : list sr_type) (s : state) {struct l} : out :=
    match l with
    | [] => put (SoTypeDefinition (mkSr m subs a)) s
    | b :: r => andthen (exs b s) (take_type debug (fun t => each r (subs ++ [t])))
    end.
  Lemma each_arg_cons m a b r subs s : each_arg m a (b :: r) subs s = andthen (exs b s) (take_type debug (fun t => each_arg m a r (subs ++ [t]))).
  Proof. reflexivity. Qed.
  Lemma args_eq l s : ex (Args l) s = take_type debug (fun '(mkSr m subs a) => each_arg m a l subs) s.
  Proof. reflexivity. Qed.
  Definition each_field (m : str) (subs : list sr_type) (tn : str) :=
    fix each (l : list (list cmd)) (fs : list field) (s : state) {struct l} : out :=
    match l with
    | [] => put (SoTypeDefinition (mkSr m subs (Some (mkAddr tn fs)))) s
    | b :: r => andthen (exs b s) (take_decl debug (fun f => each r (fs ++ [f])))
    end.
  Lemma each_field_cons m subs tn b r fs s : each_field m subs tn (b :: r) fs s = andthen (exs b s) (take_decl debug (fun f => each_field m subs tn r (fs ++ [f]))).
  Proof. reflexivity. Qed.
  Lemma record_eq tn l s : ex (Record tn l) s = take_type debug (fun '(mkSr m subs _) => each_field m subs tn l []) s.
  Proof. reflexivity. Qed.
  Fixpoint each_param (l : list (list cmd)) (fs : list field) (s : state) : out :=
    match l with
    | [] => take_name debug (fun i '(st, c) =>
              match kind i with
              | KComponentName => Done (st, mkContract (c_name c) (c_init_params c) (c_fields c) (c_transitions c ++ [mkTransition (unresolved i) fs]))
              | _ => Abort
              end) s
    | b :: r => andthen (exs b s) (take_decl debug (fun f => each_param r (fs ++ [f])))
    end.
  Lemma transition_eq l s : ex (AddTransition l) s = each_param l [] s.
  Proof. reflexivity. Qed.
  Lemma attempt_eq b s : ex (Attempt b) s = match exs b s with Fail _ s' => Done s' | x => x end.
  Proof. reflexivity. Qed.

  Lemma agree_args f {A} (inj : A -> anynode) (code : A -> list cmd) (l : list (wm A)) m subs a s :
    (forall x, In x l -> forall s, agree (exs (code (node x)) (st s)) (vis f (inj (node x)) s)) ->
    agree (each_arg m a (map (fun x => code (node x)) l) subs (st s))
      ((main <- collect_sub_types debug (vis f) inj l (mkSr m subs a) ;; push (SoTypeDefinition main)) s).
  Proof.
    revert subs s. induction l as [|x l IH]; intros subs s H; [reflexivity|]. cbn [map collect_sub_types]. rewrite each_arg_cons.
    rewrite bind_assoc. apply agree_bind; [apply agree_w, H; left; reflexivity|]. intros _ s' _.
    rewrite bind_assoc. apply agree_type. intros t s''. cbn [push_sub_type]. apply IH. intros y Hy. apply H. right. exact Hy.
  Qed.
  Lemma agree_generic f {A} (inj : A -> anynode) (code : A -> list cmd) (l : list (wm A)) lead s : 3 <= f ->
    (forall x, In x l -> forall s, agree (exs (code (node x)) (st s)) (vis f (inj (node x)) s)) ->
    agree (exs (with_args (code_meta (node lead)) (map (fun x => code (node x)) l)) (st s)) (generic_type debug (vis f) inj lead l s).
  Proof.
    intros Hf H. unfold generic_type, with_args. apply agree_seq; [apply agree_w, agree_meta, Hf|]. intros _ s1.
    apply agree_seq; [apply agree_to_type|]. intros _ s2. destruct l as [|x l]; [reflexivity|]. cbn [map]. rewrite execs_one.
    change ([code (node x)] ++ map (fun y => code (node y)) l) with (map (fun y => code (node y)) (x :: l)).
    rewrite args_eq. apply agree_type. intros [m subs a] s3. exact (agree_args f inj code (x :: l) m subs a s3 H).
  Qed.
  Lemma agree_fields f (l : list (wm NodeAddressTypeField)) m subs tn acc s :
    (forall x, In x l -> forall s, agree (exs (code_afield (node x)) (st s)) (vis f (AAddressTypeField (node x)) s)) ->
    agree (each_field m subs tn (map (fun x => code_afield (node x)) l) acc (st s))
      ((fs <- collect_address_fields debug (vis f) l ;; push (SoTypeDefinition (mkSr m subs (Some (mkAddr tn (acc ++ fs)))))) s).
  Proof.
    revert acc s. induction l as [|x l IH]; intros acc s H; [cbn; rewrite app_nil_r; reflexivity|]. cbn [map collect_address_fields]. rewrite each_field_cons.
    rewrite bind_assoc. apply agree_bind; [apply agree_w, H; left; reflexivity|]. intros _ s' _.
    rewrite bind_assoc. apply agree_decl. intros d s''. rewrite bind_assoc.
    assert (IH' := IH (acc ++ [d]) s'' (fun y Hy => H y (or_intror Hy))). revert IH'. unfold bind, bind_res, ret.
    destruct (collect_address_fields debug (vis f) l s'') as [[fs|e] s3| |]; auto. rewrite <- app_assoc. exact id.
  Qed.

  (** ** Types *)
  Lemma agree_declare n s : agree (exs [Declare n] (st s)) ((t <- pop_type_definition debug ;; f <- field_of n t ;; push (VariableDeclaration f)) s).
  Proof.
    rewrite execs_one. cbn [exec]. apply agree_type. intros t s'. unfold field_of, bind, bind_res, ret, panic. destruct (type_from t); reflexivity.
  Qed.
  Definition codes_at (f : nat) : Prop :=
    (forall t, depth_type t <= f -> forall s, agree (exs (code_type t) (st s)) (vis f (AScillaType t) s)) /\
    (forall t, depth_key t <= f -> forall s, agree (exs (code_key t) (st s)) (vis f (ATypeMapKey t) s)) /\
    (forall t, depth_value t <= f -> forall s, agree (exs (code_value t) (st s)) (vis f (ATypeMapValue t) s)) /\
    (forall t, depth_arg t <= f -> forall s, agree (exs (code_arg t) (st s)) (vis f (ATypeArgument t) s)) /\
    (forall t, depth_entry t <= f -> forall s, agree (exs (code_entry t) (st s)) (vis f (ATypeMapEntry t) s)) /\
    (forall t, depth_afield t <= f -> forall s, agree (exs (code_afield t) (st s)) (vis f (AAddressTypeField t) s)) /\
    (forall t, depth_addr t <= f -> forall s, agree (exs (code_addr t) (st s)) (vis f (AAddressType t) s)) /\
    (forall t, depth_tvarg t <= f -> forall s, agree (exs (code_tvarg t) (st s)) (vis f (ATypeMapValueArguments t) s)) /\
    (forall t, depth_tva t <= f -> forall s, agree (exs (code_tva t) (st s)) (vis f (ATypeMapValueAllowingTypeArguments t) s)).

  Lemma list_in {A} (g : A -> nat) (l : list (wm A)) f : list_max (map (fun a => g (node a)) l) <= f -> forall x, In x l -> g (node x) <= f.
  Proof. intros H x Hx. pose proof (list_max_in (fun a => g (node a)) l x Hx). lia. Qed.

  Lemma codes_all f : codes_at f.
  Proof.
    induction f as [|f IH].
    { repeat split; intros [] H; cbn in H; lia. }
    destruct IH as (IHt & IHk & IHv & IHa & IHe & IHf & IHd & IHg & IHw).
    assert (Hmap : forall k x s, depth_key (node k) <= f -> depth_value (node x) <= f ->
      agree (exs (code_key (node k) ++ code_value (node x) ++ [ToMap]) (st s))
        ((wvisit (vis f) ATypeMapKey k ;;; wvisit (vis f) ATypeMapValue x ;;; pops_to_map debug) s)).
    { intros k x s Hk Hx. apply agree_seq; [apply agree_w, IHk, Hk|]. intros _ s1. apply agree_seq; [apply agree_w, IHv, Hx|].
      intros _ s2. apply agree_to_map. }
    repeat split; intros t Hd s; rewrite visit_S; unfold visit_node.
    - (* type *)
      eapply agree_skip; [cbn [emit sr_emitter sr_emit]; reflexivity|]. destruct t; cbn [depth_type code_type] in *.
      all: first [reflexivity | apply agree_ret, agree_w, IHt; lia | apply agree_ret, agree_w, IHd; lia | apply Hmap; lia |
        apply agree_generic; [lia|]; intros x Hx; apply IHa; apply (list_in depth_arg args); [lia|exact Hx]].
    - (* key *)
      eapply agree_skip.
      { cbn [emit sr_emitter sr_emit]. rewrite <- bind_assoc. reflexivity. }
      destruct t; cbn [depth_key code_key] in *.
      1,2: apply agree_head; lia.
      all: apply agree_seq; [apply agree_w, IHd; lia|]; intros _ s1; apply agree_to_type.
    - (* value *)
      eapply agree_skip; [cbn [emit sr_emitter sr_emit]; reflexivity|]. destruct t; cbn [depth_value code_value] in *.
      + apply agree_head. lia.
      + apply agree_seq; [apply agree_w, IHe; lia|]. intros _ s1. apply agree_to_map.
      + apply agree_ret, agree_w, IHw. lia.
      + apply agree_ret, agree_w, IHd. lia.
    - (* argument *)
      eapply agree_skip; [cbn [emit sr_emitter sr_emit]; reflexivity|]. destruct t; cbn [depth_arg code_arg] in *.
      + apply agree_ret, agree_w, IHt. lia.
      + apply agree_head. lia.
      + reflexivity.
      + apply agree_ret, agree_w, IHd. lia.
      + apply Hmap; lia.
    - (* entry *)
      destruct t as [k x]. cbn [depth_entry code_entry] in *. unfold standard. unfold bind_res at 1. cbn [emit sr_emitter sr_emit ret children].
      unfold bind at 1. unfold bind_res at 1.
      assert (Hkv : agree (exs (code_key (node k) ++ code_value (node x)) (st s)) ((visit_wm E (vis f) ATypeMapKey k ;;; kid_of (visit_wm E (vis f) ATypeMapValue x)) s)).
      { apply agree_seq; [rewrite visit_wm_eq; apply IHk; lia|]. intros _ s1. assert (Hv : agree (exs (code_value (node x)) (st s1)) (visit_wm E (vis f) ATypeMapValue x s1)) by (rewrite visit_wm_eq; apply IHv; lia).
        revert Hv. unfold kid_of, bind, bind_res, ret. destruct (visit_wm E (vis f) ATypeMapValue x s1) as [[a|e] s2| |]; exact id. }
      destruct ((visit_wm E (vis f) ATypeMapKey k ;;; kid_of (visit_wm E (vis f) ATypeMapValue x)) s) as [[[[]|]|e] s1| |]; exact Hkv.
    - (* field of an address type *)
      destruct t as [i ty]. cbn [depth_afield code_afield] in *. eapply agree_skip; [cbn [emit sr_emitter sr_emit]; reflexivity|].
      destruct (node i) as [n|n|ns n]; try reflexivity. apply agree_seq; [apply agree_w, IHt; lia|]. intros _ s1. apply agree_declare.
    - (* address type *)
      destruct t as [i tn fs]. cbn [depth_addr code_addr] in *. rewrite execs_one, attempt_eq.
      assert (Hb : agree (exs (code_name (node i) ++ [ToType; Record (node tn) (map (fun f => code_afield (node f)) fs)]) (st s))
        (emit E (vis f) Enter (AAddressType (mkAddressType i tn fs)) s)).
      { cbn [emit sr_emitter sr_emit]. apply agree_ret. apply agree_seq; [apply agree_w, agree_tni; lia|]. intros _ s1.
        change [ToType; Record (node tn) (map (fun f => code_afield (node f)) fs)] with ([ToType] ++ [Record (node tn) (map (fun f => code_afield (node f)) fs)]).
        apply agree_seq; [apply agree_to_type|]. intros _ s2. rewrite execs_one, record_eq. apply agree_type. intros [m subs a] s3.
        apply (agree_fields f fs m subs (node tn) [] s3). intros x Hx. apply IHf. apply (list_in depth_afield fs); [lia|exact Hx]. }
      unfold bind_res at 1.
      assert (Hskip : forall s t s', emit E (vis f) Enter (AAddressType (mkAddressType i tn fs)) s = Ret (Ok t) s' -> t = SkipChildren).
      { intros s0 t0 s'. cbn [emit sr_emitter sr_emit]. apply skip_ends. }
      destruct (emit E (vis f) Enter (AAddressType (mkAddressType i tn fs)) s) as [[t|e] s1| |] eqn:Ee; cbn [agree] in Hb; try contradiction; rewrite Hb.
      + rewrite (Hskip _ _ _ Ee). reflexivity.
      + reflexivity.
      + reflexivity.
    - (* argument of a map value *)
      eapply agree_skip; [cbn [emit sr_emitter sr_emit]; reflexivity|]. destruct t; cbn [depth_tvarg code_tvarg] in *.
      + apply agree_ret, agree_w, IHw. lia.
      + apply agree_head. lia.
      + reflexivity.
    - (* parenthesised map value *)
      eapply agree_skip; [cbn [emit sr_emitter sr_emit]; reflexivity|]. destruct t; cbn [depth_tva code_tva] in *.
      + apply agree_ret, agree_w, IHv. lia.
      + apply agree_generic; [lia|]. intros x Hx. apply IHg. apply (list_in depth_tvarg args); [lia|exact Hx].
  Qed.

  (** ** Declarations *)
  Lemma agree_visit t s : agree (exs (code_type t) (st s)) (visit_ty debug t s).
  Proof. unfold visit_ty. apply codes_all. lia. Qed.
  Lemma agree_code_decl {A} d (k : field -> EM A) rest s :
    (forall fl s', agree (exs rest (VariableDeclaration fl :: es_stack s', es_contract s')) (k fl s')) ->
    agree (exs (code_decl d ++ rest) (st s)) ((fl <- decl debug d ;; k fl) s).
  Proof.
    intro H. unfold code_decl, decl. rewrite <- app_assoc. rewrite bind_assoc. apply agree_seq; [apply agree_visit|]. intros _ s1.
    rewrite bind_assoc. cbn [app execs]. cbn [exec].
    unfold take_type, take, bind, bind_res, pop_type_definition, st. destruct s1 as [[|[i|x|t] r] c]; cbn; try reflexivity.
    unfold field_of. destruct (type_from t) as [ty|]; [|reflexivity]. exact (H (mkField (typed_name d) ty) (mkst r c)).
  Qed.
  Lemma agree_each {A} (code : A -> list cmd) (k : A -> EM unit) (l : list A) s :
    (forall a s, agree (exs (code a) (st s)) (k a s)) -> agree (exs (flat_map code l) (st s)) (each k l s).
  Proof.
    intro H. revert s. induction l as [|a l IH]; intro s; [reflexivity|]. cbn [flat_map each]. apply agree_seq; [apply H|]. intros _ s'. apply IH.
  Qed.
  Lemma agree_param d s : agree (exs (code_decl d ++ [AddParam]) (st s)) (step_param debug d s).
  Proof. apply agree_code_decl. intros fl s'. reflexivity. Qed.
  Lemma agree_again d s : agree (exs (code_decl d) (st s)) (step_again debug d s).
  Proof. rewrite <- (app_nil_r (code_decl d)). apply agree_code_decl. intros fl s'. reflexivity. Qed.
  Lemma agree_field d s : agree (exs (code_decl d ++ [AddField]) (st s)) (step_field debug d s).
  Proof. apply agree_code_decl. intros fl s'. reflexivity. Qed.
  Lemma agree_params ds acc (k : list field -> EM unit) s :
    (forall fs s', agree (each_param [] (acc ++ fs) (st s')) (k fs s')) ->
    agree (each_param (map code_decl ds) acc (st s)) ((fs <- decls debug ds ;; k fs) s).
  Proof.
    revert acc k s. induction ds as [|d ds IH]; intros acc k s H.
    - specialize (H [] s). rewrite app_nil_r in H. exact H.
    - cbn [map each_param decls]. rewrite bind_assoc.
      pose proof (agree_code_decl d (fun fl => bind (decls debug ds) (fun fs => k (fl :: fs))) [] s) as _.
      assert (G : forall s1, agree (exs (code_decl d) (st s1)) ((fl <- decl debug d ;; push (VariableDeclaration fl)) s1)).
      { intro s1. rewrite <- (app_nil_r (code_decl d)). apply agree_code_decl. intros fl s'. reflexivity. }
      specialize (G s). revert G. unfold bind at 1. unfold bind_res at 1. unfold bind at 1. unfold bind_res at 1.
      destruct (decl debug d s) as [[fl|e] s1| |]; cbn [agree push raise]; intro G; try contradiction; rewrite G; try reflexivity.
      cbn [andthen]. unfold take_decl, take, st. cbn [fst snd es_stack es_contract].
      rewrite bind_assoc. apply (IH (acc ++ [fl])). intros fs s'. rewrite <- app_assoc. apply H.
  Qed.
  Lemma agree_transition t s :
    agree (exs [Name (fst t) KComponentName; AddTransition (map code_decl (snd t))] (st s)) (step_transition debug t s).
  Proof.
    unfold step_transition. change [Name (fst t) KComponentName; AddTransition (map code_decl (snd t))] with
      ([Name (fst t) KComponentName] ++ [AddTransition (map code_decl (snd t))]).
    apply agree_seq; [reflexivity|]. intros _ s1. rewrite execs_one, transition_eq.
    apply (agree_params (snd t) []). intros fs s2. cbn [each_param app]. apply agree_name. intros i s3. destruct s3 as [r c].
    destruct (kind i); reflexivity.
  Qed.
  Lemma agree_steps c s : agree (exs
      (flat_map (fun d => code_decl d ++ [AddParam]) (contract_param_decls c)
       ++ flat_map code_decl (contract_param_decls c)
       ++ flat_map (fun d => code_decl d ++ [AddField]) (field_decls c)
       ++ flat_map (fun t => [Name (fst t) KComponentName; AddTransition (map code_decl (snd t))]) (transition_decls c)) (st s)) (steps debug c s).
  Proof.
    unfold steps. apply agree_seq; [apply agree_each, agree_param|]. intros _ s1. apply agree_seq; [apply agree_each, agree_again|].
    intros _ s2. apply agree_seq; [apply agree_each, agree_field|]. intros _ s3. apply agree_each, agree_transition.
  Qed.
  Theorem emit_machine p :
    emit_program debug p =
    match exs (code_program p) ([], contract_default) with
    | Done s => EOk (snd s)
    | Fail m _ => EErr m
    | Abort => EPanic
    end.
  Proof.
    rewrite emit_steps. destruct p as [v i l c]. cbn [code_program]. set (n := node c). clearbody n. unfold code_contract.
    pose proof (agree_steps n (first_state n)) as H. rewrite execs_app.
    assert (E1 : exs (match n with mkContractDefinition nm _ _ _ _ => code_name (node nm) end) ([], contract_default)
                 = Done (name_stack (contract_name_node n), contract_default)).
    { destruct n as [nm ps con fs cs]. cbn [contract_name_node]. destruct (node nm) as [[b|b]| |t]; reflexivity. }
    rewrite E1. cbn [andthen]. rewrite execs_app, execs_one. cbn [exec andthen snd fst contract_default c_init_params c_fields c_transitions].
    change (name_stack (contract_name_node n), mkContract (declared_name n) [] [] []) with (st (first_state n)).
    destruct (steps debug n (first_state n)) as [[u|e] s'| |]; cbn [agree] in H; try contradiction; rewrite H; reflexivity.
  Qed.
End Facts.
