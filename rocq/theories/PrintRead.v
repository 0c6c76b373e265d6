(** Every AST that can be written down is read back: the canonical tokens of a
    writable AST derive it, up to positions. *)
From Coq Require Import List Bool Lia Wf_nat.
From Verif Require Import Chars Lexer LexerProofs Ast Grammar Cfg Parser GrammarLink Erase EraseFacts Print PrintFacts.
Import ListNotations.
Local Open Scope nat_scope.

Definition tk0 (t : token) : item := (start_position, t, start_position).
Notation toks0 ps := (map tk0 (canonical ps)).

Lemma canonical_app p q : canonical (p ++ q) = canonical p ++ canonical q.
Proof. apply flat_map_app. Qed.

Lemma toks0_first l : first_start (map tk0 l) = start_position.
Proof. destruct l; reflexivity. Qed.
Lemma toks0_last l : last_end (map tk0 l) = start_position.
Proof. induction l as [|i [|j l] IH]; [reflexivity..|]. exact IH. Qed.

(** ** Being read back *)
Definition R_atom (a : atom) (v : atom_type a) : Prop := der_atom a (toks0 (w_atom a v)) (e_atom a v).
Definition R (A : nt) (v : nt_type A) : Prop := R_atom (Nt A) v.
Definition R_sym (s : sym) : sym_type s -> Prop :=
  match s return sym_type s -> Prop with
  | One a => R_atom a
  | Opt a => fun o => match o with Some v => R_atom a v | None => True end
  | Star a => Forall (R_atom a)
  | Plus a => fun l => l <> [] /\ Forall (R_atom a) l
  end.
Fixpoint R_tuple (l : list sym) : tuple l -> Prop :=
  match l return tuple l -> Prop with
  | [] => fun _ => True
  | s :: r => fun '(x, y) => R_sym s x /\ R_tuple r y
  end.

Lemma R_list a l : Forall (R_atom a) l -> der_list a (toks0 (flat_map (w_atom a) l)) (map (e_atom a) l).
Proof.
  induction 1 as [|x l Hx Hl IH]; [apply der_nil|]. cbn [flat_map map]. rewrite canonical_app, map_app.
  apply der_cons; assumption.
Qed.
Lemma R_sym_der s v : R_sym s v -> der_sym s (toks0 (w_sym s v)) (e_sym s v).
Proof.
  destruct s as [a|a|a|a]; cbn [R_sym w_sym e_sym].
  - apply der_One.
  - destruct v as [v|]; cbn [opt option_map]; intro H; [apply (der_Some a _ (e_atom a v)), H|apply der_None].
  - intro H. apply der_Star, R_list, H.
  - intros [Hne H]. apply der_Plus; [apply R_list, H|]. destruct v; [congruence|discriminate].
Qed.
Lemma R_tuple_der l vs : R_tuple l vs -> der_rhs l (toks0 (w_tuple l vs)) (e_tuple l vs).
Proof.
  revert vs. induction l as [|s l IH]; intros vs H; cbn in vs.
  - destruct vs. apply der_rhs_nil.
  - destruct vs as [x y]. destruct H as [Hx Hy]. cbn [w_tuple e_tuple]. rewrite canonical_app, map_app.
    apply der_rhs_cons; [apply R_sym_der, Hx|apply IH, Hy].
Qed.
Lemma R_tm k t : kind_of t = Some k -> R_atom (Tm k) (tk0 t).
Proof. intro H. apply (der_Tm k (tk0 t)). exact H. Qed.

Lemma R_nt A (v : nt_type A) p s e vs : In p (prods A) ->
  erase A v = erase A (p_act p s e vs) ->
  canonical (write A v) = canonical (w_tuple (p_rhs p) vs) ->
  R_tuple (p_rhs p) vs -> R A v.
Proof.
  intros Hin He Hc Hr. unfold R, R_atom. cbn [w_atom e_atom]. rewrite Hc, He, (act_erase A p Hin).
  pose proof (der_Nt A p _ _ Hin (R_tuple_der _ _ Hr)) as H. rewrite toks0_first, toks0_last in H. exact H.
Qed.

(** ** The measure: tokens first, then the order of the unit productions *)
Definition lvl (A : nt) : nat :=
  match A with
  | HexNumber | SignedInteger | RegularId | SpecialId | TypeOrEnumLikeIdentifierId | TemplateTypeId
  | StringLiteral | ByteString => 0
  | TypeNameIdentifier => 1
  | MetaIdentifier | VariableIdentifier | ComponentId | AddressType | ImportedName => 2
  | ImportDeclarations | BuiltinArguments | AddressTypeField => 3
  | NextAddressTypeField => 4
  | AddressTypeFieldList => 5
  | TypeMapKey | TypeMapValue | TypeArgument | TypeMapValueArguments => 6
  | TypeMapValueAllowingTypeArguments | RemainingTypes => 7
  | FunctionSignature => 8
  | ScillaType => 9
  | TypeAnnotation | ContractTypeArguments | ValueLiteral | ArgumentPattern | BlockchainFetchArguments | MapAccess
  | TypeAlternativeClause => 10
  | AtomicExpression | MessageEntry | Pattern | TypedIdentifier | RemoteFetchStatement => 11
  | NextMessageEntry | ParameterPair => 12
  | FullExpression | NextParameterPair => 13
  | PatternMatchExpressionClause | Statement | LibrarySingleDefinition | ContractField | WithConstraint
  | ComponentParameters => 14
  | NextStatement | LibraryDefinition => 15
  | StatementBlock => 16
  | PatternMatchClause | ComponentBody => 17
  | TransitionDefinition | ProcedureDefinition => 18
  | ComponentDefinition => 19
  | ContractDefinition => 20
  | Program => 21
  end.
Definition len (ps : list piece) : nat := List.length (canonical ps).
Definition size (A : nt) (v : nt_type A) : nat := 100 * len (write A v) + lvl A.

Lemma len_app p q : len (p ++ q) = len p + len q.
Proof. unfold len. rewrite canonical_app. apply app_length. Qed.
Lemma len_P t p : len (P t :: p) = S (len p).
Proof. reflexivity. Qed.
Lemma len_Maybe l p : len (Maybe l :: p) = len p.
Proof. reflexivity. Qed.
Lemma len_kind s p : len (AddressKind s :: p) = List.length (canonical_kind s) + len p.
Proof. unfold len. cbn. apply app_length. Qed.
Lemma len_nil : len [] = 0.
Proof. reflexivity. Qed.
Lemma len_flat {A} (f : A -> list piece) x l : In x l -> len (f x) <= len (flat_map f l).
Proof.
  induction l as [|y l IH]; intros []; cbn [flat_map]; rewrite len_app; [subst; lia|]. specialize (IH H). lia.
Qed.
Lemma sep_map c {A} (f : A -> list piece) a l :
  sep c (a :: map f l) = a ++ flat_map (fun x => P c :: f x) l.
Proof. cbn. f_equal. induction l as [|x l IH]; [reflexivity|]. cbn. rewrite IH. reflexivity. Qed.

Ltac mk_values l :=
  match l with
  | nil => constr:(tt)
  | One (Tm _) :: ?r => let y := mk_values r in open_constr:((tk0 _, y))
  | ?s :: ?r => let y := mk_values r in open_constr:((_, y))
  end.
Ltac in_list := solve [repeat first [left; reflexivity | right]].
Ltac pieces := cbn -[lit sep canonical]; rewrite ?sep_map; cbn -[lit sep canonical];
  rewrite <- ?app_assoc, ?app_nil_r; reflexivity.
Ltac try_production tac ps :=
  match ps with
  | ?p :: ?r => first [tac p | try_production tac r]
  end.
Ltac find_length :=
  unfold size; cbn [lvl]; cbn -[lit sep len PeanoNat.Nat.mul];
  unfold w_id, w_special, w_template, w_hex, w_number, w_string, w_custom, w_vars, w_accesses; rewrite ?sep_map;
  repeat progress (rewrite ?len_app, ?len_P, ?len_Maybe, ?len_kind, ?len_nil);
  try match goal with
    | H : In ?x ?l |- context [len (flat_map ?f ?l)] =>
        let Hl := fresh "Hl" in pose proof (len_flat f x l H) as Hl; cbn -[lit sep len] in Hl;
        repeat progress (rewrite ?len_app, ?len_P in Hl)
    end; lia.
Ltac find_writable :=
  cbn [writable]; unfold k_wm;
  first [ reflexivity | assumption
        | match goal with H : forallb _ ?l = true, Hx : In ?x ?l |- _ =>
            exact (proj1 (forallb_forall _ l) H x Hx) end
        | match goal with H : all _ ?l = true, Hx : In ?x ?l |- _ =>
            exact (proj1 (forallb_forall _ l) H x Hx) end
        | cbn -[lit]; repeat match goal with |- _ && _ = true => apply andb_true_iff; split end;
          first [ reflexivity | assumption
                | match goal with H : ?x = false |- negb ?x = true => rewrite H; reflexivity end ] ].
Ltac by_IH IH := apply IH; [find_length | find_writable].
Ltac not_empty := match goal with
  | H : some ?l = true |- ?l <> [] => let E := fresh in intro E; rewrite E in H; discriminate H
  | |- _ :: _ <> [] => discriminate end.
Ltac symbol IH :=
  cbn [R_sym];
  first [ apply R_tm; reflexivity | apply Forall_nil
        | by_IH IH
        | match goal with |- match ?o with _ => _ end => is_var o; destruct o; [by_IH IH | exact I] end
        | match goal with |- match Some _ with _ => _ end => by_IH IH end
        | exact I
        | split; [not_empty|]; apply Forall_forall; intros ? ?; by_IH IH
        | apply Forall_forall; intros ? ?; by_IH IH ].
Ltac attempt IH A v p :=
  match p with
  | mkprod _ ?rhs ?act =>
      let vs := mk_values rhs in
      let se := match v with mkwm _ ?s ?e => constr:((s, e)) | _ => constr:((start_position, start_position)) end in
      refine (R_nt A v p (fst se) (snd se) vs _ _ _ _);
      [ in_list
      | first [ apply f_equal; reflexivity | cbn; reflexivity ]
      | first [ apply f_equal; pieces | pieces ]
      | cbn [R_tuple p_rhs]; repeat (split; [ symbol IH |]); exact I ]
  end.
Ltac read IH :=
  match goal with
  | |- R ?A ?v =>
      let c := eval cbn [prods] in (prods A) in
      let ps := eval red in c in
      try_production ltac:(fun p => solve [attempt IH A v p]) ps
  end.

(** a production given by its number and the values of its symbols *)
Ltac by_production n vs :=
  match goal with
  | |- R ?A ?v =>
      let p := eval hnf in (nth_error (prods A) n) in
      match p with
      | Some ?p =>
          let se := match v with mkwm _ ?s ?e => constr:((s, e)) | _ => constr:((start_position, start_position)) end in
          refine (R_nt A v p (fst se) (snd se) vs _ _ _ _);
          [ in_list | first [ reflexivity | cbn -[lit]; reflexivity ]
          | try solve [ reflexivity | apply f_equal; pieces | pieces
                      | cbn -[lit canonical sep]; rewrite !canonical_app; apply f_equal; reflexivity ] | ]
      end
  end.
Ltac symbols IH := cbn [R_tuple p_rhs]; repeat (split; [ symbol IH |]); exact I.

Lemma canonical_maybes {A} (f : A -> list piece) t l :
  canonical (flat_map (fun a => Maybe t :: f a) l) = canonical (flat_map f l).
Proof.
  induction l as [|a l IH]; [reflexivity|]. cbn [flat_map]. rewrite !canonical_app, IH. reflexivity.
Qed.

Lemma R_bargs l s e : (forall x, In x l -> R VariableIdentifier x) ->
  R BuiltinArguments (mkwm (mkBuiltinArguments l) s e).
Proof.
  induction l as [|x l IH] using rev_ind; intro H.
  - by_production 2 (tk0 TOpenParen, (tk0 TCloseParen, tt)). repeat split; apply R_tm; reflexivity.
  - destruct l as [|y l].
    + by_production 1 (x, tt). split; [|exact I]. apply H. left. reflexivity.
    + by_production 0 (mkwm (mkBuiltinArguments (y :: l)) s e : nt_type BuiltinArguments, (x, tt)).
      * cbn -[lit canonical]. unfold w_vars. rewrite flat_map_snoc, app_nil_r, <- app_assoc. reflexivity.
      * split; [|split; [|exact I]].
        -- apply IH. intros z Hz. apply H. apply in_or_app. left. exact Hz.
        -- apply H. apply in_or_app. right. left. reflexivity.
Qed.

Theorem readable A v : writable A v = true -> R A v.
Proof.
  remember (size A v) as n eqn:Hn. revert A v Hn. induction n as [n IHn] using lt_wf_ind.
  intros A v Hn Hk.
  assert (IH : forall B x, size B x < size A v -> writable B x = true -> R B x).
  { intros B x Hlt. apply (IHn (size B x)); [lia|reflexivity]. }
  clear IHn Hn n.
  destruct A; cbn -[lit] in v, Hk; unfold k_wm in Hk;
    try match type of v with wm _ => destruct v as [v ps pe]; cbn [node] in Hk end;
    match type of v with list N => idtac | _ => destruct v end; cbn -[lit] in Hk;
    repeat match goal with
      | H : _ && _ = true |- _ => apply andb_true_iff in H; destruct H
      | H : maybe _ ?o = true |- _ => is_var o; destruct o; cbn -[lit] in H; unfold k_wm in H
      end.
  all: try discriminate.
  all: try solve [read IH].
  - (* byte strings *) by_production 0 (tk0 (TByStrWithSize (node s)), tt).
    split; [apply R_tm; reflexivity|exact I].
  - (* imports *) destruct import_list as [|x l]; [discriminate|]. by_production 1 (tk0 TImport, (x :: l, tt)).
    + cbn -[lit canonical]. rewrite app_nil_r.
      change (TImport :: canonical (w_imported (node x) ++ flat_map (fun y => Maybe [TImport] :: w_imported (node y)) l)
        = TImport :: canonical (w_imported (node x) ++ flat_map (fun w => w_imported (node w)) l)).
      rewrite !canonical_app, canonical_maybes. reflexivity.
    + cbn [R_tuple p_rhs]. split; [symbol IH|]. split; [|exact I]. split; [discriminate|].
      apply Forall_forall. intros y Hy. apply IH.
      * assert (Hl : len (w_imported (node y)) <= len (w_imported (node x) ++ flat_map (fun y => Maybe [TImport] :: w_imported (node y)) l)).
        { destruct Hy as [-> | Hy]; rewrite len_app; [lia|].
          pose proof (len_flat (fun y => Maybe [TImport] :: w_imported (node y)) y l Hy) as Hl. cbn -[len] in Hl.
          rewrite len_Maybe in Hl. lia. }
        unfold size. cbn -[len PeanoNat.Nat.mul]. rewrite len_P. lia.
      * exact (proj1 (forallb_forall _ _) H0 y Hy).
  - (* arguments of builtins *)
    apply R_bargs. intros x Hx. apply IH; [|exact (proj1 (forallb_forall _ _) Hk x Hx)].
    destruct arguments as [|y l]; [destruct Hx|]. unfold size.
    change (write BuiltinArguments _) with (Maybe [TOpenParen; TCloseParen] :: flat_map (fun v => w_var (node v)) (y :: l)).
    rewrite len_Maybe. pose proof (len_flat (fun v => w_var (node v)) x (y :: l) Hx) as Hl.
    cbn -[len flat_map PeanoNat.Nat.mul] in *. lia.
  - (* arrows *) destruct (is_arrow (node b)) eqn:Eb; read IH.
  - (* address types *)
    destruct identifier as [i is ie]. destruct type_name as [tn ts te]. cbn [node] in *.
    destruct address_fields as [|f fs].
    + destruct (str_eqb tn (lit "")) eqn:E0; [|destruct (str_eqb tn (lit "contract")) eqn:E1; [|destruct (str_eqb tn (lit "library")) eqn:E2]].
      * apply str_eqb_eq in E0. subst tn. by_production 0 (mkwm i is ie, (tk0 TWith, (tk0 TEnd, tt))). symbols IH.
      * apply str_eqb_eq in E1. subst tn.
        by_production 1 (mkwm i is ie, (tk0 TWith, (tk0 TContract, (@None (nt_type AddressTypeFieldList), (tk0 TEnd, tt))))).
        symbols IH.
      * apply str_eqb_eq in E2. subst tn. by_production 2 (mkwm i is ie, (tk0 TWith, (tk0 TLibrary, (tk0 TEnd, tt)))). symbols IH.
      * by_production 3 (mkwm i is ie, (tk0 TWith, (mkwm tn ts te, (tk0 TEnd, tt)))); [|symbols IH].
        cbn -[lit canonical sep]. rewrite !canonical_app. f_equal. cbn -[lit].
        unfold canonical_kind. rewrite E0, E1, E2. reflexivity.
    + cbn [some negb orb] in *. apply str_eqb_eq in H1. subst tn.
      by_production 1 (mkwm i is ie, (tk0 TWith, (tk0 TContract, (Some (f :: fs : nt_type AddressTypeFieldList), (tk0 TEnd, tt))))).
      symbols IH.
  - (* map in map *) destruct e as [[k v] es ee]. cbn -[lit] in Hk. apply andb_true_iff in Hk as [Hk1 Hk2]. read IH.
  - (* messages *) destruct l as [|x l]; [discriminate|]. cbn in H0. apply andb_true_iff in H0 as [H0 H1]. read IH.
  - destruct statements as [|x l]; [discriminate|]. cbn in H0. apply andb_true_iff in H0 as [H0 H1]. read IH.
  - destruct parameters as [|x l].
    + by_production 0 (tk0 TOpenParen, (@None (nt_type ParameterPair), (@nil (nt_type NextParameterPair), (tk0 TCloseParen, tt)))).
      symbols IH.
    + cbn in Hk. apply andb_true_iff in Hk as [H0 H1].
      by_production 0 (tk0 TOpenParen, (Some (x : nt_type ParameterPair), (l : list (nt_type NextParameterPair), (tk0 TCloseParen, tt)))).
      symbols IH.
  - by_production 0 (tk0 (THexNumber v), tt). symbols IH.
  - by_production 0 (tk0 (TNumber v), tt). symbols IH.
  - by_production 0 (tk0 (TIdentifier v), tt). symbols IH.
  - by_production 0 (tk0 (TSpecialIdentifier v), tt). symbols IH.
  - by_production 0 (tk0 (TCustomIdentifier v), tt). symbols IH.
  - by_production 0 (tk0 (TTemplateIdentifier v), tt). symbols IH.
  - by_production 0 (tk0 (TStringLiteral v), tt). symbols IH.
Qed.

(** Items with the tokens of a writable AST derive an AST equal to it up to positions. *)
Theorem readable_items A v items : writable A v = true ->
  map item_token items = canonical (write A v) ->
  exists v', derives A items v' /\ erase A v' = erase A v.
Proof.
  intros Hk Hi. pose proof (readable A v Hk) as H.
  assert (Ht : map item_token (toks0 (write A v)) = map item_token items).
  { rewrite Hi, map_map. apply map_id. }
  destruct (derives_tokens A _ items (erase A v) Ht H) as (v' & Hd & _).
  exists v'. split; [exact Hd|]. apply (derives_unique A (map strip items)); [apply derives_strip, Hd|].
  replace (map strip items) with (toks0 (write A v)); [exact H|].
  rewrite <- Hi, map_map. apply map_ext. intros i. reflexivity.
Qed.
