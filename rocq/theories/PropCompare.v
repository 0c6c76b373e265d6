(** Properties C66 and C67: [==], [<] and [{:?}] on everything the crate returns.
    View.v, AstView.v and ResultView.v say what the derived implementations see. *)
From Verif Require Import Chars Lexer Utf8 Ast Declared Visitor Types Grammar Cfg Parser Contract DebugText Derive DeriveFacts Position
  View AstView ResultView AstViewFacts AstViewGood CompareFacts.
From Coq Require Import PeanoNat Lia.

(** [==] and [partial_cmp] *)
Definition equal {A} (see : A -> view) (a b : A) : bool := teq (bare (see a)) (bare (see b)).
Definition compared {A} (see : A -> view) (a b : A) : comparison := tcmp (bare (see a)) (bare (see b)).

Lemma bare_node_inj a b : node_type a = node_type b -> bare (view_node a) = bare (view_node b) -> a = b.
Proof.
  apply (node_inj bare).
  - intros s t [= H]. exact H.
  - intros s t [= H]. exact H.
  - intros l m [= H]. exact H.
  - intros i n ls l j m ls' l' [= H _]. left. exact H.
  - intros i n ls l l' _ _ [= H]. exact H.
Qed.

(** ** C66: nodes *)
(** What the implementations see of a node is its declaration: its variant is the
    one with that place among the variants of its type, and has those fields. *)
Theorem C66_declared : forall a, exists variants i name labels fields,
  In (node_type a, variants) declarations /\ view_node a = VCon i name labels fields
  /\ nth_error variants i = Some (name, labels, List.length fields).
Proof.
  assert (F : forall a variants v, find (fun d => str_eqb (node_type a) (fst d)) declarations = Some (node_type a, variants) -> view_node a = v ->
    match v with VCon i name labels fields => nth_error variants i = Some (name, labels, List.length fields) | _ => False end ->
    exists variants i name labels fields,
      In (node_type a, variants) declarations /\ view_node a = VCon i name labels fields /\ nth_error variants i = Some (name, labels, List.length fields)).
  { intros a variants v H Hv Hn. destruct v as [| | |i name labels fields]; try contradiction. exists variants, i, name, labels, fields.
    split; [exact (proj1 (find_some _ _ H))|]. split; [exact Hv|exact Hn]. }
  intros [n|n|n|n|n|n|n|n|n|n|n|n|n|n|n|n|n|n|n|n|n|n|n|n|n|n|n|n|n|n|n|n|n|n|n|n|n|n|n|n|n|n|n|n|n|n];
    (eapply F; [vm_compute; reflexivity|reflexivity|]; destruct n; reflexivity).
Qed.
(** Nodes of the same type are equal exactly when they are the same, positions
    included. *)
Theorem C66_nodes_equal : forall a b, node_type a = node_type b -> (equal view_node a b = true <-> a = b).
Proof.
  intros a b Ht. unfold equal. rewrite teq_iff. split; [apply bare_node_inj, Ht|intros ->; reflexivity].
Qed.
Theorem C66_located_equal : forall a b : wm anynode, node_type (node a) = node_type (node b) ->
  (equal (view_wm view_node) a b = true <-> node a = node b /\ wm_start a = wm_start b /\ wm_end a = wm_end b).
Proof.
  intros [a [x1 x2 x3] [y1 y2 y3]] [b [z1 z2 z3] [t1 t2 t3]] Ht. cbn [node wm_start wm_end] in *. unfold equal. rewrite teq_iff. cbn. split.
  - intros [= H -> -> -> -> -> ->]. split; [apply bare_node_inj; assumption|]. split; reflexivity.
  - intros [-> [[= -> -> ->] [= -> -> ->]]]. reflexivity.
Qed.
(** Nodes of the same type are totally ordered: by variant in the order of the
    declaration, then by the first field that differs ([less]). *)
Theorem C66_nodes_ordered :
  (forall a b, node_type a = node_type b -> (compared view_node a b = Eq <-> a = b))
  /\ (forall a b, compared view_node b a = CompOpp (compared view_node a b))
  /\ (forall a b c, compared view_node a b = Lt -> compared view_node b c = Lt -> compared view_node a c = Lt)
  /\ (forall a b, compared view_node a b = Lt <-> less (bare (view_node a)) (bare (view_node b))).
Proof.
  unfold compared. split; [|split; [|split]].
  - intros a b Ht. rewrite tcmp_eq. split; [apply bare_node_inj, Ht|intros ->; reflexivity].
  - intros. apply tcmp_opp.
  - intros a b c. apply tcmp_trans.
  - intros. apply tcmp_lt.
Qed.
(** A located node is compared by the node, then by its start, then by its end. *)
Theorem C66_located_ordered : forall {A} (see : A -> view) (a b : wm A),
  compared (view_wm see) a b =
  match compared see (node a) (node b) with
  | Eq => match compared view_pos (wm_start a) (wm_start b) with Eq => compared view_pos (wm_end a) (wm_end b) | r => r end
  | r => r
  end.
Proof.
  intros A see [a s e] [b s' e']. unfold compared. cbn [node wm_start wm_end]. cbn [view_wm bare map]. rewrite tcmp_con, Nat.compare_refl. cbn [lcmp].
  destruct (tcmp (bare (see a)) (bare (see b))), (tcmp (bare (view_pos s)) (bare (view_pos s'))), (tcmp (bare (view_pos e)) (bare (view_pos e'))); reflexivity.
Qed.
(** An absent part is less than any present one; lists are compared as in a dictionary. *)
Theorem C66_options_lists : forall {A} (see : A -> view),
  (forall a, compared (view_opt see) None (Some a) = Lt /\ compared (view_opt see) (Some a) None = Gt)
  /\ compared (view_opt see) None None = Eq
  /\ (forall a b, compared (view_opt see) (Some a) (Some b) = compared see a b)
  /\ (forall l m, (forall a b, compared see a b = Eq <-> a = b) ->
        (compared (view_list see) l m = Lt <-> dictionary (fun a b => compared see a b = Lt) l m)).
Proof.
  intros A see. split; [intro a; split; reflexivity|]. split; [reflexivity|]. split.
  - intros a b. unfold compared. cbn [view_opt bare map]. rewrite tcmp_con, Nat.compare_refl. cbn [lcmp].
    destruct (tcmp (bare (see a)) (bare (see b))); reflexivity.
  - intros l m He. unfold compared at 1, view_list. cbn [bare]. rewrite tcmp_seq, !map_map.
    assert (E : lcmp tcmp (map (fun x => bare (see x)) l) (map (fun x => bare (see x)) m) = lcmp (compared see) l m).
    { revert m. induction l as [|x l IH]; intros [|y m]; try reflexivity. cbn [map lcmp]. rewrite IH. reflexivity. }
    rewrite E. apply lcmp_lt.
    + apply Forall_forall. intros x _. apply He.
    + apply Forall_forall. intros x _ y. reflexivity.
    + intros x _ H. rewrite (proj2 (He x x) eq_refl) in H. discriminate.
Qed.
(** Strings are compared by their bytes, which is the order of their characters. *)
Theorem C66_strings : forall s t, is_text s -> is_text t ->
  str_cmp (utf8 s) (utf8 t) = str_cmp s t /\ (str_cmp s t = Lt <-> dictionary N.lt s t).
Proof. intros s t Hs Ht. split; [apply utf8_order; assumption|apply str_cmp_lt]. Qed.

(** ** C66: tokens, types, contracts *)
Lemma token_bare_inj a b : bare (view_token a) = bare (view_token b) -> a = b.
Proof.
  destruct a; destruct b; intro H; (reflexivity || (cbn in H; first [discriminate H | injection H as ->; reflexivity])).
Qed.
Lemma map_inj {A B} (f : A -> B) l : Forall (fun a => forall b, f a = f b -> a = b) l -> forall m, map f l = map f m -> l = m.
Proof.
  induction 1 as [|x l Hx _ IH]; intros [|y m] H; try discriminate; [reflexivity|]. cbn in H. injection H as H0 H1. f_equal; auto.
Qed.
Lemma ty_bare_inj a b : bare (view_ty a) = bare (view_ty b) -> a = b.
Proof.
  revert b. induction a using ty_ind'; intros b E; destruct b; try reflexivity; cbn in E; try discriminate E.
  - injection E as E1 E2. f_equal; auto.
  - injection E as ->. reflexivity.
  - injection E as -> E. f_equal. rewrite !map_map in E. revert E. apply map_inj. eapply Forall_impl; [|exact H].
    intros [m t] G [m' t'] E. cbn in *. injection E as -> E. f_equal. auto.
  - injection E as E. f_equal; auto.
  - injection E as E1 E2. f_equal; auto.
  - injection E as E. f_equal; auto.
  - injection E as ->. reflexivity.
Qed.
Lemma field_bare_inj a b : bare (view_field a) = bare (view_field b) -> a = b.
Proof. destruct a, b. cbn. intros [= -> E]. f_equal. apply ty_bare_inj, E. Qed.
Lemma fields_bare_inj a b : bare (view_fields a) = bare (view_fields b) -> a = b.
Proof. cbn. intros [= E]. rewrite !map_map in E. revert E. apply map_inj, Forall_forall. intros x _ y. apply field_bare_inj. Qed.
Lemma transition_bare_inj a b : bare (view_transition a) = bare (view_transition b) -> a = b.
Proof.
  destruct a as [n p], b as [n' p']. unfold view_transition. cbn [t_name t_params]. intro H. cbn [bare map] in H. injection H as -> H.
  f_equal. apply fields_bare_inj. exact (f_equal (fun l => TCon 0 [TSeq l]) H).
Qed.
Lemma contract_bare_inj a b : bare (view_contract a) = bare (view_contract b) -> a = b.
Proof.
  destruct a as [n p f t], b as [n' p' f' t']. unfold view_contract. cbn [c_name c_init_params c_fields c_transitions]. intro H.
  assert (H1 : bare (view_fields p) = bare (view_fields p')) by (cbn in H |- *; congruence).
  assert (H2 : bare (view_fields f) = bare (view_fields f')) by (cbn in H |- *; congruence).
  apply fields_bare_inj in H1, H2. subst. cbn in H. injection H as -> H. f_equal. rewrite !map_map in H. revert H.
  apply map_inj, Forall_forall. intros x _ y. apply transition_bare_inj.
Qed.
(** Results are equal exactly when every part of them is. *)
Theorem C66_results_equal :
  (forall a b, equal view_contract a b = true <->
     c_name a = c_name b /\ c_init_params a = c_init_params b /\ c_fields a = c_fields b /\ c_transitions a = c_transitions b)
  /\ (forall a b, equal view_transition a b = true <-> t_name a = t_name b /\ t_params a = t_params b)
  /\ (forall a b, equal view_field a b = true <-> field_name a = field_name b /\ field_type a = field_type b)
  /\ (forall a b, equal view_ty a b = true <-> a = b)
  /\ (forall a b, equal view_token a b = true <-> a = b)
  /\ (forall a b, equal view_pos a b = true <-> a = b).
Proof.
  unfold equal. split; [|split; [|split; [|split; [|split]]]]; intros a b; rewrite teq_iff; split.
  - intro H. apply contract_bare_inj in H. subst. repeat split.
  - destruct a as [a1 a2 a3 a4], b as [b1 b2 b3 b4]. cbn [c_name c_init_params c_fields c_transitions]. intros (-> & -> & -> & ->). reflexivity.
  - intro H. apply transition_bare_inj in H. subst. split; reflexivity.
  - destruct a as [a1 a2], b as [b1 b2]. cbn [t_name t_params]. intros (-> & ->). reflexivity.
  - intro H. apply field_bare_inj in H. subst. split; reflexivity.
  - destruct a as [a1 a2], b as [b1 b2]. cbn [field_name field_type]. intros (-> & ->). reflexivity.
  - apply ty_bare_inj.
  - intros ->. reflexivity.
  - apply token_bare_inj.
  - intros ->. reflexivity.
  - destruct a as [a1 a2 a3], b as [b1 b2 b3]. cbn. congruence.
  - intros ->. reflexivity.
Qed.

(** ** C67: [Debug] of nodes *)
Lemma combine_shown_inj (ls : list str) : forall l l' : list view, List.length ls = List.length l -> List.length l = List.length l' ->
  combine ls (map shown l) = combine ls (map shown l') -> map shown l = map shown l'.
Proof.
  induction ls as [|x ls IH]; intros [|a l] [|b l'] Hl Hll H; try discriminate; [reflexivity|]. cbn [map combine] in *.
  injection H as H0 H1. f_equal; [exact H0|]. apply IH; [injection Hl as Hl; exact Hl|injection Hll as Hll; exact Hll|exact H1].
Qed.
Lemma shown_node_inj a b : node_type a = node_type b -> shown (view_node a) = shown (view_node b) -> a = b.
Proof.
  apply (node_inj shown).
  - intros s t [= H]. exact H.
  - intros s t [= H]. exact H.
  - intros l m [= H]. exact H.
  - intros i n ls l j m ls' l' H. right. destruct ls, l, ls', l'; cbn [shown] in H; congruence.
  - intros i n ls l l' Hl Hll H. destruct ls as [|x ls].
    + destruct l, l'; try discriminate Hll; [reflexivity|]. cbn [shown] in H. injection H as H0 H1. cbn [map]. congruence.
    + destruct Hl as [Hl|Hl]; [discriminate|]. cbn [shown] in H.
      apply (combine_shown_inj (x :: ls)); [exact Hl|exact Hll|]. injection H as H. exact H.
Qed.
Section Debug.
  Context (printable : char -> bool).
  (** [{:?}] *)
  Definition node_debug (a : anynode) : str := render (debug_str printable) (shown (view_node a)).

  (** The [Debug] text of a node shows all of it, positions included. *)
  Theorem C67_node_debug : forall a b, node_type a = node_type b -> (node_debug a = node_debug b <-> a = b).
  Proof.
    intros a b Ht. split; [|intros ->; reflexivity]. unfold node_debug. intro H. apply shown_node_inj; [exact Ht|].
    exact (shown_inj printable _ _ (good_node a) (good_node b) H).
  Qed.
  (** So nodes are equal exactly when their [Debug] texts are. *)
  Theorem C67_equal_iff_same_text : forall a b, node_type a = node_type b -> (equal view_node a b = true <-> node_debug a = node_debug b).
  Proof. intros a b Ht. rewrite C66_nodes_equal, C67_node_debug by exact Ht. reflexivity. Qed.
  (** The text of a located node. *)
  Theorem C67_located : forall {A} (see : A -> view) (w : wm A),
    let show v := render (debug_str printable) (shown v) in
    let place p := lit "SourcePosition { position: " ++ dec (position p) ++ lit ", line: " ++ dec (line p) ++ lit ", column: " ++ dec (column p) ++ lit " }" in
    show (view_wm see w) = lit "WithMetaData { node: " ++ show (see (node w)) ++ lit ", start: " ++ place (wm_start w) ++ lit ", end: " ++ place (wm_end w) ++ lit " }".
  Proof.
    intros A see [n s e] show place. unfold show, place. cbn [view_wm node wm_start wm_end shown map combine view_pos render commas fst snd].
    rewrite <- !app_assoc. reflexivity.
  Qed.
End Debug.
(** The views are those of C51. *)
Lemma map_ext_Forall {A B} (f g : A -> B) l : Forall (fun a => f a = g a) l -> map f l = map g l.
Proof. induction 1; cbn; congruence. Qed.
Lemma shown_ty t : shown (view_ty t) = see_type t.
Proof.
  induction t using ty_ind'; cbn; try congruence. f_equal. f_equal. f_equal. f_equal. f_equal. f_equal. f_equal. rewrite map_map. apply map_ext_Forall.
  eapply Forall_impl; [|exact H]. intros [m t] G. cbn in *. rewrite G. reflexivity.
Qed.
Lemma shown_field f : shown (view_field f) = see_field f.
Proof. destruct f as [n t]. cbn. rewrite shown_ty. reflexivity. Qed.
Lemma shown_fields fs : shown (view_fields fs) = see_fields fs.
Proof. cbn. unfold see_fields. rewrite map_map. do 3 f_equal. apply map_ext_Forall, Forall_forall. intros. apply shown_field. Qed.
Lemma shown_transition t : shown (view_transition t) = see_transition t.
Proof. unfold view_transition, see_transition. rewrite <- shown_fields. reflexivity. Qed.
Theorem C67_views_of_results :
  (forall c, shown (view_contract c) = see_contract c) /\ (forall t, shown (view_transition t) = see_transition t)
  /\ (forall f, shown (view_field f) = see_field f) /\ (forall t, shown (view_ty t) = see_type t)
  /\ (forall t, shown (view_token t) = see_token t) /\ (forall p, shown (view_pos p) = see_position p).
Proof.
  split; [|split; [exact shown_transition|split; [exact shown_field|split; [exact shown_ty|split]]]].
  - intro c. unfold view_contract, see_contract. rewrite <- !shown_fields.
    assert (E : map shown (map view_transition (c_transitions c)) = map see_transition (c_transitions c)).
    { rewrite map_map. apply map_ext_Forall, Forall_forall. intros. apply shown_transition. }
    rewrite <- E. reflexivity.
  - intros []; reflexivity.
  - intro p. reflexivity.
Qed.

(** The comparison of positions is that of C63. *)
Theorem C66_positions : forall a b, compared view_pos a b = pos_cmp a b.
Proof.
  intros [a1 a2 a3] [b1 b2 b3]. unfold compared, pos_cmp. cbn.
  destruct (a1 ?= b1), (a2 ?= b2), (a3 ?= b3); reflexivity.
Qed.

(** ** Refuted *)
(** [==] on syntax trees does not mean the same program: the layout matters. *)
Theorem C66_layout_refuted : ~ (forall text text' p p', parse_str U_none Program text = POk p -> parse_str U_none Program text' = POk p' ->
  map item_token (fst (lex U_none text)) = map item_token (fst (lex U_none text')) -> equal view_node (AProgram p) (AProgram p') = true).
Proof.
  intro H. specialize (H (lit "scilla_version 0 contract C ()") (lit "scilla_version 0 contract C  ()")).
  refine (_ (H _ _ _ _ _)); [|vm_compute; reflexivity|vm_compute; reflexivity|vm_compute; reflexivity].
  vm_compute. discriminate.
Qed.
(** [<] on located nodes is not their order in the text. *)
Theorem C66_source_order_refuted : ~ (forall text v a b, parse_str U_none BuiltinArguments text = POk v ->
  match node v with mkBuiltinArguments l => In a l /\ In b l end -> position (wm_end a) <= position (wm_start b) ->
  compared (view_wm view_NodeVariableIdentifier) a b = Lt).
Proof.
  intro H. specialize (H (lit "y x")).
  refine (_ (H _ _ _ _ _ _)); [|vm_compute; reflexivity|vm_compute; split; [left; reflexivity|right; left; reflexivity]|vm_compute; discriminate].
  vm_compute. discriminate.
Qed.

(** ** Witnesses *)
(** The two trees that [C66_layout_refuted] compares; the longer layout is the greater one. *)
Example C66_witness : exists p p', parse_str U_none Program (lit "scilla_version 0 contract C () field f : Bool = x") = POk p
  /\ parse_str U_none Program (lit "scilla_version 0 contract C () field f : Bool =  x") = POk p'
  /\ equal view_node (AProgram p) (AProgram p) = true
  /\ equal view_node (AProgram p) (AProgram p') = false /\ compared view_node (AProgram p) (AProgram p') = Lt.
Proof.
  do 2 eexists. split; [vm_compute; reflexivity|]. split; [vm_compute; reflexivity|]. split; [vm_compute; reflexivity|].
  split; vm_compute; reflexivity.
Qed.
(** Variants are ordered as declared, whatever the names in them. *)
Example C66_witness_variants : exists a b, parse_str U_none TypeNameIdentifier (lit "Event") = POk a /\ parse_str U_none TypeNameIdentifier (lit "A") = POk b
  /\ compared view_node (ATypeNameIdentifier (node a)) (ATypeNameIdentifier (node b)) = Lt.
Proof. do 2 eexists. split; [vm_compute; reflexivity|]. split; [vm_compute; reflexivity|]. vm_compute. reflexivity. Qed.
Example C67_witness : exists a, parse_str U_none ByteString (lit "ByStr20") = POk a
  /\ node_debug all_printable (AByteStr a) =
     lit "Type(WithMetaData { node: ""ByStr20"", start: SourcePosition { position: 0, line: 0, column: 0 }, end: SourcePosition { position: 7, line: 0, column: 7 } })".
Proof. eexists. split; vm_compute; reflexivity. Qed.
