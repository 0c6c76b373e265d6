(** Properties C38-C40: names in the result, reading files, the start of a program. *)
From Verif Require Import Chars Lexer LexerProofs LexSpec LexFacts LexWritten PropLexer Ast Grammar Cfg Parser GrammarLink Types Visitor Emitter
  Contract Utf8 EmitSpec EmitOk DerInv Spell SpellFacts Spaced PropParse2 PropEmit LexSegment.

(** ** C38: names *)

(** An identifier: an ASCII letter followed by ASCII letters, digits and underscores. *)
Definition lower_name (n : str) : Prop := exists c r, n = c :: r /\ is_lower c = true /\ all_word r.
Definition upper_name (n : str) : Prop := exists c r, n = c :: r /\ is_upper c = true /\ all_word r.
Definition name (n : str) : Prop := lower_name n \/ upper_name n.

(** [in_order ns text]: the strings [ns] occur in [text] one after the other,
    without overlap. *)
Inductive in_order : list str -> str -> Prop :=
| io_nil : forall text, in_order [] text
| io_cons : forall n ns before text, in_order ns text -> in_order (n :: ns) (before ++ n ++ text).

(** All names of a contract in source order: the contract, its parameters, its
    fields, and each transition followed by its parameters. *)
Definition names_of (c : contract) : list str :=
  [c_name c] ++ map field_name (c_init_params c) ++ map field_name (c_fields c)
  ++ flat_map (fun t => t_name t :: map field_name (t_params t)) (c_transitions c).

(** *** Names as items *)
Inductive sub {A} : list A -> list A -> Prop :=
| sub_nil : forall l, sub [] l
| sub_take : forall x l m, sub l m -> sub (x :: l) (x :: m)
| sub_skip : forall x l m, sub l m -> sub l (x :: m).
Lemma sub_app_l {A} (l m p : list A) : sub l m -> sub l (p ++ m).
Proof. intro H. induction p as [|x p IH]; cbn; [exact H|apply sub_skip, IH]. Qed.
Lemma sub_app {A} (l1 m1 l2 m2 : list A) : sub l1 m1 -> sub l2 m2 -> sub (l1 ++ l2) (m1 ++ m2).
Proof. intros H H2. induction H as [m|x l m _ IH|x l m _ IH]; cbn; [apply sub_app_l, H2|apply sub_take, IH|apply sub_skip, IH]. Qed.
Lemma sub_in {A} (l m : list A) x : sub l m -> In x l -> In x m.
Proof. intro H. induction H as [m|y l m _ IH|y l m _ IH]; cbn; [tauto| |]; [intros [->|H']; auto|auto]. Qed.

Definition kinded (K : list tk) (i : item) : Prop := exists k, kind_of (item_token i) = Some k /\ In k K.
Definition named (K : list tk) (items : list item) (ns : list str) : Prop :=
  exists is, ns = map tok_str is /\ sub is items /\ Forall (kinded K) is.
Lemma named_nil K items : named K items [].
Proof. exists []. repeat constructor. Qed.
Lemma named_app K t1 t2 n1 n2 : named K t1 n1 -> named K t2 n2 -> named K (t1 ++ t2) (n1 ++ n2).
Proof.
  intros (i1 & -> & S1 & F1) (i2 & -> & S2 & F2). exists (i1 ++ i2). rewrite map_app. split; [reflexivity|].
  split; [apply sub_app; assumption|apply Forall_app; auto].
Qed.
Lemma named_skip K t1 t2 n2 : named K t2 n2 -> named K (t1 ++ t2) n2.
Proof. intro H. exact (named_app K t1 t2 [] n2 (named_nil K t1) H). Qed.
Lemma named_left K t1 t2 n1 : named K t1 n1 -> named K (t1 ++ t2) n1.
Proof. intro H. rewrite <- (app_nil_r n1). exact (named_app K t1 t2 n1 [] H (named_nil K t2)). Qed.
Lemma named_one K i : kinded K i -> named K [i] [tok_str i].
Proof. intro H. exists [i]. repeat constructor. exact H. Qed.
Lemma named_weaken K K' items ns : incl K K' -> named K items ns -> named K' items ns.
Proof.
  intros Hi (is & -> & S & F). exists is. split; [reflexivity|]. split; [exact S|]. revert F. apply Forall_impl.
  intros i (k & Hk & H). exists k. split; [exact Hk|apply Hi, H].
Qed.

Definition lower_kinds : list tk := [KIdentifier].
Definition type_kinds : list tk := [KCustomIdentifier; KByStrWithSize; KEventType].
Definition name_kinds : list tk := KIdentifier :: type_kinds.

Lemma typed_named items w : derives TypedIdentifier items w -> named lower_kinds items [typed_name (node w)].
Proof.
  intro H. destruct (typed_inv items w H) as (i0 & r & n & a & -> & _ & Hk & -> & Hn). cbn [typed_name]. rewrite Hn.
  apply (named_left lower_kinds [i0]). apply named_one. exists KIdentifier. split; [exact Hk|cbn; auto].
Qed.
Definition pair_decl (p : NodeParameterPair) : NodeTypedIdentifier := match p with mkParameterPair i => node i end.
Lemma pair_named items w : derives ParameterPair items w -> named lower_kinds items [typed_name (pair_decl (node w))].
Proof.
  intro H. apply derives_inv in H. destruct H as (q & vs & Hin & Hd & ->). destruct Hin as [<- |[]]. cbn [p_rhs] in *. cbn in vs.
  inv_tuple. inv_rhs Hd. subst. rewrite app_nil_r. cbn [p_act node pair_decl]. apply typed_named, D.
Qed.
Lemma next_named items w : derives NextParameterPair items w -> named lower_kinds items [typed_name (pair_decl (node w))].
Proof.
  intro H. apply derives_inv in H. destruct H as (q & vs & Hin & Hd & ->). destruct Hin as [<- |[]]. cbn [p_rhs] in *. cbn in vs.
  inv_tuple. inv_rhs Hd. subst. rewrite app_nil_r. cbn [p_act node]. apply named_skip, pair_named. assumption.
Qed.
Lemma list_named {A} K (f : nt_type A -> list str) : (forall items w, derives A items w -> named K items (f w)) ->
  forall ws items, der_list (Nt A) items ws -> named K items (flat_map f ws).
Proof.
  intros Hf. induction ws as [|w ws IH]; intros items H; apply list_inv in H; [subst; apply named_nil|].
  destruct H as (t1 & t2 & -> & H1 & H2). cbn [flat_map]. apply named_app; [apply Hf, H1|apply IH, H2].
Qed.
Lemma flat_single {A B} (f : A -> B) l : flat_map (fun x => [f x]) l = map f l.
Proof. induction l as [|x l IH]; cbn; [reflexivity|now rewrite IH]. Qed.
Lemma params_named items w : derives ComponentParameters items w -> named lower_kinds items (map typed_name (param_decls (node w))).
Proof.
  intro H. apply derives_inv in H. destruct H as (q & vs & Hin & Hd & ->). destruct Hin as [<- |[]]. cbn [p_rhs] in *. cbn in vs.
  inv_tuple. inv_rhs Hd. subst. cbn [p_act node param_decls]. apply named_skip.
  assert (HL : forall ts ws, der_list (Nt NextParameterPair) ts ws -> named lower_kinds ts (map (fun p => typed_name (pair_decl (node p))) ws)).
  { intros ts' ws Hw. rewrite <- flat_single. revert Hw. apply (list_named (A := NextParameterPair) lower_kinds (fun p => [typed_name (pair_decl (node p))])). exact next_named. }
  rewrite map_map. change (fun x : wm NodeParameterPair => typed_name match node x with mkParameterPair i => node i end) with (fun p : wm NodeParameterPair => typed_name (pair_decl (node p))).
  match goal with D : match ?o with _ => _ end |- _ => destruct o as [x|] end.
  - cbn [map]. rewrite app_assoc. apply named_left. apply (named_app _ _ _ [_]); [apply pair_named; assumption|apply HL; assumption].
  - subst. cbn [app]. apply named_left, HL. assumption.
Qed.
Lemma fields_named ws : forall items, der_list (Nt ContractField) items ws ->
  named lower_kinds items (map typed_name (map (fun f : wm NodeContractField => match node f with mkContractField i _ => node i end) ws)).
Proof.
  intros items H. rewrite map_map, <- flat_single. revert items H. apply (list_named (A := ContractField)).
  intros items w H. destruct (field_inv items w H) as (i0 & ti & i1 & te & i & e & -> & _ & Hi & _ & _ & ->).
  apply named_skip, named_left, typed_named, Hi.
Qed.
Definition transition_names (d : str * list NodeTypedIdentifier) : list str := fst d :: map typed_name (snd d).
Lemma components_named ws : forall items, der_list (Nt ComponentDefinition) items ws ->
  named name_kinds items (flat_map (fun d : wm NodeComponentDefinition => flat_map transition_names match node d with
                         | TransitionComponent t => match node t with mkTransitionDefinition n ps _ => [(component_name (node n), param_decls (node ps))] end
                         | ProcedureComponent _ => [] end) ws).
Proof.
  apply (list_named (A := ComponentDefinition)). intros items w H.
  destruct (component_inv items w H) as [(t & Ht & ->)|(t & _ & ->)]; [|apply named_nil].
  destruct (transition_inv items t Ht) as (i0 & tn & tp & tb & n & ps & b & -> & _ & Hn & Hp & _ & ->).
  cbn [flat_map transition_names fst snd]. rewrite app_nil_r. apply named_skip. rewrite app_assoc. apply named_left.
  destruct (component_id_inv tn n Hn) as (i & -> & Hk & ->). apply (named_app _ [i] tp [tok_str i]).
  - apply named_one. unfold kinded, name_kinds, type_kinds. destruct Hk as [Hk|[Hk|[Hk|Hk]]]; eexists; (split; [exact Hk|cbn; tauto]).
  - apply (named_weaken lower_kinds); [intros k Hk'; destruct Hk' as [<- |[]]; left; reflexivity|apply params_named, Hp].
Qed.

Lemma lower_incl : incl lower_kinds name_kinds.
Proof. intros k [<- |[]]. left. reflexivity. Qed.
Lemma type_incl : incl type_kinds name_kinds.
Proof. intros k H. right. exact H. Qed.

(** the declarations of an accepted program, in order *)
Definition declared_names (c : NodeContractDefinition) : list str :=
  [declared_name c] ++ map typed_name (contract_param_decls c) ++ map typed_name (field_decls c)
  ++ flat_map transition_names (transition_decls c).
Lemma program_named items p : derives Program items p ->
  named name_kinds items (declared_names (contract_of p))
  /\ named type_kinds items [declared_name (contract_of p)]
  /\ named lower_kinds items (map typed_name (contract_param_decls (contract_of p)))
  /\ named lower_kinds items (map typed_name (field_decls (contract_of p)))
  /\ Forall (fun d => named lower_kinds items (map typed_name (snd d))) (transition_decls (contract_of p)).
Proof.
  intro H. destruct (program_inv items p H) as (i0 & t1 & t2 & t3 & t4 & v & oi & ol & c & -> & _ & _ & _ & _ & Hc & ->).
  cbn [contract_of]. destruct (contract_inv t4 c Hc) as (i1 & tn & tp & tw & tf & tc & n & ps & con & fs & cs & -> & _ & Hn & Hp & _ & Hf & Hcs & ->).
  destruct (tni_inv tn n Hn) as (i & -> & Hk & Hni).
  assert (Hni' : named type_kinds [i] [declared_name (mkContractDefinition n ps con fs cs)]).
  { cbn [declared_name]. rewrite Hni. apply named_one. unfold kinded, type_kinds. destruct Hk as [Hk|[Hk|Hk]]; eexists; (split; [exact Hk|cbn; tauto]). }
  pose proof (params_named tp ps Hp) as Hp'. pose proof (fields_named fs tf Hf) as Hf'. pose proof (components_named cs tc Hcs) as Hc'.
  assert (Hd : forall K ns, named K ([i] ++ tp ++ tw ++ tf ++ tc) ns -> named K ([i0] ++ t1 ++ t2 ++ t3 ++ [i1] ++ [i] ++ tp ++ tw ++ tf ++ tc) ns).
  { intros K ns Hx. do 5 apply named_skip. exact Hx. }
  split; [|split; [|split; [|split]]].
  - apply Hd. unfold declared_names. apply named_app; [apply (named_weaken type_kinds); [exact type_incl|exact Hni']|].
    apply named_app; [apply (named_weaken lower_kinds); [exact lower_incl|exact Hp']|]. apply named_skip.
    apply named_app; [apply (named_weaken lower_kinds); [exact lower_incl|exact Hf']|].
    cbn [transition_decls].
    match goal with |- named _ _ (flat_map ?g (flat_map ?f ?l)) => replace (flat_map g (flat_map f l)) with (flat_map (fun d => flat_map g (f d)) l) end; [exact Hc'|].
    clear. induction cs as [|x cs IH]; cbn [flat_map]; [reflexivity|]. rewrite IH. symmetry. apply flat_map_app.
  - apply Hd, named_left, Hni'.
  - apply Hd, named_skip, named_left, Hp'.
  - apply Hd. do 3 apply named_skip. apply named_left, Hf'.
  - assert (G : forall ws tc, der_list (Nt ComponentDefinition) tc ws -> Forall (fun d => named lower_kinds tc (map typed_name (snd d)))
        (transition_decls (mkContractDefinition n ps con fs ws))).
    { clear. induction ws as [|w ws IH]; intros tc H; apply list_inv in H; [constructor|]. destruct H as (t1 & t2 & -> & H1 & H2).
      cbn [transition_decls flat_map]. apply Forall_app. split.
      - destruct (component_inv t1 w H1) as [(t & Ht & ->)|(t & _ & ->)]; [|constructor].
        destruct (transition_inv t1 t Ht) as (i0 & tn & tp & tb & n' & ps' & b & -> & _ & _ & Hp & _ & ->). constructor; [|constructor].
        cbn [snd]. apply named_left, named_skip, named_skip, named_left, params_named, Hp.
      - specialize (IH t2 H2). cbn [transition_decls] in IH. revert IH. apply Forall_impl. intros d Hd. apply named_skip, Hd. }
    specialize (G cs tc Hcs). revert G. apply Forall_impl. intros d Hx. apply Hd. do 4 apply named_skip. exact Hx.
Qed.

(** *** From items to text *)
Lemma lexed_in_order U text items is : lex U text = (items, LEof) -> sub is items -> Forall (kinded name_kinds) is ->
  in_order (map tok_str is) text.
Proof.
  intros E. destruct (C04_input_is_tokens_and_layout U text items E) as (rest & Ht & _). clear E. revert is.
  induction Ht as [pos ln s|pos ln g k a t b x items s rest Hg Hn Hne Ha Hla Hb Hlb Hl H IH
    |pos ln g k a c items s rest Hg Hws Ha Hla H IH]; intros is Hs Hk.
  - inversion Hs; subst. constructor.
  - inversion Hs as [m|y l m Hs'|y l m Hs']; subst; [constructor| |].
    + inversion Hk as [|? ? Hk1 Hk2]; subst. cbn [map tok_str item_token fst snd].
      apply io_cons. assert (Ex : x = []). { destruct Hk1 as (k0 & Hk0 & Hin). cbn in Hk0. destruct t; try exact Hl. cbn in Hk0. injection Hk0 as <-. cbn in Hin.
        repeat (destruct Hin as [Hin|Hin]; [discriminate Hin|]). destruct Hin. }
      subst x. apply IH; assumption.
    + specialize (IH _ Hs' Hk). clear -IH. destruct IH as [text|n ns before text IH]; [constructor|].
      replace (g ++ token_text t ++ x ++ before ++ n ++ text) with ((g ++ token_text t ++ x ++ before) ++ n ++ text) by (rewrite <- !app_assoc; reflexivity).
      apply io_cons, IH.
  - inversion Hs as [m|y l m Hs'|y l m Hs']; subst; [constructor| |].
    + exfalso. inversion Hk as [|? ? Hk1 _]; subst. destruct Hk1 as (k0 & Hk0 & _). discriminate Hk0.
    + specialize (IH _ Hs' Hk). clear -IH. destruct IH as [text|n ns before text IH]; [constructor|].
      replace (g ++ c :: before ++ n ++ text) with ((g ++ c :: before) ++ n ++ text) by (rewrite <- app_assoc; reflexivity).
      apply io_cons, IH.
Qed.
Lemma kinded_shape U text items i : lex U text = (items, LEof) -> In i items ->
  (kinded lower_kinds i -> lower_name (tok_str i)) /\ (kinded type_kinds i -> upper_name (tok_str i)).
Proof.
  intros E Hi. destruct (lex_item_at _ _ _ _ _ E Hi) as (p & s & ln & b & pr & _ & _ & _ & _ & H).
  destruct H as [(t & x & r & Hat & _ & _ & ->)|(_ & ->)].
  2: { split; intros (k & Hk & _); discriminate Hk. }
  unfold kinded, tok_str. cbn [item_token fst snd]. split; intros (k & Hk & Hin).
  - destruct Hin as [<- |[]]. destruct t; try discriminate Hk. cbn [token_text]. inversion Hat as [w t r' Hx|s' w t Hx| | | | | | | |c w r' Hc Hw| | |]; subst.
    + exfalso. clear -Hx. cbn in Hx. repeat (destruct Hx as [Hx|Hx]; [discriminate Hx|]). exact Hx.
    + exfalso. clear -Hx. cbn in Hx. repeat (destruct Hx as [Hx|Hx]; [discriminate Hx|]). exact Hx.
    + exists c, w. auto.
  - destruct t; try discriminate Hk; cbn in Hk; injection Hk as <-; cbn in Hin;
      try (exfalso; repeat (destruct Hin as [Hin|Hin]; [discriminate Hin|]); exact Hin); cbn [token_text].
    all: try (exists 69, (lit "vent"); split; [reflexivity|]; split; [reflexivity|]; repeat constructor).
    all: inversion Hat as [w t r' Hx|s' w t Hx|ds r' Hne Hd| | | | | | | | |c w r' Hc Hw|]; subst.
    all: try (exfalso; clear -Hx; cbn in Hx; repeat (destruct Hx as [Hx|Hx]; [discriminate Hx|]); exact Hx).
    + exists 66, (lit "yStr" ++ ds). split; [reflexivity|]. split; [reflexivity|]. apply Forall_app. split; [repeat constructor|].
      revert Hd. apply Forall_impl. intros c Hc. unfold is_word. rewrite Hc, !Bool.orb_true_r. reflexivity.
    + exists c, w. auto.
Qed.

Lemma named_shape U text items K (P : str -> Prop) ns : lex U text = (items, LEof) -> named K items ns ->
  (forall i, In i items -> kinded K i -> P (tok_str i)) -> Forall P ns.
Proof.
  intros E (is & -> & S & F) HP. apply Forall_map. rewrite Forall_forall in *. intros i Hi. apply HP; [exact (sub_in _ _ _ S Hi)|apply F, Hi].
Qed.

(** All names of the result occur in the input, in source order, without overlap. *)
Theorem C38_names_in_order : forall U debug text c,
  from_str U debug text = RValue c -> in_order (names_of c) text.
Proof.
  intros U debug text c H. destruct (ok_parts _ _ _ _ H) as (items & p & El & _ & Hd & _ & He).
  destruct (program_named items p Hd) as ((is & Ei & S & F) & _). destruct (emit_ok debug p c He) as (H1 & H2 & H3 & H4).
  assert (En : names_of c = declared_names (contract_of p)).
  { unfold names_of, declared_names. rewrite H1. change (Forall2 reported_as (contract_param_decls (contract_of p)) (c_init_params c)) in H2.
    change (Forall2 reported_as (field_decls (contract_of p)) (c_fields c)) in H3.
    rewrite (reported_names _ _ H2), (reported_names _ _ H3). do 3 f_equal.
    change (Forall2 (fun d t => t_name t = fst d /\ Forall2 reported_as (snd d) (t_params t)) (transition_decls (contract_of p)) (c_transitions c)) in H4.
    clear -H4. induction H4 as [|d t ds ts [Hn Hp] _ IH]; cbn [flat_map]; [reflexivity|]. rewrite IH. unfold transition_names at 2.
    rewrite Hn, (reported_names _ _ Hp). reflexivity. }
  rewrite En, Ei. exact (lexed_in_order U text items is El S F).
Qed.
(** and have the shape of identifiers; names of contracts start with an
    upper-case letter, those of parameters and fields with a lower-case one. *)
Theorem C38_name_shapes : forall U debug text c,
  from_str U debug text = RValue c ->
  upper_name (c_name c)
  /\ Forall (fun f => lower_name (field_name f)) (c_init_params c)
  /\ Forall (fun f => lower_name (field_name f)) (c_fields c)
  /\ Forall (fun t => name (t_name t) /\ Forall (fun f => lower_name (field_name f)) (t_params t)) (c_transitions c).
Proof.
  intros U debug text c H. destruct (ok_parts _ _ _ _ H) as (items & p & El & _ & Hd & _ & He).
  destruct (program_named items p Hd) as (Ha & Hn & Hp & Hf & Ht). destruct (emit_ok debug p c He) as (H1 & H2 & H3 & H4).
  change (Forall2 reported_as (contract_param_decls (contract_of p)) (c_init_params c)) in H2.
  change (Forall2 reported_as (field_decls (contract_of p)) (c_fields c)) in H3.
  change (Forall2 (fun d t => t_name t = fst d /\ Forall2 reported_as (snd d) (t_params t)) (transition_decls (contract_of p)) (c_transitions c)) in H4.
  assert (HL : forall i, In i items -> kinded lower_kinds i -> lower_name (tok_str i)) by (intros i Hi; apply (kinded_shape U text items i El Hi)).
  assert (HU : forall i, In i items -> kinded type_kinds i -> upper_name (tok_str i)) by (intros i Hi; apply (kinded_shape U text items i El Hi)).
  assert (HA : forall i, In i items -> kinded name_kinds i -> name (tok_str i)).
  { intros i Hi (k & Hk & [Ek|Hin]); [left; apply (HL i Hi)|right; apply (HU i Hi)]; exists k; (split; [exact Hk|]); [left; exact Ek|exact Hin]. }
  assert (FN : forall ds fs, named lower_kinds items (map typed_name ds) -> Forall2 reported_as ds fs -> Forall (fun f => lower_name (field_name f)) fs).
  { intros ds fs HN HR. pose proof (named_shape U text items _ _ _ El HN HL) as G. rewrite <- (reported_names _ _ HR) in G. exact (proj1 (Forall_map field_name lower_name fs) G). }
  split; [|split; [|split]].
  - rewrite H1. pose proof (named_shape U text items _ _ _ El Hn HU) as G. inversion G. assumption.
  - exact (FN _ _ Hp H2).
  - exact (FN _ _ Hf H3).
  - pose proof (named_shape U text items _ _ _ El Ha HA) as G. unfold declared_names in G. rewrite !Forall_app in G.
    destruct G as (_ & _ & _ & G). clear -H4 Ht G FN. induction H4 as [|d t ds ts [En HR] H4 IH]; [constructor|].
    inversion Ht as [|? ? Hd Ht']; subst. cbn [flat_map] in G. apply Forall_app in G. destruct G as [G1 G2]. constructor; [|apply IH; assumption].
    split; [rewrite En; inversion G1; assumption|exact (FN _ _ Hd HR)].
Qed.

Example C38_witness : exists c,
  from_str U_none no_debug (lit "scilla_version 0 contract Hello (owner : ByStr20) field size : Uint32 = e transition Go (amount : Uint128) end") = RValue c
  /\ names_of c = [lit "Hello"; lit "owner"; lit "size"; lit "Go"; lit "amount"].
Proof. eexists. split; [vm_compute; reflexivity|reflexivity]. Qed.

(** ** C39: files *)

(** [is_text s]: [s] consists of Unicode scalar values; [utf8 s]: its encoding
    (Utf8.v).  A file that holds the encoding of a text is parsed like the text. *)
Theorem C39_parse_reads_the_file : forall U debug fs path text,
  is_text text -> fs path = Some (utf8 text) ->
  contract_parse U debug fs path = from_str U debug text.
Proof.
  intros U debug fs path text Ht Hf. unfold contract_parse. rewrite Hf.
  rewrite (proj2 (utf8_decode_iff (utf8 text) text) (conj Ht eq_refl)). reflexivity.
Qed.
(** It is an I/O error exactly if the file cannot be read or is not UTF-8. *)
Theorem C39_io_error_iff : forall U debug fs path,
  contract_parse U debug fs path = RError IoError
  <-> forall text, is_text text -> fs path <> Some (utf8 text).
Proof.
  intros U debug fs path. split.
  - intros H text Ht Hf. rewrite (C39_parse_reads_the_file U debug fs path text Ht Hf) in H. unfold from_str, emit_api in H.
    destruct (parse_str U Program text) as [p| | | |]; try discriminate. destruct (emit_program debug p); discriminate.
  - intro H. unfold contract_parse. destruct (fs path) as [bytes|] eqn:E; [|reflexivity].
    destruct (utf8_decode bytes) as [text|] eqn:Ed; [|reflexivity]. apply utf8_decode_iff in Ed. destruct Ed as [Ht <-].
    destruct (H text Ht eq_refl).
Qed.
(** Both cases together, without overlap: the text of a file is unique. *)
Theorem C39_text_is_unique : forall s s', is_text s -> is_text s' -> utf8 s = utf8 s' -> s = s'.
Proof.
  intros s s' H H' E. pose proof (proj2 (utf8_decode_iff (utf8 s) s) (conj H eq_refl)) as G.
  pose proof (proj2 (utf8_decode_iff (utf8 s) s') (conj H' (eq_sym E))) as G'. congruence.
Qed.
Theorem C39_only_this_file : forall U debug fs fs' path,
  fs path = fs' path -> contract_parse U debug fs path = contract_parse U debug fs' path.
Proof. intros U debug fs fs' path H. unfold contract_parse. rewrite H. reflexivity. Qed.
Example C39_witness : is_text [97; 233; 8364; 128512] /\ utf8 [97; 233; 8364; 128512] = [97; 195; 169; 226; 130; 172; 240; 159; 152; 128]
  /\ (forall s, is_text s -> utf8 s <> [192; 128]).
Proof.
  split; [repeat constructor; unfold scalar; lia|]. split; [reflexivity|]. intros s Hs E.
  pose proof (proj2 (utf8_decode_iff [192; 128] s) (conj Hs E)) as H. discriminate H.
Qed.

(** ** C40: a program starts with [scilla_version] *)
Lemma version_token U s : token_at U s TScillaVersion -> exists r, s = lit "scilla_version" ++ r /\ not_followed_by (word_char U) r.
Proof.
  intro H. inversion H as [w t r' Hx|s' w t Hx Hw| | | | | | | | | | |]; subst.
  - exfalso. clear -Hx. cbn in Hx. repeat (destruct Hx as [Hx|Hx]; [discriminate Hx|]). exact Hx.
  - assert (w = lit "scilla_version"). { clear -Hx. cbn in Hx. repeat (destruct Hx as [Hx|Hx]; [first [discriminate Hx|injection Hx as <-; reflexivity]|]). destruct Hx. }
    subst w. destruct Hw as (r & -> & _ & Hr). eauto.
Qed.
Lemma first_version U pos ln b pr s is : segmented U pos ln b pr s is LEof -> forall i r, is = i :: r -> item_token i = TScillaVersion ->
  exists g n rest, layout g n /\ s = g ++ lit "scilla_version" ++ rest /\ not_followed_by (word_char U) rest.
Proof.
  remember LEof as e eqn:Ee.
  induction 1 as [pos ln b pr|pos ln b pr s is e H IH|pos ln b pr c s is e Hws H10 H IH|pos ln b pr c s is e Hc H IH
    |pos ln b pr c Hc|pos ln b pr t x s is e Hat Hnb Hl H IH|pos ln b pr c s is e Hws Hoc Hnt Hnb H IH|pos ln b pr s Hbad];
    intros i r Ei Hi; try discriminate Ei.
  - destruct (IH Ee i r Ei Hi) as (g & n & rest & Hg & -> & Hn). exists (10 :: g), (n + 1), rest. split; [exact (lay_space 10 g n eq_refl Hg)|auto].
  - destruct (IH Ee i r Ei Hi) as (g & n & rest & Hg & -> & Hn). exists (c :: g), n, rest. split; [|auto].
    pose proof (lay_space c g n Hws Hg) as G. apply N.eqb_neq in H10. rewrite H10 in G. exact G.
  - destruct (IH Ee i r Ei Hi) as (g & n & rest & Hg & -> & Hn). exists (open_comment ++ c ++ close_comment ++ g), n, rest.
    split; [exact (lay_comment c g n Hc Hg)|]. split; [|exact Hn]. rewrite <- !app_assoc. reflexivity.
  - injection Ei as <- <-. cbn in Hi. subst t. destruct (version_token U _ Hat) as (rest & E & Hn). exists [], 0, rest. split; [constructor|]. split; [exact E|exact Hn].
  - injection Ei as <- <-. discriminate Hi.
Qed.
Theorem C40_accepted_starts_with_version : forall U debug text c,
  from_str U debug text = RValue c ->
  exists g n rest, layout g n /\ text = g ++ lit "scilla_version" ++ rest /\ not_followed_by (word_char U) rest.
Proof.
  intros U debug text c H. destruct (ok_parts _ _ _ _ H) as (items & p & El & _ & Hd & _).
  destruct (program_inv items p Hd) as (i0 & t1 & t2 & t3 & t4 & v & oi & ol & c0 & -> & Hk & _).
  apply lex_iff_segmented in El. apply (first_version U _ _ _ _ _ _ El i0 (t1 ++ t2 ++ t3 ++ t4) eq_refl).
  destruct (item_token i0); try discriminate Hk; reflexivity.
Qed.
(** Otherwise the error is reported at the very first token (or, without any
    token, at the end of the input). *)
Lemma program_start i r v : derives Program (i :: r) v -> item_token i = TScillaVersion.
Proof.
  intro H. destruct (program_inv _ v H) as (i0 & t1 & t2 & t3 & t4 & v' & oi & ol & c0 & E & Hk & _).
  injection E as <- _. destruct (item_token i); try discriminate Hk; reflexivity.
Qed.
Lemma parsed_derives U text v : parse_str U Program text = POk v -> exists w, derives Program w v.
Proof. unfold parse_str. destruct (lex U text) as [items e]. intro H. apply parse_sound in H. destruct H as [H _]. eauto. Qed.
Lemma program_exists : exists w v, derives Program w v.
Proof.
  assert (H : exists v, parse_str U_none Program (lit "scilla_version 0 contract C ()") = POk v) by (eexists; vm_compute; reflexivity).
  destruct H as (v & H). destruct (parsed_derives _ _ _ H) as (w & Hw). eauto.
Qed.
Theorem C40_no_version_is_an_error : forall U debug text items e i,
  lex U text = (i :: items, e) -> item_token i <> TScillaVersion ->
  from_str U debug text = RError (ParseErrorToken i).
Proof.
  intros U debug text items e i El Hi. unfold from_str, parse_str. rewrite El.
  assert (H : parse Program (i :: items) e = PErrToken i); [|rewrite H; reflexivity].
  apply parse_error_token_iff. exists [], items. split; [reflexivity|]. split; [exact program_exists|].
  intros (w & v & H). exact (Hi (program_start i w v H)).
Qed.
Theorem C40_empty_is_an_error : forall U debug text,
  lex U text = ([], LEof) -> from_str U debug text = RError ParseErrorEof.
Proof.
  intros U debug text El. unfold from_str, parse_str. rewrite El.
  assert (H : parse Program [] LEof = PErrEof); [|rewrite H; reflexivity].
  apply parse_error_eof_iff. split; [reflexivity|]. split; [exact program_exists|].
  intros v H. exact (derives_nonempty _ _ _ H eq_refl).
Qed.
(** The example of the README is not accepted. *)
Theorem C40_readme_refuted : forall U debug, exists i,
  from_str U debug (lit "contract HelloWorld") = RError (ParseErrorToken i) /\ item_token i = TContract.
Proof.
  intros U debug.
  assert (Hw : written U [TContract; TCustomIdentifier (lit "HelloWorld")] (lit "contract HelloWorld")).
  { apply (wr_tok U [] 0 TContract _ (lit " HelloWorld")); [constructor|apply wf_tokenb_sound; reflexivity|reflexivity|].
    apply (wr_tok U (lit " ") 0 (TCustomIdentifier (lit "HelloWorld")) [] []); [exact (lay_space 32 [] 0 eq_refl lay_nil)|apply wf_tokenb_sound; vm_compute; reflexivity|exact I|].
    apply wr_end. exists [], 0. split; [constructor|left; reflexivity]. }
  apply written_tokens in Hw. unfold tokens_of in Hw. destruct (lex U (lit "contract HelloWorld")) as [items e] eqn:El.
  destruct items as [|i items]; [discriminate|]. injection Hw as Hi _ _. exists i. split; [|exact Hi].
  apply (C40_no_version_is_an_error U debug _ items e); [exact El|]. rewrite Hi. discriminate.
Qed.
