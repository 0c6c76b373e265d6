(** Property C14: the positions in an AST. *)
From Verif Require Import Chars Lexer LexerProofs LexSpec LexFacts LexWritten PropLexer Ast Grammar Cfg Parser GrammarLink DerInv Marks Spans PropParse2.

(** [marks A v] (Marks.v) lists the positions of all nodes of the AST [v], in
    source order and nested like the nodes.  [spanned toks ms] (Spans.v): each
    node of [ms] is a phrase of consecutive tokens of [toks], its start is the
    start of the first of these tokens and its end the end of the last one; the
    phrases of siblings are disjoint and in order, and the nodes inside a node
    are spanned by its phrase. *)
Theorem C14_spans : forall A items e v, parse A items e = POk v -> spanned items (marks A v).
Proof. intros A items e v H. apply parse_sound in H. destruct H as [H _]. exact (derives_spanned A items v H). Qed.

(** The same in byte offsets: every node is non-empty, lies inside its parent,
    and starts after its previous sibling ends. *)
Inductive nested : N -> N -> list mark -> Prop :=
| ne_nil : forall lo hi, lo <= hi -> nested lo hi []
| ne_node : forall lo hi s e phrase inner ms,
    lo <= position s -> position s < position e ->
    nested (position s) (position e) inner -> nested (position e) hi ms ->
    nested lo hi (Mark s e phrase inner :: ms).

Inductive ordered : N -> list item -> N -> Prop :=
| or_nil : forall lo hi, lo <= hi -> ordered lo [] hi
| or_cons : forall lo hi i items, lo <= position (item_start i) -> position (item_start i) < position (item_end i) ->
    ordered (position (item_end i)) items hi -> ordered lo (i :: items) hi.
Lemma ordered_le lo items hi : ordered lo items hi -> lo <= hi.
Proof. induction 1; lia. Qed.
Lemma ordered_weaken lo lo' items hi : lo' <= lo -> ordered lo items hi -> ordered lo' items hi.
Proof. intros H Ho. destruct Ho; constructor; try assumption; lia. Qed.
Lemma ordered_split lo t1 : forall t2 hi, ordered lo (t1 ++ t2) hi -> t1 <> [] ->
  lo <= position (first_start t1) /\ position (first_start t1) < position (last_end t1)
  /\ ordered (position (first_start t1)) t1 (position (last_end t1)) /\ ordered (position (last_end t1)) t2 hi.
Proof.
  revert lo. induction t1 as [|i t1 IH]; intros lo t2 hi H Hne; [congruence|]. cbn [app] in H. inversion H as [|? ? ? ? H1 H2 H3]; subst.
  destruct t1 as [|j t1].
  - cbn [first_start last_end app] in *. repeat split; try assumption. constructor; [lia|exact H2|constructor; lia].
  - destruct (IH _ t2 hi H3 ltac:(discriminate)) as (G1 & G2 & G3 & G4).
    change (last_end (i :: j :: t1)) with (last_end (j :: t1)). cbn [first_start] in *. split; [exact H1|]. split; [lia|]. split; [|exact G4].
    constructor; [lia|exact H2|]. exact (ordered_weaken _ _ _ _ G1 G3).
Qed.
Lemma spanned_nested toks ms : spanned toks ms -> forall lo hi, ordered lo toks hi -> nested lo hi ms.
Proof.
  induction 1 as [t|i t ms _ IH|t r ph inner ms Hne Hp Hi IHi Hr IHr]; intros lo hi Ho.
  - constructor. exact (ordered_le _ _ _ Ho).
  - apply IH. inversion Ho; subst. eapply ordered_weaken; [|eassumption]. lia.
  - destruct (ordered_split lo t r hi Ho Hne) as (G1 & G2 & G3 & G4). constructor; [exact G1|exact G2|apply IHi, G3|apply IHr, G4].
Qed.
Lemma tiled_ordered pos ln items s rest : tiled pos ln items s rest -> (forall i, In i items -> item_token i <> TUnknown) ->
  ordered pos items (pos + byte_len s).
Proof.
  induction 1 as [pos ln s|pos ln g k a t b x items s rest Hg Hn Hne Ha Hla Hb Hlb Hl H IH
    |pos ln g k a c items s rest Hg Hws Ha Hla H IH]; intro Hk.
  - constructor. lia.
  - rewrite !byte_len_app. pose proof (byte_len_pos _ Hne). constructor; cbn [item_start item_end fst snd]; [lia|lia|].
    replace (pos + (byte_len g + (byte_len (token_text t) + (byte_len x + byte_len s)))) with (position b + byte_len x + byte_len s) by lia.
    eapply ordered_weaken; [|apply IH]; [lia|]. intros i Hi. apply Hk. right. exact Hi.
  - exfalso. exact (Hk (a, TUnknown, a) (or_introl eq_refl) eq_refl).
Qed.
Theorem C14_nested : forall U A text v, parse_str U A text = POk v -> nested 0 (byte_len text) (marks A v).
Proof.
  intros U A text v H. unfold parse_str in H. destruct (lex U text) as [items e] eqn:El. apply parse_sound in H. destruct H as [H ->].
  destruct (C04_input_is_tokens_and_layout U text items El) as (rest & Ht & _).
  apply (spanned_nested items _ (derives_spanned A items v H)). apply (tiled_ordered 0 0 items text rest Ht).
  intros i Hi E. pose proof (proj1 der_kinds (Nt A) items v H) as Hk. rewrite Forall_forall in Hk. apply (Hk i Hi). rewrite E. reflexivity.
Qed.

(** ** The two exceptions *)

(** The import list spans from its last [import] keyword to its end. *)
Definition is_import (i : item) : Prop := item_token i = TImport.
Lemma tni_no_import t w : derives TypeNameIdentifier t w -> Forall (fun i => ~ is_import i) t.
Proof.
  intro H. destruct (tni_inv t w H) as (i & -> & Hk & _). constructor; [|constructor]. unfold is_import. intro E. rewrite E in Hk.
  destruct Hk as [Hk|[Hk|Hk]]; discriminate.
Qed.
Lemma imported_no_import t w : derives ImportedName t w -> Forall (fun i => ~ is_import i) t.
Proof.
  intro H. apply derives_inv in H. destruct H as (q & vs & Hin & Hd & ->).
  destruct Hin as [<- |[<- |[]]]; cbn [p_rhs] in *; cbn in vs; inv_tuple; inv_rhs Hd; subst; rewrite !app_nil_r.
  - eapply tni_no_import; eassumption.
  - apply Forall_app. split; [eapply tni_no_import; eassumption|]. apply Forall_app. split; [|eapply tni_no_import; eassumption].
    inv_tms. subst. constructor; [|constructor]. unfold is_import. intro E. rewrite E in *. discriminate.
Qed.
Lemma last_end_app t1 t2 : t2 <> [] -> last_end (t1 ++ t2) = last_end t2.
Proof.
  intro Hne. induction t1 as [|i t1 IH]; [reflexivity|]. cbn [app]. destruct (t1 ++ t2) as [|j l] eqn:E; [apply app_eq_nil in E; destruct E; congruence|].
  change (last_end (i :: j :: l)) with (last_end (j :: l)). exact IH.
Qed.
Theorem C14_import_list : forall toks w, derives ImportDeclarations toks w ->
  exists before i names, toks = before ++ i :: names /\ is_import i /\ Forall (fun j => ~ is_import j) names
    /\ wm_start w = item_start i /\ wm_end w = last_end toks.
Proof.
  intros toks w H. apply derives_inv in H. destruct H as (q & vs & Hin & Hd & ->).
  destruct Hin as [<- |[<- |[]]]; cbn [p_rhs] in *; cbn in vs; inv_tuple; inv_rhs Hd; inv_tms; subst; rewrite !app_nil_r; cbn [p_act wm_start wm_end].
  - exists ts, i, ts3. split; [reflexivity|]. split; [destruct (item_token i) eqn:E; try discriminate; exact E|].
    split; [eapply imported_no_import; eassumption|]. split; reflexivity.
  - exists [], i, ts1. split; [reflexivity|]. split; [destruct (item_token i) eqn:E; try discriminate; exact E|].
    split; [|split; reflexivity]. destruct D1 as [D1 _]. clear -D1. revert ts1 D1. induction l as [|x l IH]; intros ts1 D1; apply list_inv in D1; [subst; constructor|].
    destruct D1 as (t1 & t2 & -> & H1 & H2). apply Forall_app. split; [eapply imported_no_import; eassumption|apply IH, H2].
Qed.
Theorem C14_imports_of_program : forall items p, derives Program items p ->
  match p with
  | mkProgram _ None _ _ => True
  | mkProgram _ (Some w) _ _ => exists before toks after, items = before ++ toks ++ after /\ derives ImportDeclarations toks w
  end.
Proof.
  intros items p H. destruct (program_inv items p H) as (i0 & t1 & t2 & t3 & t4 & v & oi & ol & c & -> & _ & _ & Hi & _ & _ & ->).
  destruct oi as [w|]; [|exact I]. exists ([i0] ++ t1), t2, (t3 ++ t4). split; [rewrite <- app_assoc; reflexivity|exact Hi].
Qed.
(** The kind of an address type: a special identifier with its own span, or a
    made-up word that spans the whole type. *)
Theorem C14_address_kind : forall toks w, derives AddressType toks w ->
  match node w with
  | mkAddressType _ kind _ =>
      (exists i, In i toks /\ item_token i = TSpecialIdentifier (node kind) /\ wm_start kind = item_start i /\ wm_end kind = item_end i)
      \/ (synthetic (node kind) = true /\ wm_start kind = first_start toks /\ wm_end kind = last_end toks)
  end.
Proof.
  intros toks w H. apply derives_inv in H. destruct H as (q & vs & Hin & Hd & ->).
  destruct Hin as [<- |[<- |[<- |[<- |[]]]]]; cbn [p_rhs] in *; cbn in vs; inv_tuple; inv_rhs Hd; cbn [p_act node];
    try (right; split; [reflexivity|split; reflexivity]).
  left. match goal with D : der_atom (Nt SpecialId) _ _ |- _ => apply derives_inv in D; rename D into DS end. destruct DS as (q & vs & Hin & Hd' & ->). destruct Hin as [<- |[]]. cbn [p_rhs] in *. cbn in vs. inv_tuple. inv_rhs Hd'.
  inv_tms. subst. cbn [p_act node]. match goal with K : kind_of (item_token ?j) = Some KSpecialIdentifier |- _ => exists j end.
  split; [rewrite !app_nil_r; apply in_or_app; right; right; left; reflexivity|]. split; [|split; reflexivity].
  unfold tok_str. match goal with K : kind_of (item_token ?j) = Some KSpecialIdentifier |- _ => destruct (item_token j); try discriminate K; reflexivity end.
Qed.
(** The import list really is an exception. *)
Theorem C14_import_span_refuted : exists v,
  parse_str U_none ImportDeclarations (lit "import A import B") = POk v
  /\ position (wm_start v) = 9 /\ position (wm_end v) = 17.
Proof. eexists. split; [vm_compute; reflexivity|split; reflexivity]. Qed.
Example C14_witness : exists v s e ph inner,
  parse_str U_none FullExpression (lit " fun ( x : Map A B ) => f x ") = POk v
  /\ marks FullExpression v = [Mark s e ph inner] /\ position s = 1 /\ position e = 27 /\ List.length inner = 3%nat.
Proof. do 5 eexists. split; [vm_compute; reflexivity|]. split; [reflexivity|repeat split]. Qed.
