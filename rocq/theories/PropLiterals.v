(** Property C77: literals are opaque. *)
From Verif Require Import Chars Lexer LexSpec LexerProofs LexSegment LexFacts Names Ast Types Grammar Cfg Parser GrammarLink Contract Emitter Erase EmitErase
  Print PropPrint EmitRange Rename RenameFix PropLexer PropParser PropParse2 PropLocal PropRange PropRename.
From Coq Require Import PeanoNat Lia.

(** ** Specification *)
(** Literals: strings, numbers, hexadecimal numbers, and the names of type variables. *)
Definition literal (t : token) : Prop :=
  match t with TStringLiteral _ | TNumber _ | THexNumber _ | TTemplateIdentifier _ => True | _ => False end.
(** The same token, or two literals of one sort. *)
Definition same_but_literal (t t' : token) : Prop := t = t' \/ (literal t /\ literal t' /\ kind_of t = kind_of t').

(** The same answer: the same contract, the same message, or a complaint about
    the token at the same place. *)
Definition same_but_positions (l l' : list item) (a a' : api contract) : Prop :=
  match a, a' with
  | RValue c, RValue c' => c = c'
  | RError (ParseErrorToken i), RError (ParseErrorToken i') => exists n, nth_error l n = Some i /\ nth_error l' n = Some i'
  | RError ParseErrorEof, RError ParseErrorEof => True
  | RError (ParseErrorEmit m), RError (ParseErrorEmit m') => m = m'
  | RPanic, RPanic => True
  | _, _ => False
  end.

(** ** Literals are recognised by their first character *)
Definition lit_head (t : token) : Prop :=
  match t with
  | TStringLiteral s => hd 0 s = 34
  | TNumber s | THexNumber s => is_digit (hd 0 s) = true \/ hd 0 s = 45
  | TTemplateIdentifier s => hd 0 s = 39
  | _ => True
  end.
Lemma head_at U s t : token_at U s t -> lit_head t.
Proof.
  assert (D : forall ds, ds <> [] -> all_digits ds -> is_digit (hd 0 ds) = true).
  { intros [|d ds] N H; [contradiction|]. inversion H; subst. assumption. }
  intros [w t0 r H _|s0 w t0 H _|ds r N H _|r _|x hs r _ _ _|ds r N H _ _|ds r N H _|b r _|b r _ _|c w r _ _ _ _|c w r _ _ _|c w r _ _ _ _ _|w r _ _ _];
    cbn [lit_head hd]; auto.
  - revert w t0 H. assert (E : Forall (fun p => lit_head (snd p)) punctuation) by (repeat constructor).
    rewrite Forall_forall in E. intros w t0 H. exact (E _ H).
  - revert w t0 H. assert (E : Forall (fun p => lit_head (snd p)) keyword_list) by (repeat constructor).
    rewrite Forall_forall in E. intros w t0 H. exact (E _ H).
Qed.
Lemma heads U pos ln b pr s is e : segmented U pos ln b pr s is e -> Forall lit_head (map item_token is).
Proof.
  induction 1; cbn [map]; try assumption; try constructor; try assumption; try exact I.
  cbn. eapply head_at; eassumption.
Qed.
Lemma heads_of U text : Forall lit_head (fst (tokens_of U text)).
Proof.
  destruct (segmented_exists U text 0 0 0 0) as (is & e & Hs & _). rewrite (segmented_tokens _ _ _ _ _ _ _ _ Hs). exact (heads _ _ _ _ _ _ _ _ Hs).
Qed.

(** The renaming that forgets them. *)
Definition unliteral (s : str) : str :=
  match s with
  | [] => []
  | c :: _ => if c =? 34 then lit """""" else if c =? 39 then lit "'A" else if is_digit c || (c =? 45) then lit "0" else s
  end.
Lemma unliteral_other c s : (c =? 34) = false -> (c =? 39) = false -> is_digit c = false -> (c =? 45) = false -> unliteral (c :: s) = c :: s.
Proof. intros H1 H2 H3 H4. cbn. rewrite H1, H2, H3, H4. reflexivity. Qed.
Lemma letter c : is_lower c = true \/ is_upper c = true -> (c =? 34) = false /\ (c =? 39) = false /\ is_digit c = false /\ (c =? 45) = false.
Proof.
  unfold is_lower, is_upper, is_digit, in_range. rewrite !andb_true_iff, !N.leb_le, andb_false_iff, !N.eqb_neq, !N.leb_gt. lia.
Qed.
Lemma unliteral_keeps : keeps_names unliteral.
Proof.
  assert (L : forall c s, is_lower c = true \/ is_upper c = true -> unliteral (c :: s) = c :: s).
  { intros c s H. apply letter in H. apply unliteral_other; tauto. }
  assert (K : forall w t, In (w, t) keyword_list \/ In (w, t) punctuation -> match t with TIdentifier _ | TCustomIdentifier _ | TByStrWithSize _ | TSpecialIdentifier _ => False | _ => True end).
  { assert (E : Forall (fun p => match snd p with TIdentifier _ | TCustomIdentifier _ | TByStrWithSize _ | TSpecialIdentifier _ => False | _ => True end) (keyword_list ++ punctuation))
      by (repeat constructor). rewrite Forall_forall in E. intros w t H. apply (E (w, t)), in_or_app, H. }
  constructor; try reflexivity; intros s H.
  - inversion H; subst; try (exfalso; eapply (K _ (TIdentifier s)); eauto); auto.
  - inversion H; subst; try (exfalso; eapply (K _ (TCustomIdentifier s)); eauto); auto.
  - inversion H; subst; try (exfalso; eapply (K _ (TByStrWithSize s)); eauto); reflexivity.
  - inversion H; subst; try (exfalso; eapply (K _ (TSpecialIdentifier s)); eauto); reflexivity.
Qed.
Lemma unliteral_same t t' : lit_head t -> lit_head t' -> same_but_literal t t' -> r_token unliteral t = r_token unliteral t'.
Proof.
  assert (S : forall s, hd 0 s = 34 -> unliteral s = lit """""") by (intros [|c s] H; [discriminate|]; cbn in H; subst; reflexivity).
  assert (T : forall s, hd 0 s = 39 -> unliteral s = lit "'A") by (intros [|c s] H; [discriminate|]; cbn in H; subst; reflexivity).
  assert (D : forall s, is_digit (hd 0 s) = true \/ hd 0 s = 45 -> unliteral s = lit "0").
  { intros [|c s] H; [cbn in H; destruct H; discriminate|]. cbn in H. unfold unliteral.
    assert (Hc : (c =? 34) = false /\ (c =? 39) = false /\ is_digit c || (c =? 45) = true).
    { destruct H as [H| ->]; [|auto]. rewrite H. unfold is_digit, in_range in H. rewrite andb_true_iff, !N.leb_le in H. rewrite !N.eqb_neq. cbn. lia. }
    destruct Hc as (-> & -> & ->). reflexivity. }
  intros H H' [->|(L & L' & K)]; [reflexivity|].
  destruct t; try contradiction; destruct t'; try contradiction; try discriminate K; cbn [r_token lit_head] in *;
    rewrite ?(S _ H), ?(S _ H'), ?(T _ H), ?(T _ H'), ?(D _ H), ?(D _ H'); reflexivity.
Qed.
Lemma same_kind t t' : same_but_literal t t' -> kind_of t = kind_of t'.
Proof. intros [->|(_ & _ & K)]; auto. Qed.

(** ** Errors depend on the kinds *)
Lemma same_kinds_app u i w : forall l', kinds l' = kinds (u ++ i :: w) ->
  exists u' i' w', l' = u' ++ i' :: w' /\ kinds u' = kinds u /\ kind_of (item_token i') = kind_of (item_token i).
Proof.
  unfold kinds. induction u as [|j u IH]; intros [|j' l'] H; cbn [app map] in H; try discriminate; injection H as H1 H2.
  - exists [], j', l'. auto.
  - destruct (IH l' H2) as (u' & i' & w' & -> & Hu & Hi). exists (j' :: u'), i', w'. cbn [map]. rewrite H1, Hu. auto.
Qed.
Lemma error_by_kinds A l l' e i : kinds l' = kinds l -> parse A l e = PErrToken i ->
  exists n i', parse A l' e = PErrToken i' /\ nth_error l n = Some i /\ nth_error l' n = Some i'.
Proof.
  intros K E. apply parse_error_token_iff in E. destruct E as (u & w & -> & Hu & Hn).
  destruct (same_kinds_app u i w l' K) as (u' & i' & w' & -> & Ku & Ki). exists (List.length u), i'. split; [|split].
  - apply parse_error_token_iff. exists u', w'. split; [reflexivity|]. split; [exact (viable_same_kinds A u u' Hu Ku)|].
    intro Hv. apply Hn. apply (viable_same_kinds A _ _ Hv). unfold kinds in *. rewrite !map_app, Ku. cbn [map]. rewrite Ki. reflexivity.
  - rewrite nth_error_app2, Nat.sub_diag by lia. reflexivity.
  - apply (f_equal (@List.length _)) in Ku. unfold kinds in Ku. rewrite !map_length in Ku. rewrite <- Ku, nth_error_app2, Nat.sub_diag by lia. reflexivity.
Qed.

(** ** C77 *)
Theorem C77_literals_are_opaque : forall U U' debug text text',
  Forall2 same_but_literal (fst (tokens_of U text)) (fst (tokens_of U' text')) -> snd (tokens_of U text) = snd (tokens_of U' text') ->
  same_but_positions (fst (lex U text)) (fst (lex U' text')) (from_str U debug text) (from_str U' debug text').
Proof.
  intros U U' debug text text' Ht He. pose proof (heads_of U text) as H1. pose proof (heads_of U' text') as H2.
  assert (Wf : forall V s p, parse_str V Program s = POk p ->
    Forall okp (match p with mkProgram _ _ _ c => w_contract (node c) end)).
  { intros V s p Hp. assert (Hd : exists items, lex V s = (items, LEof) /\ derives Program items p).
    { unfold parse_str in Hp. destruct (lex V s) as [l e]. destruct (parse_sound _ _ _ _ Hp) as [Hd ->]. eauto. }
    destruct Hd as (items & El & Hd). pose proof (lex_wf V s items El (derived_known _ _ _ Hd)) as Hw.
    destruct (C41_ast_of_text V Program s p Hp) as (toks & Et & Hm & Hk).
    assert (toks = map item_token items) as -> by (unfold tokens_of in Et; rewrite El in Et; now injection Et as <-).
    apply matches_ok in Hm; [|apply Forall_map, Hw]. destruct p as [ver im lib con]. cbn [write w_program] in Hm.
    rewrite Forall_cons_iff, !Forall_app in Hm. apply Hm. }
  unfold tokens_of in *. pose proof (Wf U text) as W. pose proof (Wf U' text') as W'. unfold from_str, parse_str in *.
  destruct (lex U text) as [l e], (lex U' text') as [l' e']. cbn [fst snd] in *. subst e'.
  assert (E : map item_token (map (r_item unliteral) l) = map item_token (map (r_item unliteral) l')).
  { rewrite !map_map. clear - Ht H1 H2. revert l' Ht H2. induction l as [|i l IH]; intros [|i' l'] Ht H2; cbn [map] in *; inversion Ht; subst; [reflexivity|].
    inversion H1; subst. inversion H2; subst. f_equal; [|apply IH; assumption]. cbn. apply unliteral_same; assumption. }
  assert (K : kinds l' = kinds l).
  { unfold kinds. clear - Ht. revert l' Ht. induction l as [|i l IH]; intros [|i' l'] Ht; cbn [map] in *; inversion Ht; subst; [reflexivity|].
    f_equal; [symmetry; apply same_kind; assumption|apply IH; assumption]. }
  pose proof unliteral_keeps as R. pose proof (C15_positions_do_not_matter Program _ _ e E) as Ho.
  rewrite !(C61_parser unliteral Program _ e (keeps_none _ R) (keeps_contract_kind _ R) (keeps_library_kind _ R)) in Ho.
  destruct (parse Program l e) as [v|i| | |] eqn:Ev, (parse Program l' e) as [v'|i'| | |] eqn:Ev'; try contradiction; try exact I.
  - cbn in Ho. change (erase Program) with e_program in Ho. change (rename unliteral Program) with (r_program unliteral) in Ho.
    assert (Em : emit_program debug v = emit_program debug v').
    { rewrite <- (program_emit_fix unliteral R debug v (W v eq_refl)), <- (program_emit_fix unliteral R debug v' (W' v' eq_refl)).
      rewrite <- (emit_erase debug (r_program unliteral v)), Ho. apply emit_erase. }
    unfold emit_api. rewrite Em. pose proof (EmitInv.emit_no_fuel debug v') as NF. destruct (emit_program debug v'); cbn; auto.
  - destruct (error_by_kinds _ _ _ _ _ K Ev) as (n & i2 & E2 & N1 & N2). rewrite Ev' in E2. injection E2 as <-. cbn. eauto.
Qed.

(** In particular an accepted text stays accepted, with the same contract. *)
Corollary C77_accepted : forall U U' debug text text' c,
  Forall2 same_but_literal (fst (tokens_of U text)) (fst (tokens_of U' text')) -> snd (tokens_of U text) = snd (tokens_of U' text') ->
  from_str U debug text = RValue c -> from_str U' debug text' = RValue c.
Proof.
  intros U U' debug text text' c Ht He H. pose proof (C77_literals_are_opaque U U' debug text text' Ht He) as S. rewrite H in S.
  destruct (from_str U' debug text') as [c'|[]| |]; try contradiction. cbn in S. subst. reflexivity.
Qed.

(** ** The hypotheses are met *)
Definition lits_one : str :=
  lit "scilla_version 0 contract C (a : Uint32) field f : String = ""one"" field g : ByStr20 = 0x0102 transition t () x = Uint32 1; y = tfun 'A => z end".
Definition lits_two : str :=
  lit "scilla_version 99 contract C (a : Uint32) field f : String = ""something (* else"" field g : ByStr20 = 0xff transition t () x = Uint32 -7; y = tfun 'Other_1 => z end".
Example C77_witness : Forall2 same_but_literal (fst (tokens_of U_none lits_one)) (fst (tokens_of U_none lits_two))
  /\ snd (tokens_of U_none lits_one) = snd (tokens_of U_none lits_two)
  /\ fst (tokens_of U_none lits_one) <> fst (tokens_of U_none lits_two)
  /\ exists c, from_str U_none no_debug lits_one = RValue c /\ from_str U_none no_debug lits_two = RValue c /\ map field_name (c_fields c) = [lit "f"; lit "g"].
Proof.
  split; [|split; [vm_compute; reflexivity|split; [vm_compute; discriminate|eexists; split; [vm_compute; reflexivity|split; [vm_compute; reflexivity|reflexivity]]]]].
  match goal with |- Forall2 _ ?x ?y => set (a := x); set (b := y) end. vm_compute in a. vm_compute in b. subst a b.
  repeat (apply Forall2_cons; [first [left; reflexivity|right; repeat split]|]). apply Forall2_nil.
Qed.
(** Sizes in the names of types are not literals. *)
Theorem C77_sizes_refuted : exists text text' c c',
  Forall2 (fun t t' => kind_of t = kind_of t') (fst (tokens_of U_none text)) (fst (tokens_of U_none text'))
  /\ from_str U_none no_debug text = RValue c /\ from_str U_none no_debug text' = RValue c' /\ c <> c'.
Proof.
  exists (lit "scilla_version 0 contract C (a : ByStr2)"), (lit "scilla_version 0 contract C (a : ByStr3)"). eexists. eexists.
  split; [|split; [vm_compute; reflexivity|split; [vm_compute; reflexivity|discriminate]]].
  match goal with |- Forall2 _ ?x ?y => set (a := x); set (b := y) end. vm_compute in a. vm_compute in b. subst a b. repeat constructor.
Qed.
(** A literal of another sort makes a difference. *)
Theorem C77_sorts_refuted : exists text text' c i,
  Forall2 (fun t t' => t = t' \/ (literal t /\ literal t')) (fst (tokens_of U_none text)) (fst (tokens_of U_none text'))
  /\ from_str U_none no_debug text = RValue c /\ from_str U_none no_debug text' = RError (ParseErrorToken i).
Proof.
  exists (lit "scilla_version 0 contract C ()"), (lit "scilla_version ""0"" contract C ()"). eexists. eexists.
  split; [|split; vm_compute; reflexivity].
  match goal with |- Forall2 _ ?x ?y => set (a := x); set (b := y) end. vm_compute in a. vm_compute in b. subst a b.
  repeat (apply Forall2_cons; [first [left; reflexivity|right; repeat split]|]). apply Forall2_nil.
Qed.
