(** C43: the lexer in one relation.  C44: the expected tokens of a parse error.
    C45: the text of an error.  C46: [Display] of names. *)
From Verif Require Import Chars Lexer LexSpec LexFacts LexSegment LexWritten Ast Grammar Cfg Tables Parser GrammarLink
  LrProofs DerInv Erase EraseFacts Types Visitor Emitter Contract PropParser PropParse2 DebugText DebugFacts ErrorText
  ErrorFacts EmitErrs Spaced.

(** ** C43 *)
Theorem C43_lexer_is_segmentation : forall U text items e,
  lex U text = (items, e) <-> segmented U 0 0 0 0 text items e.
Proof. intros. apply lex_iff_segmented. Qed.

Theorem C43_one_segmentation : forall U text items e items' e',
  segmented U 0 0 0 0 text items e -> segmented U 0 0 0 0 text items' e' -> items = items' /\ e = e'.
Proof.
  intros U text items e items' e' H H'. apply lex_iff_segmented in H. apply lex_iff_segmented in H'.
  rewrite H in H'. injection H' as -> ->. auto.
Qed.

Theorem C43_always_segmented : forall U text, exists items e, segmented U 0 0 0 0 text items e.
Proof.
  intros U text. destruct (lex U text) as [items e] eqn:E. exists items, e. apply lex_iff_segmented, E.
Qed.

(** ** C44 *)

(** Whatever is listed is a correct next token where the offending token stands,
    whatever its text and position; the offending token's own kind is not listed. *)
Theorem C44_listed_tokens_fit : forall A items e i,
  parse A items e = PErrToken i ->
  exists u r, items = u ++ [i] ++ r /\ phrase_prefix A u /\ ~ phrase_prefix A (u ++ [i]) /\
    (forall j k, kind_of (item_token j) = Some k -> In k (expected A items e) -> phrase_prefix A (u ++ [j]))
    /\ (forall k, kind_of (item_token i) = Some k -> ~ In k (expected A items e)).
Proof.
  intros A items e i H. destruct (expected_token_sound A items e i H) as (u & r & E & Hu & Hn & Hs). exists u, r.
  split; [exact E|]. split; [exact Hu|]. split; [exact Hn|]. split; [intros j k Hk Hin; apply (Hs k j Hin Hk)|].
  intros k Hk Hin. exact (Hn (Hs k i Hin Hk)).
Qed.

Theorem C44_listed_tokens_continue : forall A items e,
  parse A items e = PErrEof ->
  forall j k, kind_of (item_token j) = Some k -> In k (expected A items e) -> phrase_prefix A (items ++ [j]).
Proof. intros A items e H j k Hk Hin. exact (expected_eof_sound A items e H k j Hin Hk). Qed.

(** At a character that is no token the list is also complete. *)
Theorem C44_complete_at_unknown : forall A items e i,
  parse A items e = PErrToken i -> item_token i = TUnknown ->
  exists u r, items = u ++ [i] ++ r /\
    forall j k, kind_of (item_token j) = Some k -> (In k (expected A items e) <-> phrase_prefix A (u ++ [j])).
Proof.
  intros A items e i H Hi. destruct (expected_token_sound A items e i H) as (u & r & E & Hu & Hn & Hs). exists u, r.
  split; [exact E|]. intros j k Hk. split; [intro Hin; apply (Hs k j Hin Hk)|].
  apply (expected_unknown_complete A items e i u r H); [rewrite Hi; reflexivity|exact E|exact Hu|exact Hk].
Qed.

(** ** C45 *)
Section Messages.
  Context (printable : char -> bool) (show_expected : list tk -> str) (U : unicode).
  Notation parse_text := (from_str U (debug_object printable)).
  Notation message := (error_message printable show_expected U).

  (** Every error has a message, nothing else has one. *)
  Theorem C45_errors_have_messages : forall text,
    (exists m, message text = Some m) <-> (exists e, parse_text text = RError e).
  Proof.
    intro text. unfold error_message. destruct (lex U text) as [items en] eqn:El. split.
    - intros (m & H). destruct (parse_text text) as [v|e| |]; try discriminate. eauto.
    - intros (e & H). destruct e as [i| |m|] eqn:Ee; rewrite H; eauto. exfalso.
      unfold from_str in H. destruct (parse_str U Program text); try discriminate. unfold emit_api in H.
      destruct (emit_program (debug_object printable) v); discriminate.
  Qed.

  (** The message of a syntax error: the token with the places where it starts
      and ends, and the expected tokens. *)
  Theorem C45_token_message : forall text i,
    parse_text text = RError (ParseErrorToken i) ->
    message text = Some (lit "Failed to parse the contract. UnrecognizedToken { token: (SourcePosition { position: "
      ++ dec (position (item_start i)) ++ lit ", line: " ++ dec (line (item_start i)) ++ lit ", column: " ++ dec (column (item_start i))
      ++ lit " }, " ++ debug_token printable (item_token i) ++ lit ", SourcePosition { position: "
      ++ dec (position (item_end i)) ++ lit ", line: " ++ dec (line (item_end i)) ++ lit ", column: " ++ dec (column (item_end i))
      ++ lit " }), expected: " ++ show_expected (let '(items, e) := lex U text in expected Program items e) ++ lit " }").
  Proof.
    intros text i H. unfold error_message. destruct (lex U text) as [items en]. rewrite H. unfold token_error_text, debug_item, debug_position.
    rewrite <- !app_assoc. reflexivity.
  Qed.

  (** The other messages. *)
  Theorem C45_eof_message : forall text,
    parse_text text = RError ParseErrorEof ->
    let last_end := last (map item_end (fst (lex U text))) (mkpos 0 0 0) in
    message text = Some (lit "Failed to parse the contract. UnrecognizedEof { location: SourcePosition { position: "
      ++ dec (position last_end) ++ lit ", line: " ++ dec (line last_end) ++ lit ", column: " ++ dec (column last_end)
      ++ lit " }, expected: " ++ show_expected (let '(items, e) := lex U text in expected Program items e) ++ lit " }").
  Proof.
    intros text H. unfold error_message. destruct (lex U text) as [items en] eqn:El. rewrite H. unfold eof_error_text, debug_position, last_location.
    cbn [fst]. rewrite <- !app_assoc. reflexivity.
  Qed.

  Theorem C45_emit_message : forall text m,
    parse_text text = RError (ParseErrorEmit m) ->
    message text = Some (lit "Failed to parse the contract. " ++ m)
    /\ exists what found, m = lit "Expected " ++ what ++ lit ", but found " ++ found ++ lit "."
        /\ In what [lit "symbol name"; lit "variable declaration"; lit "type definition"]
        /\ (found = lit "nothing" \/ exists o, found = debug_object printable o).
  Proof.
    intros text m H. split.
    - unfold error_message. destruct (lex U text) as [items en]. rewrite H. reflexivity.
    - unfold from_str in H. destruct (parse_str U Program text); try discriminate. unfold emit_api in H.
      destruct (emit_program (debug_object printable) v) as [c|m'| |] eqn:Ee; try discriminate. injection H as ->.
      exact (emit_messages _ _ _ Ee).
  Qed.

  Lemma some_inj {X} (a b : X) : Some a = Some b -> a = b.
  Proof. congruence. Qed.

  (** Two texts with the same message fail in the same way, at the same place. *)
  Theorem C45_message_identifies_error : forall text text' m,
    message text = Some m -> message text' = Some m ->
    parse_text text = parse_text text'
    /\ (parse_text text = RError ParseErrorEof ->
        last (map item_end (fst (lex U text))) (mkpos 0 0 0) = last (map item_end (fst (lex U text'))) (mkpos 0 0 0)).
  Proof.
    intros text text' m. unfold error_message.
    destruct (lex U text) as [items en] eqn:El, (lex U text') as [items' en'] eqn:El'. cbn [fst].
    destruct (parse_text text) as [v|[i| |x|]| |] eqn:E; try discriminate;
      destruct (parse_text text') as [v'|[i'| |x'|]| |] eqn:E'; try discriminate;
      intros H0 H; rewrite <- H0 in H; clear H0; apply some_inj, app_inv_head in H; try (apply C45_emit_message in E; destruct E as (_ & w & f & E & _));
      try (apply C45_emit_message in E'; destruct E' as (_ & w' & f' & E' & _)); subst.
    - unfold token_error_text in H. apply app_inv_head in H. apply item_code in H. destruct H as [-> _]. split; [reflexivity|discriminate].
    - discriminate H.
    - discriminate H.
    - discriminate H.
    - unfold eof_error_text in H. apply app_inv_head in H. apply position_code in H. destruct H as [H _]. split; [reflexivity|].
      intros _. symmetry. exact H.
    - discriminate H.
    - discriminate H.
    - discriminate H.
    - rewrite H. split; [reflexivity|discriminate].
  Qed.
End Messages.

(** ** C46 *)

(** The text of a list of tokens, without any layout. *)
Definition text_of (items : list item) : str := flat_map (fun i => token_text (item_token i)) items.

Theorem C46_type_name_display : forall items w, derives TypeNameIdentifier items w ->
  type_name_identifier_display (node w) = text_of items.
Proof.
  intros items w H. destruct (tni_inv _ _ H) as (i & -> & _ & ->). unfold text_of. cbn. rewrite app_nil_r. reflexivity.
Qed.

(** A name: one word, or two with a dot between them. *)
Definition word_kind (t : token) : bool :=
  match t with
  | TCustomIdentifier _ | TByStrWithSize _ | TEventType | THexNumber _ | TIdentifier _ | TSpecialIdentifier _ | TByStr => true
  | _ => false
  end.
Definition dotted (items : list item) : Prop :=
  (exists i, items = [i] /\ word_kind (item_token i) = true)
  \/ (exists i d j, items = [i; d; j] /\ word_kind (item_token i) = true /\ item_token d = TDot /\ word_kind (item_token j) = true).

Lemma kind_word i k : kind_of (item_token i) = Some k ->
  In k [KCustomIdentifier; KByStrWithSize; KEventType; KHexNumber; KIdentifier; KSpecialIdentifier; KByStr] ->
  word_kind (item_token i) = true.
Proof. destruct (item_token i); cbn; intros [= <-]; cbn; intuition discriminate. Qed.
Lemma kind_dot d : kind_of (item_token d) = Some KDot -> item_token d = TDot.
Proof. destruct (item_token d); cbn; intros [=]; reflexivity. Qed.
Lemma kind_bystr d : kind_of (item_token d) = Some KByStr -> item_token d = TByStr.
Proof. destruct (item_token d); cbn; intros [=]; reflexivity. Qed.

Lemma tni_name items w : derives TypeNameIdentifier items w ->
  exists i, items = [i] /\ word_kind (item_token i) = true /\ type_name_identifier_display (node w) = token_text (item_token i).
Proof.
  intro H. destruct (tni_inv _ _ H) as (i & -> & Hk & E). exists i. split; [reflexivity|]. split; [|exact E].
  destruct Hk as [Hk|[Hk|Hk]]; (eapply kind_word; [exact Hk|cbn; tauto]).
Qed.
Lemma regular_name items w : derives RegularId items w ->
  exists i, items = [i] /\ word_kind (item_token i) = true /\ node w = token_text (item_token i).
Proof.
  intro H. destruct (regular_inv _ _ H) as (i & -> & Hk & E). exists i. split; [reflexivity|]. split; [|exact E].
  eapply kind_word; [exact Hk|cbn; tauto].
Qed.
Lemma special_name items w : derives SpecialId items w ->
  exists i, items = [i] /\ word_kind (item_token i) = true /\ node w = token_text (item_token i).
Proof.
  intro H. apply derives_inv in H. destruct H as (q & vs & Hin & Hd & ->).
  destruct Hin as [<- |[]]. cbn [p_rhs] in *. cbn in vs. inv_tuple. inv_rhs Hd. inv_tms. subst. eexists. split; [reflexivity|].
  split; [eapply kind_word; [eassumption|cbn; tauto]|reflexivity].
Qed.
Lemma hex_name items w : derives HexNumber items w ->
  exists i, items = [i] /\ word_kind (item_token i) = true /\ node w = token_text (item_token i).
Proof.
  intro H. apply derives_inv in H. destruct H as (q & vs & Hin & Hd & ->).
  destruct Hin as [<- |[]]. cbn [p_rhs] in *. cbn in vs. inv_tuple. inv_rhs Hd. inv_tms. subst. eexists. split; [reflexivity|].
  split; [eapply kind_word; [eassumption|cbn; tauto]|reflexivity].
Qed.

Lemma one_name i : word_kind (item_token i) = true -> dotted [i].
Proof. left. eauto. Qed.
Lemma two_names i d j : word_kind (item_token i) = true -> kind_of (item_token d) = Some KDot ->
  word_kind (item_token j) = true ->
  dotted [i; d; j] /\ token_text (item_token i) ++ lit "." ++ token_text (item_token j) = text_of [i; d; j].
Proof.
  intros Hi Hd Hj. apply kind_dot in Hd. split; [right; eauto 8|]. unfold text_of. cbn [flat_map]. rewrite Hd, app_nil_r. reflexivity.
Qed.
Lemma text_one i : text_of [i] = token_text (item_token i).
Proof. apply app_nil_r. Qed.

Lemma meta_name items w : derives MetaIdentifier items w ->
  dotted items /\ meta_identifier_display (node w) = text_of items.
Proof.
  intro H. apply derives_inv in H. destruct H as (q & vs & Hin & Hd & ->).
  destruct Hin as [<- |[<- |[<- |[<- |[]]]]]; cbn [p_rhs] in *; cbn in vs; inv_tuple; inv_rhs Hd; inv_tms; subst;
    cbn [p_act node meta_identifier_display].
  - destruct (tni_name _ _ D) as (i & -> & Hi & ->). cbn [app]. rewrite text_one. split; [apply one_name, Hi|reflexivity].
  - destruct (tni_name _ _ D) as (i1 & -> & Hi & ->). destruct (tni_name _ _ D0) as (j & -> & Hj & ->).
    cbn [app]. apply two_names; assumption.
  - destruct (hex_name _ _ D) as (i1 & -> & Hi & ->). destruct (tni_name _ _ D0) as (j & -> & Hj & ->).
    cbn [app]. apply two_names; assumption.
  - cbn [app]. rewrite text_one. apply kind_bystr in Hk. rewrite Hk. split; [|reflexivity]. apply one_name. rewrite Hk. reflexivity.
Qed.
Lemma variable_name items w : derives VariableIdentifier items w ->
  dotted items /\ variable_identifier_display (node w) = text_of items.
Proof.
  intro H. apply derives_inv in H. destruct H as (q & vs & Hin & Hd & ->).
  destruct Hin as [<- |[<- |[<- |[]]]]; cbn [p_rhs] in *; cbn in vs; inv_tuple; inv_rhs Hd; inv_tms; subst;
    cbn [p_act node variable_identifier_display].
  - destruct (regular_name _ _ D) as (i & -> & Hi & ->). cbn [app]. rewrite text_one. split; [apply one_name, Hi|reflexivity].
  - destruct (special_name _ _ D) as (i & -> & Hi & ->). cbn [app]. rewrite text_one. split; [apply one_name, Hi|reflexivity].
  - destruct (tni_name _ _ D) as (i1 & -> & Hi & ->). destruct (regular_name _ _ D0) as (j & -> & Hj & ->).
    cbn [app]. apply two_names; assumption.
Qed.

Theorem C46_meta_display : forall items w, derives MetaIdentifier items w ->
  meta_identifier_display (node w) = text_of items.
Proof. intros items w H. apply meta_name, H. Qed.
Theorem C46_variable_display : forall items w, derives VariableIdentifier items w ->
  variable_identifier_display (node w) = text_of items.
Proof. intros items w H. apply variable_name, H. Qed.

(** Names that can be written down are read back from their [Display]. *)
Lemma dotted_written U items : dotted items -> Forall wf_token (map item_token items) ->
  written U (map item_token items) (text_of items).
Proof.
  assert (Hf : forall t r, word_kind t = true -> not_followed_by (word_char U) r -> may_follow U t r)
    by (intros [] r; try discriminate; intros _ H; exact H).
  intros [(i & -> & Hi)|(i & d & j & -> & Hi & Hd & Hj)] Hw; cbn [map] in *.
  - inversion Hw; subst. unfold text_of. cbn [flat_map].
    apply (wr_tok U [] 0); [constructor|assumption|apply Hf; [exact Hi|exact I]|]. constructor. exists [], 0. split; [constructor|left; reflexivity].
  - inversion Hw as [|? ? W1 Hw1]; subst. inversion Hw1 as [|? ? W2 Hw2]; subst. inversion Hw2 as [|? ? W3 _]; subst.
    unfold text_of. cbn [flat_map]. rewrite Hd.
    apply (wr_tok U [] 0); [constructor|assumption|apply Hf; [exact Hi|reflexivity]|].
    apply (wr_tok U [] 0 TDot); [constructor|rewrite <- Hd; assumption|exact I|].
    apply (wr_tok U [] 0); [constructor|assumption|apply Hf; [exact Hj|exact I]|]. constructor. exists [], 0. split; [constructor|left; reflexivity].
Qed.

Lemma reread U A items v : derives A items v -> dotted items -> Forall wf_token (map item_token items) ->
  exists v', parse_str U A (text_of items) = POk v' /\ erase A v' = erase A v.
Proof.
  intros Hd Hn Hw. pose proof (written_tokens U _ _ (dotted_written U _ Hn Hw)) as Ht. unfold tokens_of in Ht.
  unfold parse_str. destruct (lex U (text_of items)) as [items' e]. injection Ht as Hi ->.
  destruct (derives_tokens A items items' v (eq_sym Hi) Hd) as (v' & Hd' & He). exists v'. split; [|exact He].
  apply parse_complete, Hd'.
Qed.

Theorem C46_display_is_read_back : forall U items,
  Forall wf_token (map item_token items) ->
  (forall v, derives TypeNameIdentifier items v ->
     exists v', parse_str U TypeNameIdentifier (type_name_identifier_display (node v)) = POk v'
                /\ erase TypeNameIdentifier v' = erase TypeNameIdentifier v)
  /\ (forall v, derives MetaIdentifier items v ->
     exists v', parse_str U MetaIdentifier (meta_identifier_display (node v)) = POk v'
                /\ erase MetaIdentifier v' = erase MetaIdentifier v)
  /\ (forall v, derives VariableIdentifier items v ->
     exists v', parse_str U VariableIdentifier (variable_identifier_display (node v)) = POk v'
                /\ erase VariableIdentifier v' = erase VariableIdentifier v).
Proof.
  intros U items Hw. split; [|split]; intros v H.
  - rewrite (C46_type_name_display _ _ H). apply reread; [exact H| |exact Hw].
    destruct (tni_name _ _ H) as (i & -> & Hi & _). apply one_name, Hi.
  - rewrite (C46_meta_display _ _ H). apply reread; [exact H|apply (meta_name _ _ H)|exact Hw].
  - rewrite (C46_variable_display _ _ H). apply reread; [exact H|apply (variable_name _ _ H)|exact Hw].
Qed.

(** ** The hypotheses are met *)
Example C43_witness : exists items, lex U_none (lit "ByStrA 0x123 (* c *)?") = (items, LEof)
  /\ map item_token items = [TByStr; TCustomIdentifier (lit "A"); THexNumber (lit "0x12"); TNumber (lit "3"); TUnknown].
Proof. eexists. split; vm_compute; reflexivity. Qed.

Definition bad_field := lit "scilla_version 0 contract C () field x : Int32 ?".
Example C44_witness : exists items i, lex U_none bad_field = (items, LEof) /\ item_token i = TUnknown
  /\ parse Program items LEof = PErrToken i /\ In KEquals (expected Program items LEof)
  /\ ~ In KField (expected Program items LEof).
Proof.
  eexists. eexists. split; [vm_compute; reflexivity|]. split; [|split; [vm_compute; reflexivity|]]; [reflexivity|].
  split; vm_compute; intuition discriminate.
Qed.
Example C44_witness_eof : exists items, lex U_none (lit "scilla_version 0 contract C (x :") = (items, LEof)
  /\ parse Program items LEof = PErrEof /\ In KMap (expected Program items LEof) /\ ~ In KComma (expected Program items LEof).
Proof. eexists. split; [vm_compute; reflexivity|]. split; [vm_compute; reflexivity|]. split; vm_compute; intuition discriminate. Qed.

(** The list is not complete at the end of the text, or at a token: the generated
    parser has then already decided that the expression before it is finished.
    (An argument [k] could follow.) *)
Definition in_match (more : str) : str := lit "scilla_version 0 contract C () field f : Int32 = match x with | y => g z" ++ more.
Theorem C44_complete_at_eof_refuted : exists items j k, lex U_none (in_match []) = (items, LEof) /\ parse Program items LEof = PErrEof
  /\ kind_of (item_token j) = Some k /\ phrase_prefix Program (items ++ [j]) /\ ~ In k (expected Program items LEof).
Proof.
  eexists. exists (mkpos 0 0 0, TIdentifier (lit "k"), mkpos 0 0 0), KIdentifier. split; [vm_compute; reflexivity|]. split; [vm_compute; reflexivity|].
  split; [reflexivity|]. split; [|vm_compute; intuition discriminate].
  assert (H : exists v, parse Program (fst (lex U_none (in_match [])) ++ [(mkpos 0 0 0, TIdentifier (lit "k"), mkpos 0 0 0)] ++ [(mkpos 0 0 0, TEnd, mkpos 0 0 0)]) LEof = POk v)
    by (eexists; vm_compute; reflexivity).
  destruct H as (v & H). apply parse_sound in H. destruct H as [H _]. eexists [_], v. rewrite app_assoc in H. exact H.
Qed.
Theorem C44_complete_at_token_refuted : exists items i u j k, lex U_none (in_match (lit " field")) = (items, LEof) /\ parse Program items LEof = PErrToken i
  /\ items = u ++ [i] /\ kind_of (item_token j) = Some k /\ phrase_prefix Program (u ++ [j]) /\ ~ In k (expected Program items LEof).
Proof.
  eexists _, _, (fst (lex U_none (in_match []))). exists (mkpos 0 0 0, TIdentifier (lit "k"), mkpos 0 0 0), KIdentifier.
  split; [vm_compute; reflexivity|]. split; [vm_compute; reflexivity|]. split; [vm_compute; reflexivity|].
  split; [reflexivity|]. split; [|vm_compute; intuition discriminate].
  assert (H : exists v, parse Program (fst (lex U_none (in_match [])) ++ [(mkpos 0 0 0, TIdentifier (lit "k"), mkpos 0 0 0)] ++ [(mkpos 0 0 0, TEnd, mkpos 0 0 0)]) LEof = POk v)
    by (eexists; vm_compute; reflexivity).
  destruct H as (v & H). apply parse_sound in H. destruct H as [H _]. eexists [_], v. rewrite app_assoc in H. exact H.
Qed.

Definition show_none : list tk -> str := fun _ => lit "[]".
Example C45_witness : error_message all_printable show_none U_none (lit "scilla_version 0" ++ [10] ++ lit "contract ""C""")
  = Some (lit "Failed to parse the contract. UnrecognizedToken { token: (SourcePosition { position: 26, line: 1, column: 9 }, StringLiteral(""\""C\""""), SourcePosition { position: 29, line: 1, column: 12 }), expected: [] }").
Proof. vm_compute. reflexivity. Qed.
Example C45_witness_emit : error_message all_printable show_none U_none
    (lit "scilla_version 0 contract C (a : Int32) field f : Event = e")
  = Some (lit "Failed to parse the contract. Expected symbol name, but found VariableDeclaration(Field { name: ""a"", type: Int32 }).").
Proof. vm_compute. reflexivity. Qed.
Example C46_witness : exists items v, lex U_none (lit "Lib (* x *) . T") = (items, LEof)
  /\ parse MetaIdentifier items LEof = POk v /\ Forall wf_token (map item_token items)
  /\ meta_identifier_display (node v) = lit "Lib.T".
Proof.
  eexists. eexists. split; [vm_compute; reflexivity|]. split; [vm_compute; reflexivity|].
  split; [|reflexivity]. apply wf_tokensb. reflexivity.
Qed.
