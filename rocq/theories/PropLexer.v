(** Properties C01-C10: the lexer. *)
From Verif Require Import Chars Lexer LexSpec LexerProofs LexStep LexSegment LexFacts LexWritten.

(** ** C01: termination, progress, fusedness *)

(** Lexer states reachable from [Lexer::new(input)] by calls of [next]. *)
Inductive reachable (U : unicode) (input : str) : lexer -> Prop :=
| re_new : reachable U input (lexer_new input)
| re_next : forall l i l', reachable U input l -> next U l = NItem i l' -> reachable U input l'
| re_end : forall l l', reachable U input l -> next U l = NEnd l' -> reachable U input l'.

Lemma next_end_chars U : forall g l l', next_fuel U g l = NEnd l' -> lx_chars l' = [].
Proof.
  induction g as [|g IH]; intros l l'; cbn [next_fuel]; [discriminate|].
  destruct (step U l) as [|l1|i l1|] eqn:E; try discriminate; [|apply IH].
  intros [= <-]. unfold step in E. destruct (lx_chars l); [reflexivity|].
  exfalso. revert E. unfold emit_tok, word_step.
  repeat match goal with |- context [if ?b then _ else _] => destruct b
    | |- context [match ?x with Some _ => _ | None => _ end] => destruct x
    | |- context [let '(_, _) := ?x in _] => destruct x end; try discriminate;
    unfold emit_tok; repeat match goal with |- context [match ?x with Some _ => _ | None => _ end] => destruct x
    | |- context [let '(_, _) := ?x in _] => destruct x end; discriminate.
Qed.

Lemma reachable_good U input l : reachable U input l ->
  (exists b, good l b) \/ lx_chars l = [].
Proof.
  induction 1 as [|l i l' H IH E|l l' H IH E].
  - left. exists 0. unfold good; cbn; lia.
  - destruct IH as [(b & Hg)|Hn].
    + destruct l as [s pos ln chr la]. unfold next in E. cbn [lx_chars] in E.
      pose proof (next_segmented U _ s _ pos ln chr la b (le_n _) (le_n _) Hg) as P. rewrite E in P.
      destruct P as (b' & G & _). left. eauto.
    + exfalso. destruct l as [s pos ln chr la]. cbn in Hn. subst s. cbn in E. discriminate.
  - right. eapply next_end_chars, E.
Qed.

(** Each call of [next] terminates; an item consumes at least one character;
    once the end is reported it is reported for ever. *)
Theorem C01_next_progress : forall U input l, reachable U input l ->
  match next U l with
  | NItem _ l' => (List.length (lx_chars l') < List.length (lx_chars l))%nat
  | NEnd l' => next U l' = NEnd l'
  | NPanic => True
  | NFuel => False
  end.
Proof.
  intros U input l Hr. destruct (reachable_good U input l Hr) as [(b & Hg)|Hn].
  - destruct l as [s pos ln chr la]. unfold next. cbn [lx_chars].
    pose proof (next_segmented U _ s (S (List.length s)) pos ln chr la b (le_n _) (le_n _) Hg) as P.
    destruct (next_fuel U (S (List.length s)) (mklx s pos ln chr la)) as [l'|i l'| |].
    + destruct P as [_ P]. destruct l'; cbn in P; subst. reflexivity.
    + destruct P as (b' & _ & P & _). exact P.
    + exact I.
    + exact P.
  - destruct l as [s pos ln chr la]. cbn in Hn. subst s. cbn. reflexivity.
Qed.

(** Lexing a whole input ends, by the end of input or a panic, after at most as
    many items as the input has characters. *)
Theorem C01_lexer_terminates : forall U input items e, lex U input = (items, e) ->
  (e = LEof \/ e = LPanic) /\ (List.length items <= List.length input)%nat.
Proof.
  intros U input items e E. destruct (lex_tiled _ _ _ _ E) as (rest & Ht & He). split.
  - destruct He as [[-> _]|[-> _]]; auto.
  - pose proof (tiled_count _ _ _ _ _ Ht). lia.
Qed.

Example C01_witness : exists items, lex U_none (lit "contract C () (* x *) ?") = (items, LEof)
  /\ List.length items = 5%nat.
Proof. eexists. split; vm_compute; reflexivity. Qed.

(** ** C02: spans *)
Definition boundary (input : str) (k : N) : Prop := exists p q, input = p ++ q /\ byte_len p = k.

Theorem C02_span_in_bounds : forall U input items e i, lex U input = (items, e) -> In i items ->
  position (item_start i) <= position (item_end i) /\ position (item_end i) <= byte_len input
  /\ position (item_start i) < byte_len input
  /\ boundary input (position (item_start i)) /\ boundary input (position (item_end i))
  /\ line (item_start i) = line (item_end i).
Proof.
  intros U input items e i E Hi.
  destruct (lex_item_at _ _ _ _ _ E Hi) as (p & s & ln & b & pr & Hv & _ & (c & s' & Es & _) & _ & H).
  apply visited_input in Hv. subst input.
  assert (Hpos : 0 < byte_len s) by (subst s; apply byte_len_pos; discriminate).
  destruct H as [(t & x & r & _ & -> & _ & ->)|(_ & ->)]; cbn [item_start item_end fst snd position line].
  - rewrite !byte_len_app in *. repeat split; try lia.
    + exists p, (token_text t ++ x ++ r). auto.
    + exists (p ++ token_text t), (x ++ r). rewrite <- app_assoc, byte_len_app. auto.
  - rewrite !byte_len_app. repeat split; try lia; exists p, s; auto.
Qed.

Theorem C02_spans_ordered : forall U input items e m n a b, lex U input = (items, e) ->
  nth_error items m = Some a -> nth_error items n = Some b -> (m < n)%nat ->
  position (item_end a) <= position (item_start b)
  /\ position (item_start a) < position (item_start b).
Proof.
  intros U input items e m n a b E Ha Hb Hlt. destruct (lex_tiled _ _ _ _ E) as (rest & Ht & _).
  destruct (tiled_order _ _ _ _ _ Ht m n a b Ha Hb Hlt) as (H1 & H2 & _). auto.
Qed.

Example C02_witness : exists a b items,
  lex U_none (lit "a:=b") = (items, LEof) /\ nth_error items 0 = Some a /\ nth_error items 2 = Some b
  /\ position (item_end a) = 1 /\ position (item_start b) = 3.
Proof. do 3 eexists. split; [vm_compute; reflexivity|]. repeat split. Qed.

(** ** C03: the text of a token is the slice of its span *)
Lemma slice_from_app p s : slice_from (p ++ s) (byte_len p) = Some s.
Proof.
  induction p as [|c p IH]; cbn [app byte_len].
  - destruct s; reflexivity.
  - pose proof (len_utf8_pos c). cbn [slice_from].
    replace (len_utf8 c + byte_len p =? 0) with false by lia.
    replace (len_utf8 c <=? len_utf8 c + byte_len p) with true by lia.
    replace (len_utf8 c + byte_len p - len_utf8 c) with (byte_len p) by lia. exact IH.
Qed.

Theorem C03_token_text_is_slice : forall U input items e i, lex U input = (items, e) -> In i items ->
  (item_token i <> TUnknown ->
     slice input (position (item_start i)) (position (item_end i)) = Some (token_text (item_token i))
     /\ token_text (item_token i) <> [])
  /\ (item_token i = TUnknown -> item_start i = item_end i).
Proof.
  intros U input items e i E Hi.
  destruct (lex_item_at _ _ _ _ _ E Hi) as (p & s & ln & b & pr & Hv & _ & _ & _ & H).
  apply visited_input in Hv. subst input.
  destruct H as [(t & x & r & Hat & -> & _ & ->)|(_ & ->)]; cbn [item_start item_end item_token fst snd position].
  - split; [|intros ->; destruct (token_at_not_unknown _ _ _ Hat); reflexivity].
    intros _. split; [|eapply token_at_prefix, Hat].
    unfold slice. replace (byte_len p + byte_len (token_text t) <? byte_len p) with false by lia.
    rewrite slice_from_app. replace (byte_len p + byte_len (token_text t) - byte_len p) with (byte_len (token_text t)) by lia.
    apply slice_to_app.
  - split; [congruence|reflexivity].
Qed.

Example C03_witness : slice (lit "let x = 0xAb in") 8 12 = Some (lit "0xAb") /\
  exists i items, lex U_none (lit "let x = 0xAb in") = (items, LEof) /\ In i items
    /\ item_token i = THexNumber (lit "0xAb") /\ position (item_start i) = 8 /\ position (item_end i) = 12.
Proof.
  split; [reflexivity|]. do 2 eexists. split; [vm_compute; reflexivity|].
  split; [right; right; right; left; reflexivity|]. repeat split.
Qed.

(** ** C04: only layout is dropped *)

(** [covers input items]: [input] is the texts of [items], in order, with only
    white space and comments in front of and after each of them; an unknown
    token stands for one character. *)
Inductive covers : list item -> str -> Prop :=
| cv_end : forall g, final_layout g -> covers [] g
| cv_token : forall g n i items s, layout g n -> item_token i <> TUnknown ->
    covers items s -> covers (i :: items) (g ++ token_text (item_token i) ++ s)
| cv_unknown : forall g n i c items s, layout g n -> item_token i = TUnknown ->
    is_whitespace c = false -> covers items s -> covers (i :: items) (g ++ [c] ++ s).

(** Every input that lexes to its end is covered by its tokens and the layout,
    up to the characters lost after string literals (see [lost]) ... *)
Theorem C04_input_is_tokens_and_layout : forall U input items, lex U input = (items, LEof) ->
  exists rest, tiled 0 0 items input rest /\ final_layout rest.
Proof.
  intros U input items E. destruct (lex_tiled _ _ _ _ E) as (rest & Ht & [[_ H]|[H _]]); [eauto|discriminate].
Qed.

(** ... so nothing else is lost when the string literals are ASCII. *)
Theorem C04_only_layout_dropped : forall U input items, lex U input = (items, LEof) ->
  (forall i s, In i items -> item_token i = TStringLiteral s -> ascii_str s = true) ->
  covers items input.
Proof.
  intros U input items E Hs. destruct (C04_input_is_tokens_and_layout _ _ _ E) as (rest & Ht & Hf).
  clear E. revert Hs.
  induction Ht as [pos ln s|pos ln g k a t b x items s rest Hg Hn Hne Ha Hla Hb Hlb Hl H IH
    |pos ln g k a c items s rest Hg Hws Ha Hla H IH]; intro Hs.
  - constructor. exact Hf.
  - assert (x = []) as ->.
    { destruct t; cbn in Hl; auto. pose proof (Hs _ s0 (or_introl eq_refl) eq_refl) as Hasc.
      rewrite (byte_len_ascii _ Hasc) in Hl. destruct x; [reflexivity|]. cbn [List.length] in Hl.
      destruct Hl as [Hl|[Hl _]]; lia. }
    apply (cv_token g k (a, t, b)); auto. apply IH; [exact Hf|]. intros i y Hi. apply Hs. right; exact Hi.
  - apply (cv_unknown g k (a, TUnknown, a) c); auto. apply IH; [exact Hf|]. intros i y Hi. apply Hs. right; exact Hi.
Qed.

(** Without that condition the claim is false: after the literal "é" (one
    character longer in bytes than in characters) the X is swallowed. *)
Theorem C04_unconditional_refuted :
  exists input items, lex U_none input = (items, LEof) /\ ~ covers items input
    /\ input = [34; 233; 34; 88] /\ map item_token items = [TStringLiteral [34; 233; 34]].
Proof.
  eexists [34; 233; 34; 88], _. split; [vm_compute; reflexivity|]. split; [|split; reflexivity].
  assert (Hnl : forall g n r, layout g n -> g ++ r = [34; 233; 34; 88] -> g = []).
  { intros g n r H E. destruct H as [|c s n Hc H|c s n Hc H]; [reflexivity| |discriminate].
    injection E as -> _. discriminate. }
  intro H. inversion H as [|g n i items s Hg Hn Hc E1 E2|g n i c items s Hg Hn Hws Hc E1 E2]; subst.
  - rewrite (Hnl _ _ _ Hg E2) in E2. cbn in E2. injection E2 as E2. subst s.
    inversion Hc as [g' (g0 & n0 & Hl & E3) E4| |]; subst.
    assert (g0 = []) as ->.
    { assert (exists r, g0 ++ r = [88]) as (r & Er) by (destruct E3 as [E3|(c & _ & E3)]; rewrite E3; [exists []; apply app_nil_r|eauto]).
      destruct Hl as [|c s n0 Hc0 Hl|c s n0 Hc0 Hl]; [reflexivity| |discriminate].
      injection Er as -> _. discriminate. }
    destruct E3 as [E3|(c & _ & E3)]; discriminate.
  - discriminate.
Qed.

Example C04_witness : exists items,
  lex U_none (lit "field (* a *) x ""s""  (* open") = (items, LEof) /\ List.length items = 3%nat
  /\ covers items (lit "field (* a *) x ""s""  (* open").
Proof.
  eexists. split; [vm_compute; reflexivity|]. split; [reflexivity|].
  eapply (C04_only_layout_dropped U_none); [vm_compute; reflexivity|].
  intros i s Hi. repeat destruct Hi as [<-|Hi]; cbn; try discriminate; [|destruct Hi].
  intros [= <-]. reflexivity.
Qed.

(** ** C05: panics of the lexer *)
Theorem C05_ascii_never_panics : forall U input, ascii_str input = true ->
  exists items, lex U input = (items, LEof).
Proof.
  intros U input Ha. destruct (lex U input) as [items e] eqn:E. exists items.
  destruct (C01_lexer_terminates _ _ _ _ E) as [[->| ->] _]; [reflexivity|].
  exfalso. destruct (lex_panic_visited _ _ _ E) as (p & s & ln & b & pr & Hv & Hb).
  apply visited_input in Hv. destruct (bad_word_not_ascii _ _ Hb) as (w & r & -> & _ & Hw).
  subst input. rewrite !ascii_app, Hw, andb_false_r in Ha. discriminate.
Qed.

(** A panic happens exactly when the scan reaches a word (a maximal run of
    alphanumeric characters and underscores, not ending the input) whose number
    of characters is not a character boundary of it; the word then contains a
    multi-byte character. *)
Theorem C05_panic_iff_bad_word : forall U input,
  (exists items, lex U input = (items, LPanic)) <->
  (exists p s ln base prev, visited U input p s ln base prev /\ bad_word U s).
Proof.
  intros U input. split.
  - intros (items & E). eapply lex_panic_visited, E.
  - intros (p & s & ln & b & pr & Hv & Hb).
    assert (H : exists items, segmented U 0 0 0 0 input items LPanic); [|destruct H as (items & H); exists items; apply lex_iff_segmented, H].
    assert (G : exists items, segmented U (byte_len p) ln b pr s items LPanic) by (exists []; constructor; exact Hb).
    clear Hb. induction Hv as [|p s ln b pr Hv IH|p c s ln b pr Hv IH Hws H10|p c s ln b pr Hv IH Hc
      |p t x s ln b pr Hv IH Hat Hnb Hl|p c s ln b pr Hv IH Hws Hoc Hnt Hnb].
    + exact G.
    + apply IH. destruct G as (is & G). exists is. apply sg_newline.
      rewrite byte_len_app in G. exact G.
    + apply IH. destruct G as (is & G). exists is. apply sg_space; auto.
      rewrite byte_len_app in G. cbn [byte_len] in G. rewrite N.add_0_r in G. exact G.
    + apply IH. destruct G as (is & G). exists is. apply sg_comment; auto.
      rewrite (byte_len_app p) in G. exact G.
    + apply IH. destruct G as (is & G). eexists. apply sg_token; auto.
      rewrite (byte_len_app p) in G. exact G.
    + apply IH. destruct G as (is & G). eexists. apply sg_unknown; auto.
      rewrite byte_len_app in G. cbn [byte_len] in G. rewrite N.add_0_r in G. exact G.
Qed.

Theorem C05_bad_word_is_multibyte : forall U s, bad_word U s ->
  exists w r, s = w ++ r /\ word_at U s w /\ ascii_str w = false.
Proof. exact bad_word_not_ascii. Qed.

(** Panic-freedom on all strings is refuted: [aé ] panics (é is alphabetic). *)
Theorem C05_panic_freedom_refuted : exists input, lex U_latin input = ([], LPanic) /\ input = [97; 233; 32].
Proof. exists [97; 233; 32]. split; vm_compute; reflexivity. Qed.

(** ** C06: keywords are whole words *)

(** The item [i] starts at the head of [s] in [input]. *)
Definition starts_at (input : str) (i : item) (s : str) : Prop :=
  exists p, input = p ++ s /\ position (item_start i) = byte_len p.

Lemma starts_at_token U input items e i s : lex U input = (items, e) -> In i items ->
  starts_at input i s ->
  ~ bad_word U s /\ (token_at U s (item_token i) \/ (item_token i = TUnknown /\ forall t, ~ token_at U s t)).
Proof.
  intros E Hi (p & Ep & Hp).
  destruct (lex_item_at _ _ _ _ _ E Hi) as (p' & s' & ln & b & pr & Hv & Hnb & _ & _ & H).
  apply visited_input in Hv. rewrite Ep in Hv.
  assert (position (item_start i) = byte_len p') as Hpos by (destruct H as [(t & x & r & _ & _ & _ & ->)|(_ & ->)]; reflexivity).
  rewrite Hp in Hpos. pose proof (prefix_same_bytes p p' s s' Hv Hpos) as <-.
  apply app_inv_head in Hv. subst s'. split; [exact Hnb|].
  destruct H as [(t & x & r & Hat & _ & _ & ->)|(Hnt & ->)]; [left; exact Hat|right; auto].
Qed.

Theorem C06_keyword_iff_whole_word : forall U input items e i s w kw t,
  lex U input = (items, e) -> In i items -> starts_at input i s ->
  word_at U s w -> In (kw, t) keyword_list ->
  (item_token i = t <-> w = kw).
Proof.
  intros U input items e i s w kw t E Hi Hs Hw Hin.
  destruct (starts_at_token _ _ _ _ _ _ E Hi Hs) as (Hnb & H). split.
  - intros <-. destruct H as [Hat|(Hu & _)].
    + destruct Hat; try (exfalso; eapply keyword_not_plain; [eassumption|constructor]; fail).
      * exfalso. clear -H Hin.
        repeat (destruct Hin as [Hin|Hin];
          [injection Hin as <- <-; repeat (destruct H as [H|H]; [discriminate|]); destruct H|]). destruct Hin.
      * assert (kw = w0) as -> by (pose proof (keyword_props _ _ H) as (<- & _); pose proof (keyword_props _ _ Hin) as (<- & _); reflexivity).
        eapply word_at_fun; eassumption.
    + exfalso. rewrite Hu in Hin. repeat (destruct Hin as [Hin|Hin]; [discriminate|]). destruct Hin.
  - intros ->. assert (Ht : token_at U s t) by (eapply ta_keyword; eassumption).
    destruct H as [Hat|(_ & Hnt)]; [|destruct (Hnt _ Ht)].
    eapply token_at_unique; eassumption.
Qed.

(** A word that starts with a letter or an underscore (not a digit) and not
    with [ByStr] is never split: the token is the whole word. *)
Theorem C06_words_not_split : forall U input items e i s w,
  lex U input = (items, e) -> In i items -> starts_at input i s ->
  word_at U s w -> w <> [] -> all_word w ->
  (forall c r, w = c :: r -> is_digit c = false) -> (forall r, w <> lit "ByStr" ++ r) ->
  token_text (item_token i) = w.
Proof.
  intros U input items e i s w E Hi Hs Hw Hne Ha Hd Hbs.
  destruct (starts_at_token _ _ _ _ _ _ E Hi Hs) as (Hnb & H).
  destruct H as [Hat|(_ & Hnt)]; [eapply whole_word_token; eassumption|].
  exfalso. destruct Hw as (r & -> & _ & Hr).
  destruct w as [|c w]; [congruence|].
  destruct (assoc (c :: w) keywords) as [k|] eqn:Ek.
  { apply assoc_in in Ek. eapply Hnt, ta_keyword; [exact Ek|]. apply word_at_app; assumption. }
  inversion Ha as [|? ? Hc Hw']; subst. specialize (Hd c w eq_refl).
  assert (Hwf : exists t, wf_token t /\ token_text t = c :: w /\ may_follow U t r).
  { destruct (is_lower c) eqn:El; [|destruct (is_upper c) eqn:Eu].
    - exists (TIdentifier (c :: w)). split; [apply wf_identifier; auto; apply assoc_none, Ek|]. split; [reflexivity|exact Hr].
    - exists (TCustomIdentifier (c :: w)). split; [apply wf_custom; auto; apply assoc_none, Ek|]. split; [reflexivity|exact Hr].
    - assert (c = 95) as -> by (revert Hc; unfold is_word; rewrite El, Eu, Hd; cbn [orb]; apply N.eqb_eq).
      destruct w as [|d w].
      + exists TUnderscore. split; [apply (wf_punct [95]); vm_compute; tauto|]. split; [reflexivity|exact Hr].
      + exists (TSpecialIdentifier (95 :: d :: w)). split; [apply wf_special; [discriminate|exact Hw']|].
        split; [reflexivity|exact Hr]. }
  destruct Hwf as (t & Hwf & Et & Hm). apply (Hnt t). rewrite <- Et. apply (wf_token_at U t r Hwf Hm).
Qed.

(** The exception: at [ByStr] followed by anything, the token is [ByStr] with
    the digits that follow it. *)
Theorem C06_bystr_exception : forall U input items e i ds r,
  lex U input = (items, e) -> In i items -> starts_at input i (lit "ByStr" ++ ds ++ r) ->
  all_digits ds -> not_followed_by is_digit r ->
  item_token i = match ds with [] => TByStr | _ => TByStrWithSize (lit "ByStr" ++ ds) end.
Proof.
  intros U input items e i ds r E Hi Hs Hd Hr.
  destruct (starts_at_token _ _ _ _ _ _ E Hi Hs) as (Hnb & H).
  assert (Ht : token_at U (lit "ByStr" ++ ds ++ r) (match ds with [] => TByStr | _ => TByStrWithSize (lit "ByStr" ++ ds) end)).
  { destruct ds; [apply ta_bystr, Hr|apply ta_bystr_size; auto; discriminate]. }
  destruct H as [Hat|(_ & Hnt)]; [|destruct (Hnt _ Ht)].
  eapply token_at_unique; eassumption.
Qed.

Example C06_witness :
  map item_token (fst (lex U_none (lit "fields field in_x Maps ByStrFoo ByStr20 end")))
  = [TIdentifier (lit "fields"); TField; TIdentifier (lit "in_x"); TCustomIdentifier (lit "Maps");
     TByStr; TCustomIdentifier (lit "Foo"); TByStrWithSize (lit "ByStr20"); TEnd]
  /\ word_at U_none (lit "fields field") (lit "fields").
Proof.
  split; [vm_compute; reflexivity|]. exists (lit " field"). split; [reflexivity|].
  split; [repeat constructor|reflexivity].
Qed.

(** ** C07: lexing inverts printing *)
Theorem C07_lexing_inverts_printing : forall U toks text, written U toks text ->
  exists items, lex U text = (items, LEof) /\ map item_token items = toks.
Proof.
  intros U toks text H. apply written_tokens in H. unfold tokens_of in H.
  destruct (lex U text) as [items e]. injection H as <- <-. eauto.
Qed.

Example C07_witness : written U_none [TField; TIdentifier (lit "x"); TColon; TMinus; TNumber (lit "7"); TStringLiteral (lit """a""")]
  (lit "field (* c *) x:-" ++ [10] ++ lit "7""a""").
Proof.
  assert (Hl : layout (lit " (* c *) ") 0).
  { apply (lay_space 32 (lit "(* c *) ") 0 eq_refl). apply (lay_comment (lit " c ") (lit " ") 0).
    - intros (p & q & E). repeat (destruct p as [|? p]; [discriminate E|injection E as _ E]).
      destruct p; discriminate.
    - apply (lay_space 32 [] 0 eq_refl lay_nil). }
  refine (wr_tok U_none [] 0 TField _ (lit " (* c *) x:-" ++ [10] ++ lit "7""a""") lay_nil _ _ _);
    [apply (wf_keyword (lit "field")); vm_compute; tauto|vm_compute; reflexivity|].
  refine (wr_tok U_none (lit " (* c *) ") 0 (TIdentifier (lit "x")) _ (lit ":-" ++ [10] ++ lit "7""a""") Hl _ _ _);
    [apply (wf_identifier 120 []); [reflexivity|constructor|vm_compute; intuition discriminate]|vm_compute; reflexivity|].
  refine (wr_tok U_none [] 0 TColon _ (lit "-" ++ [10] ++ lit "7""a""") lay_nil _ _ _);
    [apply (wf_punct (lit ":")); vm_compute; tauto|vm_compute; reflexivity|].
  refine (wr_tok U_none [] 0 TMinus _ ([10] ++ lit "7""a""") lay_nil _ _ _);
    [apply (wf_punct (lit "-")); vm_compute; tauto|vm_compute; reflexivity|].
  refine (wr_tok U_none [10] 1 (TNumber (lit "7")) _ (lit """a""") (lay_space 10 [] 0 eq_refl lay_nil) _ _ _);
    [apply wf_number; [discriminate|repeat constructor]|vm_compute; reflexivity|].
  refine (wr_tok U_none [] 0 (TStringLiteral (lit """a""")) _ [] lay_nil _ _ _);
    [apply (wf_string [97]); [apply sb_char; [lia|lia|constructor]|reflexivity]|exact I|].
  constructor. exists [], 0. split; [constructor|auto].
Qed.

(** ** C08: comments *)

(** Layout (white space and comments) in front of a text does not change its
    tokens, nor how its lexing ends. *)
Theorem C08_comment_invisible : forall U c s, ~ occurs close_comment c ->
  tokens_of U (open_comment ++ c ++ close_comment ++ s) = tokens_of U s.
Proof.
  intros U c s H. rewrite <- (tokens_layout U _ _ s (layout_comment c H)). rewrite <- !app_assoc. reflexivity.
Qed.

(** The same in the middle of a text: whenever the scan of an input stands in
    front of a comment, what follows lexes as if it stood alone. *)
Theorem C08_comment_invisible_anywhere : forall U p c s ln base prev,
  ~ occurs close_comment c ->
  visited U (p ++ open_comment ++ c ++ close_comment ++ s) p (open_comment ++ c ++ close_comment ++ s) ln base prev ->
  exists ts, tokens_of U (p ++ open_comment ++ c ++ close_comment ++ s)
     = (ts ++ fst (tokens_of U s), snd (tokens_of U s)).
Proof.
  intros U p c s ln b pr Hc Hv.
  assert (H : forall input q s' ln b pr, visited U input q s' ln b pr ->
     exists ts, tokens_of U input = (ts ++ fst (tokens_of U s'), snd (tokens_of U s'))).
  { clear. intros input q s' ln b pr H.
    induction H as [|p s ln b pr Hv IH|p c s ln b pr Hv IH Hws H10|p c s ln b pr Hv IH Hc
      |p t x s ln b pr Hv IH Hat Hnb Hl|p c s ln b pr Hv IH Hws Hoc Hnt Hnb].
    - exists []. destruct (tokens_of U input). reflexivity.
    - rewrite <- (tokens_layout U [10] 1 s); [exact IH|]. apply (lay_space 10 [] 0 eq_refl lay_nil).
    - rewrite <- (tokens_layout U [c] _ s (lay_space c [] 0 Hws lay_nil)). exact IH.
    - rewrite <- (tokens_layout U _ _ s (layout_comment c Hc)). rewrite <- !app_assoc. exact IH.
    - destruct IH as (ts & IH). exists (ts ++ [t]). rewrite IH, (tokens_token U t x s Hat Hnb Hl).
      destruct (tokens_of U s) as [ts' e']. cbn [fst snd]. rewrite <- app_assoc. reflexivity.
    - destruct IH as (ts & IH). exists (ts ++ [TUnknown]). rewrite IH.
      destruct (segmented_exists U s (0 + len_utf8 c) 0 0 0) as (is & e & Hs & ->).
      rewrite (segmented_tokens U 0 0 0 0 _ _ _ (sg_unknown _ _ _ _ _ _ _ _ _ Hws Hoc Hnt Hnb Hs)).
      cbn [fst snd map]. rewrite <- app_assoc. reflexivity. }
  destruct (H _ _ _ _ _ _ Hv) as (ts & E). exists ts.
  rewrite E, (C08_comment_invisible U c s Hc). reflexivity.
Qed.

(** Comments end at the first closing mark: they do not nest. *)
Theorem C08_comments_do_not_nest : forall U a b, ~ occurs close_comment (a ++ open_comment ++ b) ->
  tokens_of U (open_comment ++ a ++ open_comment ++ b ++ close_comment ++ close_comment)
  = tokens_of U close_comment /\ fst (tokens_of U close_comment) = [TAsterisk; TCloseParen].
Proof.
  intros U a b H. split.
  - pose proof (C08_comment_invisible U _ close_comment H) as E. rewrite <- !app_assoc in E. exact E.
  - unfold tokens_of. destruct (lex U close_comment) as [items e] eqn:El.
    assert (H1 : written U [TAsterisk; TCloseParen] close_comment).
    { apply (wr_tok U [] 0 TAsterisk [TCloseParen] [41] lay_nil); [apply (wf_punct (lit "*")); vm_compute; tauto|exact I|].
      apply (wr_tok U [] 0 TCloseParen [] [] lay_nil); [apply (wf_punct (lit ")")); vm_compute; tauto|exact I|].
      constructor. exists [], 0. split; [constructor|auto]. }
    apply written_tokens in H1. unfold tokens_of in H1. rewrite El in H1. injection H1 as -> _. reflexivity.
Qed.

(** An unterminated comment silently swallows the rest of the input. *)
Theorem C08_unterminated_comment : forall U c, ~ occurs close_comment c ->
  lex U (open_comment ++ c) = ([], LEof).
Proof. intros U c H. apply lex_iff_segmented. apply sg_open_comment, H. Qed.

Example C08_witness :
  tokens_of U_none (lit "a (* b (* c *) d *) e") = ([TIdentifier (lit "a"); TIdentifier (lit "d"); TAsterisk; TCloseParen; TIdentifier (lit "e")], LEof)
  /\ ~ occurs close_comment (lit " b (* c ").
Proof.
  split; [vm_compute; reflexivity|].
  intros (p & q & E). repeat (destruct p as [|? p]; [discriminate E|injection E as _ E]).
  destruct p; discriminate.
Qed.

(** ** C09: lines *)
Lemma count_app a b : count_newlines (a ++ b) = count_newlines a + count_newlines b.
Proof. unfold count_newlines. rewrite count_occ_app. lia. Qed.

Lemma count_one c : count_newlines [c] = if c =? 10 then 1 else 0.
Proof.
  unfold count_newlines. destruct (N.eqb_spec c 10) as [->|Hn]; [reflexivity|].
  cbn [count_occ]. destruct (N.eq_dec c 10); [congruence|reflexivity].
Qed.

Lemma item_at_visited U input items e i : lex U input = (items, e) -> In i items ->
  exists p s ln base prev, visited U input p s ln base prev
    /\ item_start i = mkpos (byte_len p) ln (prev - base)
    /\ position (item_end i) = byte_len p + (if match item_token i with TUnknown => true | _ => false end then 0 else byte_len (token_text (item_token i)))
    /\ column (item_end i) = column (item_start i) + (position (item_end i) - position (item_start i)).
Proof.
  intros E Hi. destruct (lex_item_at _ _ _ _ _ E Hi) as (p & s & ln & b & pr & Hv & _ & _ & _ & H).
  exists p, s, ln, b, pr. split; [exact Hv|].
  destruct H as [(t & x & r & Hat & _ & _ & ->)|(_ & ->)]; cbn [item_start item_end item_token fst snd position column].
  - split; [reflexivity|]. split; [|lia].
    pose proof (token_at_not_unknown _ _ _ Hat). destruct t; try reflexivity. congruence.
  - split; [reflexivity|]. split; lia.
Qed.

(** The line of a token is the number of newlines that stand, before it, in the
    layout outside comments. *)
Theorem C09_line_counts_layout_newlines : forall U input items e, lex U input = (items, e) ->
  exists rest, tiled 0 0 items input rest.
Proof. intros U input items e E. destruct (lex_tiled _ _ _ _ E) as (rest & H & _). eauto. Qed.

Theorem C09_line_at_most_true_line : forall U input items e i p s,
  lex U input = (items, e) -> In i items ->
  input = p ++ s -> byte_len p = position (item_start i) ->
  line (item_start i) <= count_newlines p.
Proof.
  intros U input items e i p s E Hi Ep Hp.
  destruct (item_at_visited _ _ _ _ _ E Hi) as (p' & s' & ln & b & pr & Hv & Hst & _ & _).
  rewrite Hst in *. cbn [position line] in *.
  pose proof (visited_input _ _ _ _ _ _ _ Hv) as Ev. rewrite Ep in Ev.
  pose proof (prefix_same_bytes p p' s s' Ev Hp) as ->. clear -Hv.
  induction Hv; rewrite ?count_app; try lia.
  change (count_newlines [10]) with 1. lia.
Qed.

Lemma layout_newlines g n : layout g n ->
  (forall c, occurs (open_comment ++ c ++ close_comment) g -> ~ occurs close_comment c -> ~ In 10 c) ->
  count_newlines g = n.
Proof.
  intros H. induction H as [|c g n Hc H IH|c g n Hc H IH]; intro Hcm.
  - reflexivity.
  - change (c :: g) with ([c] ++ g). rewrite count_app, IH.
    + rewrite count_one. destruct (c =? 10); lia.
    + intros k (a & b & ->) Hk. apply (Hcm k); [|exact Hk]. exists (c :: a), b. reflexivity.
  - rewrite !count_app. rewrite IH.
    + assert (Hz : count_newlines c = 0).
      { unfold count_newlines. rewrite (proj1 (count_occ_not_In N.eq_dec c 10)); [reflexivity|].
        apply Hcm; [|exact Hc]. exists [], g. cbn [app]. rewrite <- !app_assoc. reflexivity. }
      rewrite Hz. reflexivity.
    + intros k (a & b & ->) Hk. apply (Hcm k); [|exact Hk].
      exists (open_comment ++ c ++ close_comment ++ a), b. rewrite <- !app_assoc. reflexivity.
Qed.

Lemma token_newlines U t g : (forall y, t = TStringLiteral y -> ~ In 10 y) ->
  token_at U g t -> count_newlines (token_text t) = 0.
Proof.
  intros Hs Hat. unfold count_newlines.
  rewrite (proj1 (count_occ_not_In N.eq_dec (token_text t) 10)); [reflexivity|].
  assert (Hw : forall w, all_word w -> ~ In 10 w).
  { intros w H Hin. unfold all_word in H. rewrite Forall_forall in H. specialize (H _ Hin). discriminate. }
  destruct Hat as [w t r Hin Hm|w0 w t Hin Hw0|ds r Hne Hd Hr|r Hr|x hs r Hx Hh Hr
    |ds r Hne Hd Hr Hx|ds r Hne Hd Hr|b r Hb|b r Hb Hr|c w r Hc Hw' Hr Hk|c w r Hc Hw' Hr
    |c w r Hc Hw' Hr Hk Hb|w r Hw' Hr Hf]; cbn [token_text].
  - pose proof (punct_text _ _ Hin) as (-> & _). clear -Hin.
    repeat (destruct Hin as [Hin|Hin]; [injection Hin as <- <-; vm_compute; intuition discriminate|]). destruct Hin.
  - pose proof (keyword_props _ _ Hin) as (-> & Ha & _). apply Hw, Ha.
  - apply Hw. apply Forall_app. split; [repeat constructor|apply all_digits_word, Hd].
  - vm_compute. intuition discriminate.
  - apply Hw. constructor; [reflexivity|]. constructor; [destruct Hx; subst; reflexivity|apply hex_digits_word, Hh].
  - apply Hw, all_digits_word, Hd.
  - intros [H|H]; [discriminate|]. revert H. apply Hw, all_digits_word, Hd.
  - apply (Hs _ eq_refl).
  - apply (Hs _ eq_refl).
  - apply Hw. constructor; [apply is_lower_word, Hc|exact Hw'].
  - intros [H|H]; [discriminate|]. revert H. apply Hw. constructor; [apply is_upper_word, Hc|exact Hw'].
  - apply Hw. constructor; [apply is_upper_word, Hc|exact Hw'].
  - apply Hw. constructor; [reflexivity|exact Hw'].
Qed.

Lemma prefix_split (a b p q : str) : a ++ b = p ++ q -> byte_len a <= byte_len p ->
  exists p', p = a ++ p' /\ b = p' ++ q.
Proof.
  revert p. induction a as [|c a IH]; intros p E H; cbn in E.
  - exists p. auto.
  - destruct p as [|d p]; [cbn [byte_len] in H; pose proof (len_utf8_pos c); lia|].
    cbn in E. injection E as -> E. cbn [byte_len] in H.
    destruct (IH p E) as (p' & -> & ->); [lia|]. exists p'. auto.
Qed.

Lemma tiled_line pos ln items s rest : tiled pos ln items s rest ->
  (forall j, In j items -> item_token j <> TUnknown -> count_newlines (token_text (item_token j)) = 0) ->
  (forall j y, In j items -> item_token j = TStringLiteral y -> ascii_str y = true) ->
  forall i, In i items -> forall p q, s = p ++ q -> pos + byte_len p = position (item_start i) ->
  (forall c, occurs (open_comment ++ c ++ close_comment) p -> ~ occurs close_comment c -> ~ In 10 c) ->
  line (item_start i) = ln + count_newlines p.
Proof.
  induction 1 as [pos ln s|pos ln g k a t b x items s rest Hg Hn Hne Ha Hla Hb Hlb Hl H IH
    |pos ln g k a c items s rest Hg Hws Ha Hla H IH]; intros H0 Hasc i Hi p q E Hp Hcm.
  - destruct Hi.
  - assert (x = []) as ->.
    { destruct t; cbn in Hl; auto. pose proof (Hasc _ s0 (or_introl eq_refl) eq_refl) as Hs.
      rewrite (byte_len_ascii _ Hs) in Hl. destruct x; [reflexivity|]. cbn [List.length] in Hl.
      destruct Hl as [Hl|[Hl _]]; lia. }
    destruct Hi as [<-|Hi].
    + cbn [item_start fst] in *. assert (g = p) as <-.
      { eapply prefix_same_bytes; [exact E|]. lia. }
      rewrite (layout_newlines g k Hg Hcm). exact Hla.
    + destruct (In_nth_error _ _ Hi) as (n & Hnth).
      pose proof (tiled_item _ _ _ _ _ H n i Hnth) as (P & _). cbn [byte_len] in P.
      cbn [app] in E. rewrite app_assoc in E.
      destruct (prefix_split _ _ _ _ E) as (p' & -> & Es); [rewrite byte_len_app; lia|].
      rewrite !byte_len_app in Hp. cbn [byte_len] in IH.
      rewrite (IH (fun j Hj => H0 j (or_intror Hj)) (fun j y Hj => Hasc j y (or_intror Hj)) i Hi p' q Es).
      * rewrite !count_app. specialize (H0 _ (or_introl eq_refl) Hn). cbn [item_token fst snd] in H0. rewrite H0.
        rewrite (layout_newlines g k Hg); [lia|].
        intros c (u & v & ->). apply Hcm. exists u, (v ++ token_text t ++ p'). rewrite <- !app_assoc. reflexivity.
      * lia.
      * intros c (u & v & ->). apply Hcm. exists ((g ++ token_text t) ++ u), v. rewrite <- !app_assoc. reflexivity.
  - destruct Hi as [<-|Hi].
    + cbn [item_start fst] in *. assert (g = p) as <-.
      { eapply prefix_same_bytes; [exact E|]. lia. }
      rewrite (layout_newlines g k Hg Hcm). exact Hla.
    + destruct (In_nth_error _ _ Hi) as (n & Hnth).
      pose proof (tiled_item _ _ _ _ _ H n i Hnth) as (P & _).
      change (g ++ c :: s) with (g ++ [c] ++ s) in E. rewrite app_assoc in E.
      destruct (prefix_split _ _ _ _ E) as (p' & -> & Es); [rewrite byte_len_app; cbn [byte_len]; lia|].
      rewrite !byte_len_app in Hp. cbn [byte_len] in Hp.
      rewrite (IH (fun j Hj => H0 j (or_intror Hj)) (fun j y Hj => Hasc j y (or_intror Hj)) i Hi p' q Es).
      * rewrite !count_app. replace (count_newlines [c]) with 0.
        2: { rewrite count_one. destruct (N.eqb_spec c 10) as [->|]; [discriminate|reflexivity]. }
        rewrite (layout_newlines g k Hg); [lia|].
        intros d (u & v & ->). apply Hcm. exists u, (v ++ [c] ++ p'). rewrite <- !app_assoc. reflexivity.
      * lia.
      * intros d (u & v & ->). apply Hcm. exists ((g ++ [c]) ++ u), v. rewrite <- !app_assoc. reflexivity.
Qed.

(** It is the true line when no comment or string literal before the token
    contains a newline (and no text is lost after multi-byte literals). *)
Theorem C09_line_exact_without_multiline_pieces : forall U input items e i p s,
  lex U input = (items, e) -> In i items ->
  input = p ++ s -> byte_len p = position (item_start i) ->
  (forall c, occurs (open_comment ++ c ++ close_comment) p -> ~ occurs close_comment c -> ~ In 10 c) ->
  (forall j y, In j items -> item_token j = TStringLiteral y -> ~ In 10 y /\ ascii_str y = true) ->
  line (item_start i) = count_newlines p.
Proof.
  intros U input items e i p s E Hi Ep Hp Hcom Hstr.
  destruct (lex_tiled _ _ _ _ E) as (rest & Ht & _).
  apply (tiled_line 0 0 items input rest Ht) with (q := s); auto.
  - intros j Hj Hn. destruct (lex_item_at _ _ _ _ _ E Hj) as (p' & s' & ln & b & pr & _ & _ & _ & _ & H).
    destruct H as [(t & x & r & Hat & _ & _ & ->)|(_ & ->)]; cbn [item_token fst snd] in *; [|congruence].
    eapply token_newlines, Hat. intros y ->. eapply Hstr; [exact Hj|reflexivity].
  - intros j y Hj Hy. eapply Hstr; eassumption.
Qed.

(** The unrestricted claim is refuted by a comment containing a newline. *)
Theorem C09_true_line_refuted : exists input items i p,
  lex U_none input = (items, LEof) /\ In i items /\ input = p ++ lit "x"
  /\ position (item_start i) = byte_len p /\ line (item_start i) = 0 /\ count_newlines p = 1.
Proof.
  exists (lit "(*" ++ [10] ++ lit "*)x"). do 2 eexists. exists (lit "(*" ++ [10] ++ lit "*)").
  split; [vm_compute; reflexivity|]. split; [left; reflexivity|]. repeat split.
Qed.

Example C09_witness : exists items i,
  lex U_none (lit "a" ++ [10] ++ lit " (* c *) ""s"" b") = (items, LEof) /\ In i items
  /\ item_token i = TIdentifier (lit "b") /\ line (item_start i) = 1.
Proof. do 2 eexists. split; [vm_compute; reflexivity|]. split; [right; right; left; reflexivity|]. split; reflexivity. Qed.

(** ** C10: columns *)

(** The end column minus the start column is the length of the token in bytes. *)
Theorem C10_column_span : forall U input items e i, lex U input = (items, e) -> In i items ->
  column (item_end i) = column (item_start i) + (position (item_end i) - position (item_start i)).
Proof.
  intros U input items e i E Hi.
  destruct (item_at_visited _ _ _ _ _ E Hi) as (p & s & ln & b & pr & _ & _ & _ & H). exact H.
Qed.

(** Line and column of every token, exactly: the line counts the newlines passed
    as white space, and the column is the distance from the last of these (from
    the start of the text if there is none) to the start of the piece (white
    space character, comment, token or unknown character) just before the token. *)
Theorem C10_column_exact : forall U input items e i, lex U input = (items, e) -> In i items ->
  exists p s ln base prev, visited U input p s ln base prev
    /\ position (item_start i) = byte_len p
    /\ line (item_start i) = ln
    /\ column (item_start i) = prev - base.
Proof.
  intros U input items e i E Hi.
  destruct (item_at_visited _ _ _ _ _ E Hi) as (p & s & ln & b & pr & Hv & H & _ & _).
  exists p, s, ln, b, pr. rewrite H. repeat split. exact Hv.
Qed.

Lemma visited_segmented U input p s ln b pr : visited U input p s ln b pr -> forall is e,
  segmented U (byte_len p) ln b pr s is e -> exists is0, segmented U 0 0 0 0 input (is0 ++ is) e.
Proof.
  induction 1 as [|p s ln b pr Hv IH|p c s ln b pr Hv IH Hws H10|p c s ln b pr Hv IH Hc
      |p t x s ln b pr Hv IH Hat Hnb Hl|p c s ln b pr Hv IH Hws Hoc Hnt Hnb]; intros is e G.
  - exists []. exact G.
  - apply IH, sg_newline. rewrite byte_len_app in G. exact G.
  - apply IH, sg_space; auto.
    rewrite byte_len_app in G. cbn [byte_len] in G. rewrite N.add_0_r in G. exact G.
  - apply IH, sg_comment; auto. rewrite (byte_len_app p) in G. exact G.
  - rewrite (byte_len_app p) in G. pose proof (sg_token _ _ _ _ pr _ _ _ _ _ Hat Hnb Hl G) as G'.
    destruct (IH _ _ G') as (is0 & I1).
    eexists (is0 ++ [_]). rewrite <- app_assoc. exact I1.
  - rewrite byte_len_app in G. cbn [byte_len] in G. rewrite N.add_0_r in G.
    pose proof (sg_unknown _ _ _ _ pr _ _ _ _ Hws Hoc Hnt Hnb G) as G'.
    destruct (IH _ _ G') as (is0 & I1).
    eexists (is0 ++ [_]). rewrite <- app_assoc. exact I1.
Qed.

(** A token passed by the scan is one of the items. *)
Lemma visited_token_in U input items e p t x s ln b pr : lex U input = (items, e) ->
  visited U input p (token_text t ++ x ++ s) ln b pr ->
  token_at U (token_text t ++ x ++ s) t -> ~ bad_word U (token_text t ++ x ++ s) -> lost t x s ->
  exists j, In j items /\ item_token j = t.
Proof.
  intros E Hv Hat Hnb Hl.
  destruct (segmented_exists U s (byte_len p + byte_len (token_text t ++ x)) ln b (byte_len p)) as (is & e' & Hs & _).
  pose proof (sg_token U (byte_len p) ln b pr _ _ _ _ _ Hat Hnb Hl Hs) as G.
  destruct (visited_segmented _ _ _ _ _ _ _ Hv _ _ G) as (is0 & G').
  apply lex_iff_segmented in G'. rewrite E in G'. injection G' as -> ->.
  eexists. split; [rewrite in_app_iff; right; left; reflexivity|reflexivity].
Qed.

(** The character just before a visited position decides the last piece: *)
Lemma visited_last U input items e p c s ln b pr : lex U input = (items, e) ->
  (forall j y, In j items -> item_token j = TStringLiteral y -> ascii_str y = true) ->
  visited U input (p ++ [c]) s ln b pr -> is_whitespace c = true ->
  pr = byte_len p /\ (c = 10 -> b = byte_len p).
Proof.
  intros E Hasc Hv Hws. remember (p ++ [c]) as pc eqn:Epc.
  destruct Hv as [|p' s ln b pr Hv|p' c' s ln b pr Hv Hws' H10|p' k s ln b pr Hv Hk
      |p' t x s ln b pr Hv Hat Hnb Hl|p' c' s ln b pr Hv Hws' Hoc Hnt Hnb].
  - destruct p; discriminate.
  - apply app_inj_tail in Epc. destruct Epc as [-> _]. auto.
  - apply app_inj_tail in Epc. destruct Epc as [-> ->]. split; [reflexivity|congruence].
  - exfalso. change close_comment with ([42] ++ [41]) in Epc. rewrite !app_assoc in Epc.
    apply app_inj_tail in Epc. destruct Epc as [_ <-]. discriminate.
  - exfalso. destruct (visited_token_in _ _ _ _ _ _ _ _ _ _ _ E Hv Hat Hnb Hl) as (j & Hj & Ej).
    assert (x = []) as ->.
    { destruct t; cbn in Hl; auto. pose proof (Hasc _ _ Hj Ej) as Hs.
      rewrite (byte_len_ascii _ Hs) in Hl. destruct x; [reflexivity|]. cbn [List.length] in Hl.
      destruct Hl as [Hl|[Hl _]]; lia. }
    rewrite app_nil_r in Epc.
    assert (Hlast : forall q d, token_text t = q ++ [d] -> d = c).
    { intros q d Eq. rewrite Eq, app_assoc in Epc. apply app_inj_tail in Epc. apply Epc. }
    assert (Hw : forall w, w <> [] -> all_word w -> (exists w', token_text t = w' ++ w) -> False).
    { intros w Hne Ha (w' & Ew). destruct (exists_last Hne) as (q & d & ->).
      rewrite app_assoc in Ew. rewrite (Hlast _ _ Ew) in Ha. apply Forall_app in Ha. destruct Ha as [_ Ha].
      inversion Ha as [|? ? Hc _]. apply (is_word_char U) in Hc. rewrite (whitespace_not_word U c Hws) in Hc. discriminate. }
    remember (token_text t ++ [] ++ s) as S eqn:ES.
    destruct Hat as [w t r Hin Hm|w0 w t Hin Hw0|ds r Hne Hd Hr|r Hr|z hs r Hx Hh Hr
      |ds r Hne Hd Hr Hx|ds r Hne Hd Hr|b' r Hb|b' r Hb Hr|d w r Hc Hw' Hr Hk|d w r Hc Hw' Hr
      |d w r Hc Hw' Hr Hk Hb|w r Hw' Hr Hf]; cbn [token_text] in *.
    + pose proof (punct_text _ _ Hin) as (Et & _). rewrite Et in *. clear -Hin Hlast Hws.
      repeat (destruct Hin as [Hin|Hin];
        [injection Hin as <- <-;
         first [ pose proof (Hlast [] _ eq_refl) as Hl1; rewrite <- Hl1 in Hws; discriminate
               | pose proof (Hlast [_] _ eq_refl) as Hl1; rewrite <- Hl1 in Hws; discriminate ]|]).
      destruct Hin.
    + pose proof (keyword_props _ _ Hin) as (Et & Ha & Hlen & _). rewrite Et in *.
      apply (Hw w); [destruct w; [cbn in Hlen; lia|discriminate]|exact Ha|exists []; reflexivity].
    + apply (Hw ds); [exact Hne|apply all_digits_word, Hd|eauto].
    + apply (Hw (lit "ByStr")); [discriminate|repeat constructor|exists []; reflexivity].
    + apply (Hw (48 :: z :: hs)); [discriminate| |exists []; reflexivity].
      constructor; [reflexivity|]. constructor; [destruct Hx; subst; reflexivity|apply hex_digits_word, Hh].
    + apply (Hw ds); [exact Hne|apply all_digits_word, Hd|exists []; reflexivity].
    + apply (Hw ds); [exact Hne|apply all_digits_word, Hd|exists [45]; reflexivity].
    + rewrite <- (Hlast (34 :: b') 34 eq_refl) in Hws. discriminate.
    + rewrite <- (Hlast (34 :: b') 34 eq_refl) in Hws. discriminate.
    + apply (Hw (d :: w)); [discriminate|constructor; [apply is_lower_word, Hc|exact Hw']|exists []; reflexivity].
    + apply (Hw (d :: w)); [discriminate|constructor; [apply is_upper_word, Hc|exact Hw']|exists [39]; reflexivity].
    + apply (Hw (d :: w)); [discriminate|constructor; [apply is_upper_word, Hc|exact Hw']|exists []; reflexivity].
    + apply (Hw (95 :: w)); [discriminate|constructor; [reflexivity|exact Hw']|exists []; reflexivity].
  - apply app_inj_tail in Epc. destruct Epc as [_ ->]. congruence.
Qed.

(** A token at the start of the input, or right after a newline, is reported at
    column 0 (string literals being ASCII). *)
Theorem C10_column_zero_at_line_start : forall U input items e i, lex U input = (items, e) -> In i items ->
  (forall j y, In j items -> item_token j = TStringLiteral y -> ascii_str y = true) ->
  (position (item_start i) = 0 \/
   exists p s, input = (p ++ [10]) ++ s /\ position (item_start i) = byte_len (p ++ [10])) ->
  column (item_start i) = 0.
Proof.
  intros U input items e i E Hi Hasc H.
  destruct (item_at_visited _ _ _ _ _ E Hi) as (p & s & ln & b & pr & Hv & Hst & _). rewrite Hst in *.
  cbn [position column] in *. pose proof (visited_bounds _ _ _ _ _ _ _ Hv) as Hb.
  destruct H as [H|(p' & s' & Ei & H)]; [lia|].
  pose proof (visited_input _ _ _ _ _ _ _ Hv) as Ev. rewrite Ei in Ev. symmetry in H.
  pose proof (prefix_same_bytes _ _ _ _ Ev H) as <-.
  destruct (visited_last _ _ _ _ _ _ _ _ _ _ E Hasc Hv eq_refl) as [-> Hb']. rewrite (Hb' eq_refl). lia.
Qed.

Lemma visited_base U input p s ln b pr : visited U input p s ln b pr ->
  (ln = 0 /\ b = 0) \/ exists a q, p = a ++ [10] ++ q /\ b = byte_len a /\ ln + count_newlines q <= count_newlines p.
Proof.
  induction 1 as [|p s ln b pr Hv IH|p c s ln b pr Hv IH Hws H10|p c s ln b pr Hv IH Hc
      |p t x s ln b pr Hv IH Hat Hnb Hl|p c s ln b pr Hv IH Hws Hoc Hnt Hnb].
  - auto.
  - right. exists p, []. split; [reflexivity|]. split; [reflexivity|]. rewrite count_app.
    change (count_newlines [10]) with 1. change (count_newlines []) with 0.
    assert (ln <= count_newlines p); [|lia].
    clear -Hv. induction Hv; rewrite ?count_app; try lia. change (count_newlines [10]) with 1. lia.
  - destruct IH as [IH|(a & q & -> & -> & IH)]; [auto|]. right. exists a, (q ++ [c]).
    rewrite <- !app_assoc. repeat split. rewrite !count_app in *. lia.
  - destruct IH as [IH|(a & q & -> & -> & IH)]; [auto|]. right. exists a, (q ++ open_comment ++ c ++ close_comment).
    rewrite <- !app_assoc. repeat split. rewrite !count_app in *. lia.
  - destruct IH as [IH|(a & q & -> & -> & IH)]; [auto|]. right. exists a, (q ++ token_text t ++ x).
    rewrite <- !app_assoc. repeat split. rewrite !count_app in *. lia.
  - destruct IH as [IH|(a & q & -> & -> & IH)]; [auto|]. right. exists a, (q ++ [c]).
    rewrite <- !app_assoc. repeat split. rewrite !count_app in *. lia.
Qed.

Lemma no_newlines q : count_newlines q = 0 <-> ~ In 10 q.
Proof. unfold count_newlines. rewrite (count_occ_not_In N.eq_dec). lia. Qed.

(** A token that follows a white space character [c]: on the first line its
    column is its byte offset minus the length of [c]; on a later line, when the
    reported line is the true one (see C09), its column is one more than the
    number of bytes between the line start and [c], that is, the true column
    exactly when [c] is ASCII. *)
Theorem C10_column_after_space : forall U input items e i p c s,
  lex U input = (items, e) -> In i items ->
  (forall j y, In j items -> item_token j = TStringLiteral y -> ascii_str y = true) ->
  input = (p ++ [c]) ++ s -> position (item_start i) = byte_len (p ++ [c]) ->
  is_whitespace c = true -> c <> 10 -> line (item_start i) = count_newlines p ->
  (~ In 10 p -> column (item_start i) = byte_len p)
  /\ (forall a q, p = a ++ [10] ++ q -> ~ In 10 q -> column (item_start i) = byte_len q + 1).
Proof.
  intros U input items e i p c s E Hi Hasc Ei Hpos Hws H10 Hline.
  destruct (item_at_visited _ _ _ _ _ E Hi) as (p' & s' & ln & b & pr & Hv & Hst & _). rewrite Hst in *.
  cbn [position column line] in *. pose proof (visited_input _ _ _ _ _ _ _ Hv) as Ev. rewrite Ei in Ev. symmetry in Hpos.
  pose proof (prefix_same_bytes _ _ _ _ Ev Hpos) as <-.
  destruct (visited_last _ _ _ _ _ _ _ _ _ _ E Hasc Hv Hws) as [-> _].
  pose proof (visited_base _ _ _ _ _ _ _ Hv) as Hb.
  assert (Hc0 : count_newlines [c] = 0) by (apply no_newlines; intros [->|[]]; congruence).
  split.
  - intro Hn. apply no_newlines in Hn. destruct Hb as [[_ ->]|(a & q & Ep & _)]; [lia|].
    exfalso. apply (f_equal count_newlines) in Ep. rewrite !count_app, Hn, Hc0 in Ep.
    change (count_newlines [10]) with 1 in Ep. lia.
  - intros a q -> Hq. apply no_newlines in Hq. rewrite !count_app in Hline. change (count_newlines [10]) with 1 in Hline.
    destruct Hb as [[-> _]|(a' & q' & Ep & -> & Hb)]; [lia|].
    rewrite !count_app, Hc0 in Hb. change (count_newlines [10]) with 1 in Hb.
    assert (Hq' : count_newlines q' = 0) by lia.
    assert (a = a') as <-.
    { apply no_newlines in Hq, Hq'.
      assert (Hq2 : ~ In 10 (q ++ [c])) by (rewrite in_app_iff; intros [H|[H|[]]]; auto).
      rewrite <- !app_assoc in Ep. cbn [app] in Ep. revert Ep Hq2 Hq'. generalize (q ++ [c]) as q2. clear.
      intros q2. revert a'. induction a as [|d a IH]; intros [|d' a'] E H H'; cbn in E.
      - reflexivity.
      - injection E as <- ->. exfalso. apply H. rewrite in_app_iff. right; left; reflexivity.
      - injection E as -> <-. exfalso. apply H'. rewrite in_app_iff. right; left; reflexivity.
      - injection E as -> E. f_equal. apply IH; assumption. }
    rewrite !byte_len_app. change (byte_len [10]) with 1. lia.
Qed.

(** The claim "column = byte offset from the start of the line" is refuted: in
    [ab cd] the second token, at offset 3, is reported at column 2. *)
Theorem C10_true_column_refuted : exists items i,
  lex U_none (lit "ab cd") = (items, LEof) /\ In i items
  /\ position (item_start i) = 3 /\ line (item_start i) = 0 /\ column (item_start i) = 2.
Proof. do 2 eexists. split; [vm_compute; reflexivity|]. split; [right; left; reflexivity|]. repeat split. Qed.

Example C10_witness : exists items i,
  lex U_none (lit "ab" ++ [10] ++ lit "c d") = (items, LEof) /\ In i items
  /\ item_token i = TIdentifier (lit "d") /\ line (item_start i) = 1 /\ column (item_start i) = 2
  /\ count_newlines (lit "ab" ++ [10] ++ lit "c") = 1.
Proof. do 2 eexists. split; [vm_compute; reflexivity|]. split; [right; right; left; reflexivity|]. repeat split. Qed.
