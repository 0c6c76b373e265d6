(** C53, C54: what a syntax error depends on; what an unexpected end means. *)
From Coq Require PeanoNat.
From Verif Require Import Chars Lexer LexSpec LexStep LexSegment LexFacts LexWritten Grammar Parser GrammarLink Ast Types Emitter Contract
  PropParser PropParse2 Spaced Local.

Lemma lex_extend U p c : is_whitespace c = true -> quotes_closed p -> forall is e, lex U (p ++ [c]) = (is, e) ->
  exists m, in_comment c m /\ forall r, exists is' e', lex U (p ++ c :: r) = (is ++ is', e')
    /\ (e = LPanic -> e' = LPanic /\ is' = []) /\ Forall (fun i => byte_len p <= position (item_start i)) is'
    /\ (e = LEof -> tokens_of U (seen c m r) = (map item_token is', e')).
Proof.
  intros Hc Hq is e H. apply lex_iff_segmented in H. destruct (seg_extend U c Hc _ p (le_n _) Hq _ _ _ _ _ _ H) as (m & Hm & HR).
  exists m. split; [exact Hm|]. intro r. destruct (HR r) as (is' & e' & H1 & H2 & H3 & H4). exists is', e'.
  split; [apply lex_iff_segmented, H1|]. rewrite N.add_0_l in H3. auto.
Qed.

(** ** C53: the error is decided by the text up to the white space after the
    offending token *)
Lemma parse_local U A p c r r' i : is_whitespace c = true -> quotes_closed p -> position (item_start i) < byte_len p ->
  parse_str U A (p ++ c :: r) = PErrToken i -> parse_str U A (p ++ c :: r') = PErrToken i.
Proof.
  intros Hc Hq Hi H. unfold parse_str in *. destruct (lex U (p ++ [c])) as [is e] eqn:E.
  destruct (lex_extend U p c Hc Hq is e E) as (m & _ & HR).
  destruct (HR r) as (is1 & e1 & E1 & _ & H1 & _), (HR r') as (is2 & e2 & E2 & _). rewrite E1 in H. rewrite E2.
  apply parse_error_token_iff in H. destruct H as (u & q & Eq & Hu & Hn). apply parse_error_token_iff.
  assert (Hs : exists q', is = u ++ [i] ++ q').
  { clear -Eq H1 Hi. revert u Eq. induction is as [|j is IH]; intros u Eq.
    - exfalso. cbn in Eq. rewrite Forall_forall in H1. specialize (H1 i). rewrite Eq in H1.
      assert (In i (u ++ [i] ++ q)) as Hin by (apply in_or_app; right; left; reflexivity). apply H1 in Hin. lia.
    - destruct u as [|j' u]; cbn in Eq; injection Eq as <- Eq; [exists is; reflexivity|].
      destruct (IH u Eq) as (q' & ->). exists q'. reflexivity. }
  destruct Hs as (q' & ->). exists u, (q' ++ is2). split; [rewrite <- !app_assoc; reflexivity|auto].
Qed.

Theorem C53_error_is_local : forall U debug p c r r' i,
  is_whitespace c = true -> quotes_closed p -> position (item_start i) < byte_len p ->
  from_str U debug (p ++ c :: r) = RError (ParseErrorToken i) ->
  from_str U debug (p ++ c :: r') = RError (ParseErrorToken i).
Proof.
  intros U debug p c r r' i Hc Hq Hi H. unfold from_str in *. unfold emit_api in *.
  destruct (parse_str U Program (p ++ c :: r)) as [v|j| | |] eqn:E; try discriminate;
    [destruct (emit_program debug v); discriminate|].
  injection H as ->. rewrite (parse_local U Program p c r r' i Hc Hq Hi E). reflexivity.
Qed.

Lemma parse_final U A p c i : is_whitespace c = true -> quotes_closed p ->
  parse_str U A (p ++ [c]) = PErrToken i -> forall r, parse_str U A (p ++ c :: r) = PErrToken i.
Proof.
  intros Hc Hq H r. unfold parse_str in *. destruct (lex U (p ++ [c])) as [is e] eqn:E.
  destruct (lex_extend U p c Hc Hq is e E) as (m & _ & HR). destruct (HR r) as (is1 & e1 & E1 & _). rewrite E1.
  apply parse_error_token_iff in H. destruct H as (u & q & -> & Hu & Hn). apply parse_error_token_iff.
  exists u, (q ++ is1). split; [rewrite <- !app_assoc; reflexivity|auto].
Qed.
Theorem C53_error_is_final : forall U debug p c i,
  is_whitespace c = true -> quotes_closed p ->
  from_str U debug (p ++ [c]) = RError (ParseErrorToken i) ->
  forall r, from_str U debug (p ++ c :: r) = RError (ParseErrorToken i).
Proof.
  intros U debug p c i Hc Hq H r. unfold from_str in *. unfold emit_api in *.
  destruct (parse_str U Program (p ++ [c])) as [v|j| | |] eqn:E; try discriminate;
    [destruct (emit_program debug v); discriminate|].
  injection H as ->. rewrite (parse_final U Program p c i Hc Hq E). reflexivity.
Qed.

(** ** Acceptance depends on the kinds of the tokens only *)
Definition kinds (toks : list item) : list (option tk) := map (fun i => kind_of (item_token i)) toks.
Lemma kinds_split a b toks : kinds toks = kinds (a ++ b) -> exists a' b', toks = a' ++ b' /\ kinds a' = kinds a /\ kinds b' = kinds b.
Proof.
  unfold kinds. rewrite map_app. revert toks. induction a as [|x a IH]; intros toks H; [exists [], toks; auto|].
  destruct toks as [|y toks]; [discriminate|]. cbn in H. injection H as H1 H. destruct (IH _ H) as (a' & b' & -> & Ha & Hb).
  exists (y :: a'), b'. cbn. rewrite H1, Ha. auto.
Qed.
Lemma der_same_kinds :
  (forall a toks v, der_atom a toks v -> forall toks', kinds toks' = kinds toks -> exists v', der_atom a toks' v') /\
  (forall s toks v, der_sym s toks v -> forall toks', kinds toks' = kinds toks -> exists v', der_sym s toks' v') /\
  (forall a toks vs, der_list a toks vs -> forall toks', kinds toks' = kinds toks -> exists vs', der_list a toks' vs' /\ (vs <> [] -> vs' <> [])) /\
  (forall l toks vs, der_rhs l toks vs -> forall toks', kinds toks' = kinds toks -> exists vs', der_rhs l toks' vs').
Proof.
  assert (Hnil : forall toks', kinds toks' = kinds [] -> toks' = []) by (intros [|x l] H; [reflexivity|discriminate H]).
  apply (der_mutind
    (fun a toks v _ => forall toks', kinds toks' = kinds toks -> exists v', der_atom a toks' v')
    (fun s toks v _ => forall toks', kinds toks' = kinds toks -> exists v', der_sym s toks' v')
    (fun a toks vs _ => forall toks', kinds toks' = kinds toks -> exists vs', der_list a toks' vs' /\ (vs <> [] -> vs' <> []))
    (fun l toks vs _ => forall toks', kinds toks' = kinds toks -> exists vs', der_rhs l toks' vs')).
  - intros k i Hk toks' H. destruct toks' as [|j [|j2 l]]; try discriminate H. injection H as H. exists j. constructor. congruence.
  - intros A p toks vs Hin _ IH toks' H. destruct (IH toks' H) as (vs' & Hd). eexists. apply der_Nt; eassumption.
  - intros a toks v _ IH toks' H. destruct (IH toks' H) as (v' & Hd). eexists. apply der_One, Hd.
  - intros a toks' H. apply Hnil in H. subst. eexists. apply der_None.
  - intros a toks v _ IH toks' H. destruct (IH toks' H) as (v' & Hd). eexists. apply der_Some, Hd.
  - intros a toks vs _ IH toks' H. destruct (IH toks' H) as (v' & Hd & _). eexists. apply der_Star, Hd.
  - intros a toks vs _ IH Hne toks' H. destruct (IH toks' H) as (v' & Hd & Hn). eexists. apply der_Plus; [exact Hd|]. apply Hn, Hne.
  - intros a toks' H. apply Hnil in H. subst. exists []. split; [constructor|auto].
  - intros a t1 v t2 vs _ IH1 _ IH2 toks' H. destruct (kinds_split _ _ _ H) as (a' & b' & -> & Ha & Hb).
    destruct (IH1 _ Ha) as (v' & H1), (IH2 _ Hb) as (vs' & H2 & _). exists (v' :: vs'). split; [constructor; assumption|discriminate].
  - intros toks' H. apply Hnil in H. subst. exists tt. constructor.
  - intros s l t1 v t2 vs _ IH1 _ IH2 toks' H. destruct (kinds_split _ _ _ H) as (a' & b' & -> & Ha & Hb).
    destruct (IH1 _ Ha) as (v' & H1), (IH2 _ Hb) as (vs' & H2). eexists. constructor; eassumption.
Qed.
Lemma derives_same_kinds A toks v toks' : derives A toks v -> kinds toks' = kinds toks -> exists v', derives A toks' v'.
Proof. intros H E. exact (proj1 der_same_kinds (Nt A) toks v H toks' E). Qed.
Lemma viable_same_kinds A u u' : viable_prefix A u -> kinds u' = kinds u -> viable_prefix A u'.
Proof.
  intros (w & v & H) E. destruct (derives_same_kinds A (u ++ w) v (u' ++ w) H) as (v' & H').
  - unfold kinds in *. rewrite !map_app, E. reflexivity.
  - exists w, v'. exact H'.
Qed.

(** ** C54 *)
(** A text that ends too early can be completed. *)
Definition sample (k : tk) : token :=
  match k with
  | KPlus => TPlus | KAsterisk => TAsterisk | KSemicolon => TSemicolon | KColon => TColon | KDot => TDot | KPipe => TPipe
  | KOpenBracket => TOpenBracket | KCloseBracket => TCloseBracket | KOpenParen => TOpenParen | KCloseParen => TCloseParen
  | KOpenBrace => TOpenBrace | KCloseBrace => TCloseBrace | KComma => TComma | KDoubleArrow => TDoubleArrow | KArrow => TArrow
  | KEquals => TEquals | KAmpersand => TAmpersand | KLeftArrow => TLeftArrow | KColonEquals => TColonEquals | KAt => TAt
  | KMinus => TMinus | KUnderscore => TUnderscore | KForall => TForall | KBuiltin => TBuiltin | KLibrary => TLibrary
  | KImport => TImport | KLet => TLet | KIn => TIn | KMatch => TMatch | KWith => TWith | KEnd => TEnd | KFun => TFun | KTfun => TTfun
  | KContract => TContract | KTransition => TTransition | KSend => TSend | KEvent => TEvent | KEventType => TEventType
  | KField => TField | KAccept => TAccept | KExists => TExists | KDelete => TDelete | KThrow => TThrow | KMap => TMap
  | KScillaVersion => TScillaVersion | KType => TType | KOf => TOf | KAs => TAs | KProcedure => TProcedure | KEmp => TEmp
  | KByStr => TByStr | KByStrWithSize => TByStrWithSize (lit "ByStr20") | KNumber => TNumber (lit "0") | KHexNumber => THexNumber (lit "0x")
  | KStringLiteral => TStringLiteral (lit """""") | KIdentifier => TIdentifier (lit "x") | KSpecialIdentifier => TSpecialIdentifier (lit "_x")
  | KCustomIdentifier => TCustomIdentifier (lit "X") | KTemplateIdentifier => TTemplateIdentifier (lit "'X")
  end.
Lemma sample_kind k : kind_of (sample k) = Some k.
Proof. destruct k; reflexivity. Qed.
Lemma sample_wf k : wf_token (sample k).
Proof.
  destruct k; try (apply wf_tokenb_sound; vm_compute; reflexivity).
  - apply (wf_hex 120 []); [auto|constructor].
  - apply (wf_string []); [constructor|reflexivity].
Qed.

Theorem C54_unexpected_end_can_be_completed : forall U A p c,
  is_whitespace c = true -> quotes_closed p ->
  parse_str U A (p ++ [c]) = PErrEof -> exists r v, parse_str U A (p ++ c :: r) = POk v.
Proof.
  intros U A p c Hc Hq H. unfold parse_str in *. destruct (lex U (p ++ [c])) as [is e] eqn:E.
  apply parse_error_eof_iff in H. destruct H as (-> & (w & v & Hd) & _).
  destruct (lex_extend U p c Hc Hq is LEof E) as (m & Hm & HR).
  assert (Hk : exists ks, kinds w = map Some ks).
  { pose proof (proj1 der_kinds (Nt A) _ _ Hd) as Hf. rewrite Forall_app in Hf. destruct Hf as [_ Hf]. clear -Hf.
    induction Hf as [|x l Hx _ (ks & IH)]; [exists []; reflexivity|]. unfold kinds in *. cbn. rewrite IH.
    destruct (kind_of (item_token x)) as [k|]; [|congruence]. exists (k :: ks). reflexivity. }
  destruct Hk as (ks & Hk). set (text := spaced (map sample ks)).
  assert (Ht : tokens_of U text = (map sample ks, LEof)).
  { apply written_tokens, spaced_written, Forall_forall. intros t Ht. apply in_map_iff in Ht. destruct Ht as (k & <- & _). apply sample_wf. }
  assert (Hr : exists r, tokens_of U (seen c m r) = (map sample ks, LEof)).
  { destruct m as [d|]; [|exists text; exact Ht]. exists (close_comment ++ text). cbn [seen in_comment] in *. rewrite <- Ht.
    replace (open_comment ++ d ++ c :: close_comment ++ text) with ((open_comment ++ (d ++ [c]) ++ close_comment) ++ text)
      by (rewrite <- !app_assoc; reflexivity).
    apply (tokens_layout U _ 0), layout_comment, Hm. }
  destruct Hr as (r & Hr). destruct (HR r) as (is' & e' & E' & _ & _ & H4). specialize (H4 eq_refl). rewrite Hr in H4. injection H4 as H4 <-.
  destruct (derives_same_kinds A (is ++ w) v (is ++ is') Hd) as (v' & Hd').
  - unfold kinds in *. rewrite !map_app. f_equal. rewrite Hk, <- map_map, <- H4, map_map. apply map_ext. intro k. apply sample_kind.
  - exists r, v'. rewrite E'. apply parse_complete, Hd'.
Qed.
(** A text with an error cannot. *)
Theorem C54_error_cannot_be_repaired : forall U A p c i,
  is_whitespace c = true -> quotes_closed p ->
  parse_str U A (p ++ [c]) = PErrToken i -> forall r v, parse_str U A (p ++ c :: r) <> POk v.
Proof. intros U A p c i Hc Hq H r v E. rewrite (parse_final U A p c i Hc Hq H r) in E. discriminate. Qed.

(** Only the kinds of the tokens count. *)
Theorem C54_only_kinds_count : forall U A text text' items items',
  lex U text = (items, LEof) -> lex U text' = (items', LEof) ->
  map (fun i => kind_of (item_token i)) items = map (fun i => kind_of (item_token i)) items' ->
  match parse_str U A text, parse_str U A text' with
  | POk _, POk _ => True
  | PErrEof, PErrEof => True
  | PErrToken i, PErrToken i' => exists n, nth_error items n = Some i /\ nth_error items' n = Some i'
  | _, _ => False
  end.
Proof.
  intros U A text text' items items' E E' K. unfold parse_str. rewrite E, E'.
  assert (Tok : forall its its' i, kinds its = kinds its' -> parse A its LEof = PErrToken i ->
    exists n i', nth_error its n = Some i /\ nth_error its' n = Some i' /\ parse A its' LEof = PErrToken i').
  { clear. intros its its' i K H. apply parse_error_token_iff in H. destruct H as (u & r & -> & Hu & Hn).
    destruct (kinds_split u ([i] ++ r) its' (eq_sym K)) as (u' & r1 & -> & Ku & Kr).
    destruct r1 as [|i' r']; [discriminate Kr|]. injection Kr as Ki Kr. exists (List.length u), i'.
    assert (El : List.length u' = List.length u) by (apply (f_equal (@List.length _)) in Ku; unfold kinds in Ku; rewrite !map_length in Ku; exact Ku).
    split; [rewrite nth_error_app2, PeanoNat.Nat.sub_diag by lia; reflexivity|].
    split; [rewrite nth_error_app2, El, PeanoNat.Nat.sub_diag by lia; reflexivity|].
    apply parse_error_token_iff. exists u', r'. split; [reflexivity|]. split; [exact (viable_same_kinds A u u' Hu Ku)|].
    intro Hv. apply Hn. apply (viable_same_kinds A _ _ Hv). unfold kinds in *. rewrite !map_app, Ku. cbn. rewrite Ki. reflexivity. }
  assert (Ok : forall its its' v, kinds its = kinds its' -> parse A its LEof = POk v -> exists v', parse A its' LEof = POk v').
  { clear. intros its its' v K H. apply parse_sound in H. destruct H as [H _]. destruct (derives_same_kinds A its v its' H (eq_sym K)) as (v' & H').
    exists v'. apply parse_complete, H'. }
  pose proof (parse_not_internal A items LEof) as NI. pose proof (parse_not_internal A items' LEof) as NI'.
  assert (NP : forall its, parse A its LEof <> PPanic) by (intros its H; apply parse_panic_iff in H; destruct H; congruence).
  change (kinds items = kinds items') in K.
  destruct (parse A items LEof) as [v|i| | |] eqn:P.
  - destruct (Ok _ _ _ K P) as (v' & ->). exact I.
  - destruct (Tok _ _ _ K P) as (n & i' & H1 & H2 & ->). eauto.
  - destruct (parse A items' LEof) as [v'|i'| | |] eqn:P'; try exact I.
    + destruct (Ok _ _ _ (eq_sym K) P') as (v2 & H2). congruence.
    + destruct (Tok _ _ _ (eq_sym K) P') as (n & i2 & _ & _ & H2). congruence.
    + exact (NP _ P').
    + congruence.
  - exact (NP _ P).
  - congruence.
Qed.

(** ** The hypotheses are met; and they are needed *)
Definition broken := lit "scilla_version 0 contract C () (* ""x *) field s : String = ""a\""b"" field Int32".
Lemma qc_chars w : forall s, Forall (fun x => x <> 34 /\ x <> 40) w -> quotes_closed s -> quotes_closed (w ++ s).
Proof.
  induction w as [|a w IH]; intros s Hw Hs; [exact Hs|]. inversion Hw as [|? ? [H1 H2] Hw']; subst.
  apply qc_char; [exact H1| |apply IH; assumption]. intros r E. change (open_comment ++ r) with (40 :: 42 :: r) in E. injection E as E _. congruence.
Qed.
Example C53_witness : quotes_closed broken /\ exists i, from_str U_none no_debug (broken ++ [10]) = RError (ParseErrorToken i)
  /\ position (item_start i) < byte_len broken
  /\ forall r, from_str U_none no_debug (broken ++ 10 :: r) = RError (ParseErrorToken i).
Proof.
  assert (Q : quotes_closed broken).
  { unfold broken. apply (qc_chars (lit "scilla_version 0 contract C ")); [repeat constructor; discriminate|].
    apply qc_char; [discriminate|intros r E; discriminate E|]. apply (qc_chars (lit ") ")); [repeat constructor; discriminate|].
    apply (qc_comment (lit " ""x ")).
    - intro H. repeat (apply occurs_cons in H; destruct H as [(E & _)|H]; [discriminate E|]). exact (not_occurs_nil H).
    - apply (qc_chars (lit " field s : String = ")); [repeat constructor; discriminate|].
      apply (qc_ascii_string (lit "a\""b")); [|reflexivity|].
      + apply sb_char; [discriminate..|]. apply sb_escape; [discriminate|]. apply sb_char; [discriminate..|]. constructor.
      + change (quotes_closed (lit " field Int32" ++ [])). apply qc_chars; [repeat constructor; discriminate|constructor]. }
  split; [exact Q|]. destruct (from_str U_none no_debug (broken ++ [10])) as [v|[i| |m|]| |] eqn:E;
    try (exfalso; vm_compute in E; discriminate E).
  exists i. split; [reflexivity|]. split.
  - vm_compute in E. injection E as <-. vm_compute. reflexivity.
  - exact (C53_error_is_final U_none no_debug broken 10 i eq_refl Q E).
Qed.
(** Also after a string literal with a character of two bytes, which takes the blank after it along. *)
Definition broken_latin : str := lit "contract "  ++ 34 :: [233] ++ 34 :: [32] ++ lit "C (* x *)".
Example C53_witness_latin : quotes_closed broken_latin /\ exists i, from_str U_none no_debug (broken_latin ++ [10]) = RError (ParseErrorToken i)
  /\ forall r, from_str U_none no_debug (broken_latin ++ 10 :: r) = RError (ParseErrorToken i).
Proof.
  assert (Q : quotes_closed broken_latin).
  { unfold broken_latin. apply (qc_chars (lit "contract ")); [repeat constructor; discriminate|].
    apply (qc_string [233] [32]); [apply sb_char; [discriminate..|constructor]|reflexivity|].
    apply (qc_chars (lit "C ")); [repeat constructor; discriminate|]. apply (qc_comment (lit " x ") []); [|constructor].
    intro H. repeat (apply occurs_cons in H; destruct H as [(E & _)|H]; [discriminate E|]). exact (not_occurs_nil H). }
  split; [exact Q|]. destruct (from_str U_none no_debug (broken_latin ++ [10])) as [v|[i| |m|]| |] eqn:E;
    try (exfalso; vm_compute in E; discriminate E).
  exists i. split; [reflexivity|]. exact (C53_error_is_final U_none no_debug broken_latin 10 i eq_refl Q E).
Qed.
(** After an open quote the error depends on what follows. *)
Theorem C53_open_quote_refuted : exists p c i r v,
  is_whitespace c = true /\ from_str U_none no_debug (p ++ [c]) = RError (ParseErrorToken i)
  /\ from_str U_none no_debug (p ++ c :: r) = RValue v.
Proof.
  exists (lit "scilla_version 0 contract C () field s : String = ""a"), 32.
  destruct (from_str U_none no_debug (lit "scilla_version 0 contract C () field s : String = ""a" ++ [32])) as [v|[i| |m|]| |] eqn:E;
    try (exfalso; vm_compute in E; discriminate E).
  exists i, (lit """"). eexists. split; [reflexivity|]. split; [reflexivity|]. vm_compute. reflexivity.
Qed.
Example C54_witness : parse_str U_none Program (lit "scilla_version 0 contract C () transition T (a : Int32) (* not ye" ++ [32]) = PErrEof
  /\ quotes_closed (lit "scilla_version 0 contract C () transition T (a : Int32) (* not ye")
  /\ exists r v, parse_str U_none Program (lit "scilla_version 0 contract C () transition T (a : Int32) (* not ye" ++ 32 :: r) = POk v.
Proof.
  assert (E : parse_str U_none Program (lit "scilla_version 0 contract C () transition T (a : Int32) (* not ye" ++ [32]) = PErrEof)
    by (vm_compute; reflexivity).
  assert (Q : quotes_closed (lit "scilla_version 0 contract C () transition T (a : Int32) (* not ye")).
  { apply (qc_chars (lit "scilla_version 0 contract C ")); [repeat constructor; discriminate|].
    apply qc_char; [discriminate|intros r E'; discriminate E'|]. apply (qc_chars (lit ") transition T ")); [repeat constructor; discriminate|].
    apply qc_char; [discriminate|intros r E'; discriminate E'|]. apply (qc_chars (lit "a : Int32) ")); [repeat constructor; discriminate|].
    apply (qc_open_comment (lit " not ye")).
    intro H. repeat (apply occurs_cons in H; destruct H as [(E' & _)|H]; [discriminate E'|]). exact (not_occurs_nil H). }
  split; [exact E|]. split; [exact Q|]. exact (C54_unexpected_end_can_be_completed U_none Program _ 32 eq_refl Q E).
Qed.
Example C54_kinds_witness : exists i i',
  parse_str U_none Program (lit "scilla_version 0 contract A B") = PErrToken i
  /\ parse_str U_none Program (lit "scilla_version 17 (* *) contract Long_Name  C") = PErrToken i' /\ i <> i'
  /\ nth_error (fst (lex U_none (lit "scilla_version 0 contract A B"))) 4 = Some i
  /\ nth_error (fst (lex U_none (lit "scilla_version 17 (* *) contract Long_Name  C"))) 4 = Some i'.
Proof. do 2 eexists. split; [vm_compute; reflexivity|]. split; [vm_compute; reflexivity|]. split; [discriminate|]. split; reflexivity. Qed.
