(** Property C74: white space can be changed freely (line endings, tabs,
    indentation, blank lines). *)
From Verif Require Import Chars Lexer LexSpec LexerProofs LexStep LexSegment LexWritten LexFacts Ast Types Grammar Cfg Parser GrammarLink Contract Emitter Erase EraseFacts EmitSpec EmitErase EmitOracle
  Range Rename RenameSpec RenameDer RenameEmit PropLexer PropErrors PropParser PropParse2 PropOracle Local PropLocal PropRange PropRename PropLiterals.
From Coq Require Import PeanoNat Lia.

(** ** Specification *)
Definition white (w : str) : Prop := Forall (fun c => is_whitespace c = true) w.

(** The same text, except that runs of white space are replaced by other runs of
    white space (neither empty), wherever they stand; with [trim], white space at
    the end may also be added or removed. *)
Inductive respaced (trim : bool) : str -> str -> Prop :=
| rs_end : respaced trim [] []
| rs_char c s s' : respaced trim s s' -> respaced trim (c :: s) (c :: s')
| rs_space w w' s s' : white w -> white w' -> w <> [] -> w' <> [] -> respaced trim s s' -> respaced trim (w ++ s) (w' ++ s')
| rs_trim w w' : trim = true -> white w -> white w' -> respaced trim w w'.
(** At the start white space may be added and removed anyway. *)
Definition reformatted (trim : bool) (text text' : str) : Prop :=
  exists w w' s s', white w /\ white w' /\ text = w ++ s /\ text' = w' ++ s' /\ respaced trim s s'.

(** Every line feed with a carriage return before it. *)
Definition crlf (text : str) : str := flat_map (fun c => if c =? 10 then [13; 10] else [c]) text.
(** Every tab as [n] spaces. *)
Definition expand_tabs (n : nat) (text : str) : str := flat_map (fun c => if c =? 9 then List.repeat 32 n else [c]) text.

(** The same token, or string literals that differ in white space. *)
Definition like_token (t t' : token) : Prop :=
  t = t' \/ exists b b', t = TStringLiteral (34 :: b) /\ t' = TStringLiteral (34 :: b') /\ respaced false b b'.
(** The same answer, except for positions and white space in string literals that
    are in error. *)
Definition like_answer (a a' : api contract) : Prop :=
  match a, a' with
  | RValue c, RValue c' => c = c'
  | RError (ParseErrorToken i), RError (ParseErrorToken i') => like_token (item_token i) (item_token i')
  | RError ParseErrorEof, RError ParseErrorEof => True
  | RError (ParseErrorEmit m), RError (ParseErrorEmit m') => m = m'
  | RPanic, RPanic => True
  | _, _ => False
  end.

(** ** The relation *)
Lemma respaced_refl trim s : respaced trim s s.
Proof. induction s; constructor; assumption. Qed.
Lemma respaced_sym trim s s' : respaced trim s s' -> respaced trim s' s.
Proof. induction 1; [apply rs_end|apply rs_char|apply rs_space|apply rs_trim]; assumption. Qed.
Lemma respaced_weak trim s s' : respaced false s s' -> respaced trim s s'.
Proof. induction 1; [apply rs_end|apply rs_char|apply rs_space|discriminate]; assumption. Qed.
Lemma inv_nil trim x : respaced trim [] x -> white x /\ (trim = false -> x = []).
Proof.
  intro H. inversion H as [|c s s' Hs|w w' s s' Hw Hw' N N' Hs E|w w' T Hw Hw']; subst.
  - split; [constructor|reflexivity].
  - destruct w; [congruence|discriminate].
  - split; [assumption|discriminate].
Qed.
Lemma inv_char trim c s x : is_whitespace c = false -> respaced trim (c :: s) x -> exists s', x = c :: s' /\ respaced trim s s'.
Proof.
  intros Hc H. inversion H as [|c0 s0 s' Hs|w w' s0 s' Hw Hw' N N' Hs E|w w' T Hw Hw']; subst.
  - eauto.
  - destruct w as [|d w]; [congruence|]. injection E as -> _. inversion Hw; subst. congruence.
  - inversion Hw; subst. congruence.
Qed.
Lemma inv_ws trim c s x : is_whitespace c = true -> respaced trim (c :: s) x ->
  respaced trim s x \/ exists w' s', x = w' ++ s' /\ white w' /\ respaced trim s s'.
Proof.
  intros Hc H. inversion H as [|c0 s0 s' Hs|w w' s0 s' Hw Hw' N N' Hs E|w w' T Hw Hw']; subst.
  - right. exists [c], s'. split; [reflexivity|]. split; [repeat constructor; assumption|assumption].
  - destruct w as [|d w]; [congruence|]. injection E as -> E. inversion Hw; subst. destruct w as [|d' w].
    + right. exists w', s'. auto.
    + left. apply rs_space; auto. discriminate.
  - left. inversion Hw; subst. apply rs_trim; auto.
Qed.
Definition nonws (a : str) : Prop := Forall (fun c => is_whitespace c = false) a.
Lemma inv_text trim a s x : nonws a -> respaced trim (a ++ s) x -> exists s', x = a ++ s' /\ respaced trim s s'.
Proof.
  intro Ha. revert x. induction Ha as [|c a Hc _ IH]; intros x H; [exists x; auto|].
  apply inv_char in H; [|assumption]. destruct H as (s' & -> & H). destruct (IH _ H) as (s2 & -> & H2). exists s2. auto.
Qed.
Lemma white_split a d b w s : a ++ d :: b = w ++ s -> white w -> is_whitespace d = false -> exists a1, a = w ++ a1 /\ s = a1 ++ d :: b.
Proof.
  revert a. induction w as [|e w IH]; intros a E Hw Hd; [exists a; auto|]. inversion Hw; subst.
  destruct a as [|e' a]; cbn [app] in E; injection E as E1 E2; [congruence|]. subst e'. destruct (IH a E2) as (a1 & -> & ->); [assumption|assumption|].
  exists a1. auto.
Qed.
Lemma inv_split trim y x : respaced trim y x -> forall a d b, y = a ++ d :: b -> is_whitespace d = false ->
  exists a' b', x = a' ++ d :: b' /\ respaced false a a' /\ respaced trim b b'.
Proof.
  induction 1 as [|c s s' H IH|w w' s s' Hw Hw' N N' H IH|w w' T Hw Hw']; intros a d b E Hd.
  - destruct a; discriminate.
  - destruct a as [|e a]; injection E as -> E.
    + exists [], s'. subst. split; [reflexivity|]. split; [constructor|assumption].
    + destruct (IH a d b E Hd) as (a' & b' & -> & Ha & Hb). exists (e :: a'), b'. split; [reflexivity|]. split; [apply rs_char|]; assumption.
  - symmetry in E. destruct (white_split _ _ _ _ _ E Hw Hd) as (a1 & -> & ->). destruct (IH a1 d b eq_refl Hd) as (a' & b' & -> & Ha & Hb).
    exists (w' ++ a'), b'. split; [rewrite app_assoc; reflexivity|]. split; [apply rs_space|]; assumption.
  - subst w. apply Forall_app in Hw. destruct Hw as [_ Hw]. inversion Hw; subst. congruence.
Qed.
Lemma nf_re trim p r r' : (forall c, is_whitespace c = true -> p c = false) -> respaced trim r r' -> not_followed_by p r -> not_followed_by p r'.
Proof.
  intros Hp H Hn. destruct r' as [|c r']; [exact I|]. cbn. destruct (is_whitespace c) eqn:Ec; [auto|].
  apply respaced_sym, inv_char in H; [|assumption]. destruct H as (s & -> & _). exact Hn.
Qed.

(** ** Tokens *)
Lemma word_char_ws U c : is_whitespace c = true -> word_char U c = false.
Proof.
  intro H. unfold word_char, is_alphanumeric, is_alphabetic, is_numeric. rewrite H. cbn [negb andb].
  assert (is_lower c = false /\ is_upper c = false /\ is_digit c = false /\ c =? 95 = false) as (-> & -> & -> & ->).
  { unfold is_whitespace, in_range in H. unfold is_lower, is_upper, is_digit, in_range. lia. }
  destruct (c <? 128); reflexivity.
Qed.
Lemma is_word_ws c : is_whitespace c = true -> is_word c = false.
Proof. unfold is_whitespace, is_word, is_lower, is_upper, is_digit, in_range. lia. Qed.
Lemma is_digit_ws c : is_whitespace c = true -> is_digit c = false.
Proof. unfold is_whitespace, is_digit, in_range. lia. Qed.
Lemma is_hex_nonws c : is_hex c = true -> is_whitespace c = false.
Proof. unfold is_whitespace, is_hex, is_digit, in_range. lia. Qed.
Lemma is_numeric_ws U c : is_whitespace c = true -> is_numeric U c = false.
Proof.
  intro H. unfold is_numeric. rewrite H, (is_digit_ws c H). destruct (c <? 128); reflexivity.
Qed.
Lemma word_nonws w : all_word w -> nonws w.
Proof. intro H. eapply Forall_impl; [|exact H]. intros c Hc. cbv beta in *. destruct (is_whitespace c) eqn:E; [|reflexivity]. rewrite is_word_ws in Hc by assumption. discriminate. Qed.
Lemma digits_nonws w : all_digits w -> nonws w.
Proof. intro H. eapply Forall_impl; [|exact H]. intros c Hc. cbv beta in *. destruct (is_whitespace c) eqn:E; [|reflexivity]. rewrite is_digit_ws in Hc by assumption. discriminate. Qed.
Lemma uword_nonws U w : Forall (fun c => word_char U c = true) w -> nonws w.
Proof. intro H. eapply Forall_impl; [|exact H]. intros c Hc. cbv beta in *. destruct (is_whitespace c) eqn:E; [|reflexivity]. rewrite word_char_ws in Hc by assumption. discriminate. Qed.
Lemma hex_nonws h : hex_digits h -> nonws h.
Proof. induction 1; [constructor|]. constructor; [apply is_hex_nonws; assumption|]. constructor; [apply is_hex_nonws; assumption|assumption]. Qed.
Lemma nonws_b a : forallb (fun c => negb (is_whitespace c)) a = true -> nonws a.
Proof. intro H. rewrite forallb_forall in H. apply Forall_forall. intros c Hc. apply H in Hc. destruct (is_whitespace c); [discriminate|reflexivity]. Qed.
Lemma punct_nonws w t : In (w, t) punctuation -> nonws w.
Proof.
  intro H. apply nonws_b. assert (E : forallb (fun p => forallb (fun c => negb (is_whitespace c)) (fst p)) punctuation = true) by (vm_compute; reflexivity).
  rewrite forallb_forall in E. exact (E _ H).
Qed.
Lemma punct_nostring w t : In (w, t) punctuation -> forall b, t <> TStringLiteral b.
Proof.
  intros H b ->. assert (E : forallb (fun p => match snd p with TStringLiteral _ => false | _ => true end) punctuation = true) by (vm_compute; reflexivity).
  rewrite forallb_forall in E. specialize (E _ H). discriminate.
Qed.
Lemma keyword_nostring w t : In (w, t) keyword_list -> forall b, t <> TStringLiteral b.
Proof.
  intros H b ->. assert (E : forallb (fun p => match snd p with TStringLiteral _ => false | _ => true end) keyword_list = true) by (vm_compute; reflexivity).
  rewrite forallb_forall in E. specialize (E _ H). discriminate.
Qed.
Lemma word_at_re U trim s w s' : word_at U s w -> respaced trim s s' -> word_at U s' w.
Proof.
  intros (r & -> & Hw & Hn) H. apply inv_text in H; [|eapply uword_nonws, Hw]. destruct H as (r' & -> & H). exists r'. split; [reflexivity|]. split; [assumption|].
  eapply nf_re; [apply word_char_ws|exact H|exact Hn].
Qed.
Lemma follow_re U trim t r r' : may_follow U t r -> respaced trim r r' -> may_follow U t r'.
Proof.
  intros H Hr. assert (P : forall d, is_whitespace d = false -> forall c, is_whitespace c = true -> c =? d = false).
  { intros d Hd c Hc. destruct (N.eqb_spec c d) as [->|]; [congruence|reflexivity]. }
  destruct t; cbn in *; try exact I; try (eapply nf_re; [|exact Hr|exact H]; (apply word_char_ws || (apply P; reflexivity) || (intros c Hc; cbv beta; rewrite (P 62 eq_refl c Hc), (is_numeric_ws U c Hc); reflexivity))).
Qed.
Lemma ws_first c s x : is_whitespace c = true -> respaced false (c :: s) x -> exists c1 s1, x = c1 :: s1 /\ is_whitespace c1 = true.
Proof.
  intros Hc H. destruct x as [|c1 s1]; [apply respaced_sym, inv_nil in H; destruct H as [_ H]; discriminate (H eq_refl)|].
  exists c1, s1. split; [reflexivity|]. destruct (is_whitespace c1) eqn:E; [reflexivity|]. apply respaced_sym, inv_char in H; [|assumption].
  destruct H as (? & H & _). injection H as -> _. congruence.
Qed.
Lemma body_white w s : white w -> string_body s -> string_body (w ++ s).
Proof.
  intros Hw Hs. induction Hw as [|c w Hc _ IH]; [exact Hs|]. cbn [app]. apply sb_char; [intros ->; discriminate Hc|intros ->; discriminate Hc|exact IH].
Qed.
Lemma body_re b : string_body b -> forall b', respaced false b b' -> string_body b'.
Proof.
  assert (Q : forall c s s1, is_whitespace c = true -> respaced false (c :: s) s1 -> (forall s', respaced false s s' -> string_body s') -> string_body (92 :: s1)).
  { intros c s s1 Ec H IH. destruct (ws_first _ _ _ Ec H) as (c1 & s2 & -> & E1). assert (B : string_body (c1 :: s2)).
    { apply inv_ws in H; [|assumption]. destruct H as [H|(w' & s' & -> & Hw & H)]; [apply IH, H|]. apply body_white; auto. }
    assert (string_body s2) by (inversion B; subst; assumption || discriminate E1).
    destruct (N.eq_dec c1 10) as [->|]; [apply sb_newline|apply sb_escape]; assumption. }
  induction 1 as [|c s N34 N92 Hs IH|c s N10 Hs IH|s Hs IH]; intros b' H.
  - apply inv_nil in H. rewrite <- (app_nil_r b'). apply body_white; [apply H|constructor].
  - destruct (is_whitespace c) eqn:Ec.
    + apply inv_ws in H; [|assumption]. destruct H as [H|(w' & s' & -> & Hw & H)]; [apply IH, H|]. apply body_white; auto.
    + apply inv_char in H; [|assumption]. destruct H as (s' & -> & H). apply sb_char; auto.
  - apply inv_char in H; [|reflexivity]. destruct H as (s1 & -> & H). destruct (is_whitespace c) eqn:Ec.
    + eapply Q; eassumption.
    + apply inv_char in H; [|assumption]. destruct H as (s' & -> & H). apply sb_escape; auto.
  - apply inv_char in H; [|reflexivity]. destruct H as (s1 & -> & H). eapply Q; [|exact H|exact IH]. reflexivity.
Qed.
Lemma in_re trim s s' d : is_whitespace d = false -> respaced trim s s' -> In d s -> In d s'.
Proof.
  intros Hd H Hi. apply in_split in Hi. destruct Hi as (a & b & ->). destruct (inv_split _ _ _ H a d b eq_refl Hd) as (a' & b' & -> & _).
  apply in_or_app. right. left. reflexivity.
Qed.
Lemma not_bystr trim s s' : respaced trim s s' -> (forall k, s <> lit "ByStr" ++ k) -> forall k, s' <> lit "ByStr" ++ k.
Proof.
  intros H Hn k ->. apply respaced_sym, inv_text in H; [|apply nonws_b; reflexivity]. destruct H as (r & -> & _). exact (Hn r eq_refl).
Qed.
Lemma nonws_cons c s : is_whitespace c = false -> nonws s -> nonws (c :: s).
Proof. constructor; assumption. Qed.
Lemma lower_nonws c : is_lower c = true -> is_whitespace c = false.
Proof. unfold is_whitespace, is_lower, in_range. lia. Qed.
Lemma upper_nonws c : is_upper c = true -> is_whitespace c = false.
Proof. unfold is_whitespace, is_upper, in_range. lia. Qed.
Lemma bystr_nonws : nonws (lit "ByStr").
Proof. apply nonws_b. reflexivity. Qed.
Lemma token_plain U trim s t : token_at U s t -> (forall b, t <> TStringLiteral b) -> forall s', respaced trim s s' -> token_at U s' t.
Proof.
  destruct 1 as [w t r Hi Hm|s w t Hi Hw|ds r N Hd Hn|r Hn|x hs r Hx Hh Hn|ds r N Hd Hn Hz|ds r N Hd Hn|b r Hb|b r Hb Hn|c w r Hc Hw Hn Hk|c w r Hc Hw Hn|c w r Hc Hw Hn Hk Hb|w r Hw Hn Hs];
    intros Hstr s' H.
  - apply inv_text in H; [|eapply punct_nonws, Hi]. destruct H as (r' & -> & H). apply ta_punct; [assumption|]. eapply follow_re; eassumption.
  - eapply ta_keyword; [exact Hi|]. eapply word_at_re; eassumption.
  - rewrite app_assoc in H. apply inv_text in H; [|apply Forall_app; split; [apply bystr_nonws|apply digits_nonws, Hd]]. destruct H as (r' & -> & H).
    rewrite <- app_assoc. apply ta_bystr_size; auto. eapply nf_re; [apply is_digit_ws|exact H|exact Hn].
  - apply inv_text in H; [|apply bystr_nonws]. destruct H as (r' & -> & H). apply ta_bystr. eapply nf_re; [apply is_digit_ws|exact H|exact Hn].
  - change (48 :: x :: hs ++ r) with ((48 :: x :: hs) ++ r) in H.
    apply inv_text in H; [|apply nonws_cons; [reflexivity|]; apply nonws_cons; [destruct Hx as [-> | ->]; reflexivity|apply hex_nonws, Hh]].
    destruct H as (r' & -> & H). apply ta_hex; auto. intros a b r'' -> Ha Hb. apply respaced_sym in H. change (a :: b :: r'') with ([a; b] ++ r'') in H.
    apply inv_text in H; [|apply nonws_cons; [apply is_hex_nonws, Ha|]; apply nonws_cons; [apply is_hex_nonws, Hb|constructor]].
    destruct H as (z & -> & _). exact (Hn a b z eq_refl Ha Hb).
  - apply inv_text in H; [|apply digits_nonws, Hd]. destruct H as (r' & -> & H). apply ta_number; auto.
    + eapply nf_re; [apply is_digit_ws|exact H|exact Hn].
    + intro E. eapply nf_re; [|exact H|exact (Hz E)]. intros c Hc. destruct (N.eqb_spec c 120) as [->|]; [discriminate Hc|]. destruct (N.eqb_spec c 88) as [->|]; [discriminate Hc|]. reflexivity.
  - change (45 :: ds ++ r) with ((45 :: ds) ++ r) in H. apply inv_text in H; [|apply nonws_cons; [reflexivity|apply digits_nonws, Hd]].
    destruct H as (r' & -> & H). apply ta_negative; auto. eapply nf_re; [apply is_digit_ws|exact H|exact Hn].
  - exfalso. eapply Hstr. reflexivity.
  - exfalso. eapply Hstr. reflexivity.
  - pose proof H as H0. change (c :: w ++ r) with ((c :: w) ++ r) in H. apply inv_text in H; [|apply nonws_cons; [apply lower_nonws, Hc|apply word_nonws, Hw]].
    destruct H as (r' & -> & H). apply ta_identifier; auto. { eapply nf_re; [apply is_word_ws|exact H|exact Hn]. }
    intros k Hk'. apply Hk. eapply word_at_re; [exact Hk'|apply respaced_sym, H0].
  - change (39 :: c :: w ++ r) with ((39 :: c :: w) ++ r) in H. apply inv_text in H; [|apply nonws_cons; [reflexivity|]; apply nonws_cons; [apply upper_nonws, Hc|apply word_nonws, Hw]].
    destruct H as (r' & -> & H). apply ta_template; auto. eapply nf_re; [apply is_word_ws|exact H|exact Hn].
  - pose proof H as H0. change (c :: w ++ r) with ((c :: w) ++ r) in H. apply inv_text in H; [|apply nonws_cons; [apply upper_nonws, Hc|apply word_nonws, Hw]].
    destruct H as (r' & -> & H). apply ta_custom; auto. { eapply nf_re; [apply is_word_ws|exact H|exact Hn]. }
    + intros k Hk'. apply Hk. eapply word_at_re; [exact Hk'|apply respaced_sym, H0].
    + apply (not_bystr _ _ _ H0 Hb).
  - change (95 :: w ++ r) with ((95 :: w) ++ r) in H. apply inv_text in H; [|apply nonws_cons; [reflexivity|apply word_nonws, Hw]].
    destruct H as (r' & -> & H). apply ta_special; auto. { eapply nf_re; [apply is_word_ws|exact H|exact Hn]. }
    intro Q. apply Hs. destruct w as [|c w]; [|exact Q]. cbn [app] in *. eapply nf_re; [apply word_char_ws|apply respaced_sym, H|exact Q].
Qed.
Lemma text_nonws U s t : token_at U s t -> (forall b, t <> TStringLiteral b) -> nonws (token_text t).
Proof.
  destruct 1 as [w t r Hi Hm|s w t Hi Hw|ds r N Hd Hn|r Hn|x hs r Hx Hh Hn|ds r N Hd Hn Hz|ds r N Hd Hn|b r Hb|b r Hb Hn|c w r Hc Hw Hn Hk|c w r Hc Hw Hn|c w r Hc Hw Hn Hk Hb|w r Hw Hn Hs]; intro Hstr.
  - apply nonws_b. assert (E : forallb (fun p => forallb (fun c => negb (is_whitespace c)) (token_text (snd p))) punctuation = true) by (vm_compute; reflexivity).
    rewrite forallb_forall in E. exact (E _ Hi).
  - apply nonws_b. assert (E : forallb (fun p => forallb (fun c => negb (is_whitespace c)) (token_text (snd p))) keyword_list = true) by (vm_compute; reflexivity).
    rewrite forallb_forall in E. exact (E _ Hi).
  - apply Forall_app. split; [apply bystr_nonws|apply digits_nonws, Hd].
  - apply bystr_nonws.
  - apply nonws_cons; [reflexivity|]. apply nonws_cons; [destruct Hx as [-> | ->]; reflexivity|apply hex_nonws, Hh].
  - apply digits_nonws, Hd.
  - apply nonws_cons; [reflexivity|apply digits_nonws, Hd].
  - exfalso. eapply Hstr. reflexivity.
  - exfalso. eapply Hstr. reflexivity.
  - apply nonws_cons; [apply lower_nonws, Hc|apply word_nonws, Hw].
  - apply nonws_cons; [reflexivity|]. apply nonws_cons; [apply upper_nonws, Hc|apply word_nonws, Hw].
  - apply nonws_cons; [apply upper_nonws, Hc|apply word_nonws, Hw].
  - apply nonws_cons; [reflexivity|apply word_nonws, Hw].
Qed.
Lemma string_inv U s l : token_at U s (TStringLiteral l) -> exists b r, l = 34 :: b ++ [34] /\ s = 34 :: b ++ 34 :: r.
Proof.
  intro Ht. inversion Ht as [w t r0 Hi Hm E1 E2|s0 w t Hi Hw E1 E2| | | | | |b0 r0 Hb0 E1 E2|b0 r0 Hb0 Hn0 E1 E2| | | |]; subst.
  - exfalso. eapply punct_nostring; [exact Hi|reflexivity].
  - exfalso. eapply keyword_nostring; [exact Hi|reflexivity].
  - eauto.
  - eauto.
Qed.
(** A string literal is cut in the same place. *)
Lemma token_string U trim s b : token_at U s (TStringLiteral b) -> forall r s', s = b ++ r -> respaced trim s s' ->
  exists b' r', token_at U s' (TStringLiteral b') /\ s' = b' ++ r' /\ respaced false b b' /\ respaced trim r r'.
Proof.
  intros H r s' Er Hs.
  assert (Cut : forall b0 r0, b = 34 :: b0 ++ [34] -> s = 34 :: b0 ++ 34 :: r0 ->
    exists b1 r1, s' = 34 :: b1 ++ 34 :: r1 /\ respaced false b0 b1 /\ respaced trim r0 r1 /\ r0 = r).
  { intros b0 r0 -> E. rewrite E in Hs. apply inv_char in Hs; [|reflexivity]. destruct Hs as (s1 & -> & Hs).
    destruct (inv_split _ _ _ Hs b0 34 r0 eq_refl eq_refl) as (b1 & r1 & -> & H1 & H2). exists b1, r1. repeat split; auto.
    rewrite Er in E. cbn [app] in E. injection E as E. rewrite <- app_assoc in E. apply app_inv_head in E. injection E as E. auto. }
  assert (Fin : forall b0 b1, b = 34 :: b0 ++ [34] -> respaced false b0 b1 -> respaced false b (34 :: b1 ++ [34])).
  { intros b0 b1 -> Hb. apply rs_char. clear - Hb. induction Hb; cbn [app].
    - apply respaced_refl.
    - apply rs_char; assumption.
    - rewrite <- !app_assoc. apply rs_space; assumption.
    - discriminate. }
  inversion H as [w t r0 Hi Hm E1 E2|s0 w t Hi Hw E1 E2| | | | | |b0 r0 Hb E1 E2|b0 r0 Hb Hn E1 E2| | | |]; subst.
  - exfalso. eapply punct_nostring; [exact Hi|reflexivity].
  - exfalso. eapply keyword_nostring; [exact Hi|reflexivity].
  - symmetry in E1. destruct (Cut b0 r0 eq_refl E1) as (b1 & r1 & -> & H1 & H2 & ->). exists (34 :: b1 ++ [34]), r1.
    split; [apply ta_string; eapply body_re; eassumption|]. split; [cbn [app]; rewrite <- app_assoc; reflexivity|]. split; [eapply Fin; [reflexivity|assumption]|assumption].
  - symmetry in E1. destruct (Cut b0 r0 eq_refl E1) as (b1 & r1 & -> & H1 & H2 & ->). exists (34 :: b1 ++ [34]), r1.
    split; [|split; [cbn [app]; rewrite <- app_assoc; reflexivity|split; [eapply Fin; [reflexivity|assumption]|assumption]]].
    apply ta_string_last_quote.
    + intros b' r' Hb' E. rewrite E1 in Hs. apply inv_char in Hs; [|reflexivity]. destruct Hs as (s1 & Es & Hs). injection Es as <-.
      apply respaced_sym in Hs. destruct (inv_split _ _ _ Hs b' 34 r' E eq_refl) as (b2 & r2 & E' & Hb2 & _).
      exact (Hb b2 r2 (body_re _ Hb' _ Hb2) E').
    + intro Hi. apply Hn. eapply in_re; [|apply respaced_sym, H2|exact Hi]. reflexivity.
Qed.
Lemma bad_re U s s' : respaced false s s' -> bad_word U s -> bad_word U s'.
Proof.
  intros H (w & r & -> & Nw & Nr & Hw & Hb). assert (Hw' := word_at_re U _ _ _ _ Hw H). destruct Hw as (r0 & _ & Hc & _).
  apply inv_text in H; [|eapply uword_nonws, Hc]. destruct H as (r' & -> & H). exists w, r'. repeat split; auto.
  intros ->. apply respaced_sym, inv_nil in H. apply Nr, H. reflexivity.
Qed.
Lemma not_open_re trim s s' : respaced trim s s' -> (forall r, s <> open_comment ++ r) -> forall r, s' <> open_comment ++ r.
Proof.
  intros H Hn r ->. apply respaced_sym, inv_text in H; [|apply nonws_b; reflexivity]. destruct H as (z & -> & _). exact (Hn z eq_refl).
Qed.
Lemma close_re trim c c' : respaced trim c c' -> ~ occurs close_comment c -> ~ occurs close_comment c'.
Proof.
  intros H Hn (p & q & E). apply Hn. apply respaced_sym in H. destruct (inv_split _ _ _ H p 42 (41 :: q) E eq_refl) as (p' & q' & -> & _ & Hq).
  apply inv_char in Hq; [|reflexivity]. destruct Hq as (q2 & -> & _). exists p', q2. reflexivity.
Qed.
Lemma skip_white U w s is e : white w -> forall pos ln b pr, segmented U pos ln b pr s is e ->
  forall pos' ln' b' pr', exists is', segmented U pos' ln' b' pr' (w ++ s) is' e /\ map item_token is' = map item_token is.
Proof.
  intros Hw pos ln b pr H. induction Hw as [|c w Hc _ IH]; intros pos' ln' b' pr'.
  - apply (segmented_shift _ _ _ _ _ _ _ _ H).
  - destruct (N.eq_dec c 10) as [->|N].
    + destruct (IH (pos' + 1) (ln' + 1) pos' pos') as (is' & Hs & E). exists is'. split; [apply sg_newline, Hs|exact E].
    + destruct (IH (pos' + len_utf8 c) ln' b' pos') as (is' & Hs & E). exists is'. split; [apply sg_space; assumption|exact E].
Qed.

(** ** Texts *)
(** What is asked of the texts. *)
Definition admissible (trim : bool) (s s' : str) : Prop :=
  (trim = false /\ ~ In 34 s) \/ (ascii_str s = true /\ ascii_str s' = true).
Lemma admissible_app trim a s a' s' : admissible trim (a ++ s) (a' ++ s') -> admissible trim s s'.
Proof.
  intros [[-> H]|H]; [left; split; [reflexivity|]; intro Hi; apply H, in_or_app; auto|right]. rewrite !ascii_app, !andb_true_iff in H. tauto.
Qed.
Lemma admissible_sym trim s s' : respaced trim s s' -> admissible trim s s' -> admissible trim s' s.
Proof. intros Hr [[-> H]|H]; [left; split; [reflexivity|]; intro Hi; apply H; eapply in_re; [|apply respaced_sym, Hr|exact Hi]; reflexivity|right; tauto]. Qed.
Lemma ascii_not_bad U s : ascii_str s = true -> ~ bad_word U s.
Proof. intros Ha Hb. destruct (bad_word_not_ascii _ _ Hb) as (w & r & -> & _ & Hw). rewrite ascii_app, Hw in Ha. discriminate. Qed.
Lemma not_bad_re U trim s s' : respaced trim s s' -> admissible trim s s' -> ~ bad_word U s -> ~ bad_word U s'.
Proof. intros H [[-> _]|[_ Ha]] Hn; [intro Hb; apply Hn; eapply bad_re; [apply respaced_sym, H|exact Hb]|apply ascii_not_bad, Ha]. Qed.
Lemma segmented_re U trim pos ln b pr s is e : segmented U pos ln b pr s is e -> forall s', respaced trim s s' -> admissible trim s s' ->
  forall pos' ln' b' pr', exists is', segmented U pos' ln' b' pr' s' is' e /\ Forall2 like_token (map item_token is) (map item_token is').
Proof.
  induction 1 as [pos ln b pr|pos ln b pr s is e H IH|pos ln b pr c s is e Hws H10 H IH|pos ln b pr c s is e Hc H IH|pos ln b pr c Hc|pos ln b pr t x s is e Ht Hb Hl H IH
    |pos ln b pr c s is e Hws Ho Hn Hb H IH|pos ln b pr s Hb]; intros s' Hr Ha pos' ln' b' pr'.
  - apply inv_nil in Hr. destruct Hr as [Hw _]. destruct (skip_white U s' [] [] LEof Hw 0 0 0 0 (sg_end _ _ _ _ _) pos' ln' b' pr') as (is' & Hs & E).
    rewrite app_nil_r in Hs. exists is'. split; [exact Hs|]. rewrite E. constructor.
  - apply inv_ws in Hr; [|reflexivity]. destruct Hr as [Hr|(w' & s1 & -> & Hw & Hr)].
    + apply IH; [assumption|]. exact (admissible_app trim [10] s [] s' Ha).
    + destruct (IH s1 Hr (admissible_app trim [10] s w' s1 Ha) 0 0 0 0) as (is1 & Hs & E).
      destruct (skip_white U w' s1 is1 e Hw _ _ _ _ Hs pos' ln' b' pr') as (is' & Hs' & E'). exists is'. split; [exact Hs'|]. rewrite E'. exact E.
  - apply inv_ws in Hr; [|assumption]. destruct Hr as [Hr|(w' & s1 & -> & Hw & Hr)].
    + apply IH; [assumption|]. exact (admissible_app trim [c] s [] s' Ha).
    + destruct (IH s1 Hr (admissible_app trim [c] s w' s1 Ha) 0 0 0 0) as (is1 & Hs & E).
      destruct (skip_white U w' s1 is1 e Hw _ _ _ _ Hs pos' ln' b' pr') as (is' & Hs' & E'). exists is'. split; [exact Hs'|]. rewrite E'. exact E.
  - apply inv_text in Hr; [|apply nonws_b; reflexivity]. destruct Hr as (s1 & -> & Hr).
    destruct (inv_split _ _ _ Hr c 42 (41 :: s) eq_refl eq_refl) as (c' & s2 & -> & Hc' & Hr2).
    apply inv_char in Hr2; [|reflexivity]. destruct Hr2 as (s3 & -> & Hr3).
    destruct (IH s3 Hr3) with (pos' := pos' + byte_len (open_comment ++ c' ++ close_comment)) (ln' := ln') (b' := b') (pr' := pos') as (is' & Hs & E).
    { apply (admissible_app trim (open_comment ++ c ++ close_comment) s (open_comment ++ c' ++ close_comment) s3). rewrite <- !app_assoc. exact Ha. }
    exists is'. split; [|exact E]. apply (sg_comment U pos' ln' b' pr' c' s3 is' e); [eapply close_re; eassumption|exact Hs].
  - apply inv_text in Hr; [|apply nonws_b; reflexivity]. destruct Hr as (s1 & -> & Hr). exists []. split; [|constructor].
    apply sg_open_comment. eapply close_re; eassumption.
  - assert (Hstr : (exists l, t = TStringLiteral l) \/ forall l, t <> TStringLiteral l) by (destruct t; eauto; right; discriminate).
    destruct Hstr as [(l & ->)|Hstr].
    + (* a string literal: the texts are ASCII *)
      cbn [token_text] in *. assert (Hx : x = []).
      { destruct Ha as [[_ Ha]|[Ha _]].
        - exfalso. apply Ha. destruct (string_inv _ _ _ Ht) as (b0 & r0 & _ & ->). left. reflexivity.
        - rewrite !ascii_app, !andb_true_iff in Ha. destruct Ha as (Ha & _ & _). cbn in Hl. rewrite (byte_len_ascii _ Ha), N.sub_diag in Hl.
          destruct x; [reflexivity|]. cbn [List.length] in Hl. lia. }
      subst x. cbn [app] in *. destruct (token_string U trim _ _ Ht s s' eq_refl Hr) as (l' & s1 & Ht' & -> & Hl' & Hr').
      destruct (IH s1 Hr' (admissible_app _ _ _ _ _ Ha) (pos' + byte_len (l' ++ [])) ln' b' pos') as (is' & Hs & E).
      eexists. split.
      * apply (sg_token U pos' ln' b' pr' (TStringLiteral l') [] s1 is' e); [exact Ht'| | |exact Hs].
        { eapply not_bad_re; eassumption. }
        destruct Ha as [[_ Ha]|[_ Ha]].
        { exfalso. apply Ha. destruct (string_inv _ _ _ Ht) as (b0 & r0 & _ & ->). left. reflexivity. }
        cbn. left. rewrite ascii_app, andb_true_iff in Ha. rewrite (byte_len_ascii _ (proj1 Ha)). lia.
      * constructor; [|exact E]. right. destruct (string_inv _ _ _ Ht) as (b0 & r0 & -> & _). apply inv_char in Hl'; [|reflexivity]. destruct Hl' as (b1 & -> & Hl'). exists (b0 ++ [34]), b1. auto.
    + assert (Hx : x = []) by (destruct t; try exact Hl; exfalso; eapply Hstr; reflexivity). subst x. cbn [app] in *.
      pose proof Hr as Hr0. apply inv_text in Hr; [|eapply text_nonws; eassumption]. destruct Hr as (s1 & -> & Hr).
      destruct (IH s1 Hr (admissible_app _ _ _ _ _ Ha) (pos' + byte_len (token_text t ++ [])) ln' b' pos') as (is' & Hs & E).
      eexists. split.
      * apply (sg_token U pos' ln' b' pr' t [] s1 is' e); [eapply token_plain; eassumption|eapply not_bad_re; eassumption|destruct t; try reflexivity; exfalso; eapply Hstr; reflexivity|exact Hs].
      * constructor; [left; reflexivity|exact E].
  - pose proof Hr as Hr0. apply inv_char in Hr; [|assumption]. destruct Hr as (s1 & -> & Hr).
    destruct (IH s1 Hr (admissible_app _ [c] s [c] s1 Ha) (pos' + len_utf8 c) ln' b' pos') as (is' & Hs & E).
    eexists. split.
    + apply sg_unknown; [assumption|eapply not_open_re; eassumption| |eapply not_bad_re; eassumption|exact Hs].
      intros t Ht. assert (Hstr : (exists l, t = TStringLiteral l) \/ forall l, t <> TStringLiteral l) by (destruct t; eauto; right; discriminate).
      apply respaced_sym in Hr0. destruct Hstr as [(l & ->)|Hstr]; [|exact (Hn t (token_plain U _ _ _ Ht Hstr _ Hr0))].
      assert (Hpre : exists r, c :: s1 = l ++ r).
      { destruct (string_inv _ _ _ Ht) as (b0 & r0 & -> & ->). exists r0. cbn [app]. rewrite <- app_assoc. reflexivity. }
      destruct Hpre as (r & Hpre). destruct (token_string U trim _ _ Ht r _ Hpre Hr0) as (l' & r' & Ht' & _). exact (Hn _ Ht').
    + constructor; [left; reflexivity|exact E].
  - exists []. split; [|constructor]. apply sg_panic. destruct Ha as [[-> _]|[Ha _]]; [eapply bad_re; eassumption|]. exfalso. exact (ascii_not_bad U s Ha Hb).
Qed.
Lemma tokens_re U trim text text' : reformatted trim text text' -> admissible trim text text' ->
  Forall2 like_token (fst (tokens_of U text)) (fst (tokens_of U text')) /\ snd (tokens_of U text) = snd (tokens_of U text').
Proof.
  intros (w & w' & s & s' & Hw & Hw' & -> & -> & Hr) Ha. apply admissible_app in Ha.
  destruct (segmented_exists U s 0 0 0 0) as (is & e & Hs & _).
  destruct (segmented_re U trim _ _ _ _ _ _ _ Hs s' Hr Ha 0 0 0 0) as (is' & Hs' & E).
  destruct (skip_white U w s is e Hw _ _ _ _ Hs 0 0 0 0) as (i1 & S1 & E1). destruct (skip_white U w' s' is' e Hw' _ _ _ _ Hs' 0 0 0 0) as (i2 & S2 & E2).
  rewrite (segmented_tokens _ _ _ _ _ _ _ _ S1), (segmented_tokens _ _ _ _ _ _ _ _ S2). cbn [fst snd]. rewrite E1, E2. auto.
Qed.

(** ** Answers *)
Lemma like_kind t t' : like_token t t' -> kind_of t = kind_of t'.
Proof. intros [->|(b & b' & -> & -> & _)]; reflexivity. Qed.
Lemma like_kinds l l' : Forall2 like_token (map item_token l) (map item_token l') -> kinds l = kinds l'.
Proof.
  unfold kinds. revert l'. induction l as [|i l IH]; intros [|i' l'] H; cbn [map] in *; inversion H; subst; [reflexivity|]. f_equal; [|apply IH; assumption].
  apply like_kind. assumption.
Qed.
Lemma like_split u i w : forall l', Forall2 like_token (map item_token (u ++ i :: w)) (map item_token l') ->
  exists u' i' w', l' = u' ++ i' :: w' /\ Forall2 like_token (map item_token u) (map item_token u') /\ like_token (item_token i) (item_token i').
Proof.
  induction u as [|j u IH]; intros [|j' l'] H; cbn [app map] in H; inversion H; subst.
  - exists [], j', l'. repeat split; [constructor|assumption].
  - destruct (IH l') as (u' & i' & w' & -> & Hu & Hi); [assumption|]. exists (j' :: u'), i', w'. split; [reflexivity|]. split; [constructor; assumption|assumption].
Qed.
Lemma like_parse_error A l l' e i : Forall2 like_token (map item_token l) (map item_token l') -> parse A l e = PErrToken i ->
  exists i', parse A l' e = PErrToken i' /\ like_token (item_token i) (item_token i').
Proof.
  intros H E. apply parse_error_token_iff in E. destruct E as (u & w & -> & Hu & Hn). destruct (like_split _ _ _ _ H) as (u' & i' & w' & -> & Hu' & Hi).
  exists i'. split; [|exact Hi]. apply like_kinds in Hu'. apply parse_error_token_iff. exists u', w'. split; [reflexivity|]. split; [apply (viable_same_kinds A u u' Hu), eq_sym, Hu'|].
  intro Hv. apply Hn. apply (viable_same_kinds A _ _ Hv). unfold kinds in *. rewrite !map_app, Hu'. cbn [map]. rewrite (like_kind _ _ Hi). reflexivity.
Qed.
Lemma like_literal t t' : like_token t t' -> same_but_literal t t'.
Proof. intros [->|(b & b' & -> & -> & _)]; [left; reflexivity|right]. repeat split. Qed.

(** Layout of an ASCII text: white space may be replaced everywhere, also inside
    comments and string literals, and added or removed at both ends. *)
Theorem C74_ascii : forall U debug text text',
  ascii_str text = true -> ascii_str text' = true -> reformatted true text text' ->
  like_answer (from_str U debug text) (from_str U debug text').
Proof.
  intros U debug text text' Ha Ha' Hr. destruct (tokens_re U true text text' Hr (or_intror (conj Ha Ha'))) as [Ht He].
  assert (Hl : Forall2 same_but_literal (fst (tokens_of U text)) (fst (tokens_of U text'))).
  { clear - Ht. induction Ht; constructor; [apply like_literal; assumption|assumption]. }
  pose proof (C77_literals_are_opaque U U debug text text' Hl He) as H. clear Hl. unfold tokens_of in Ht, He. unfold from_str, parse_str in *.
  destruct (lex U text) as [l e], (lex U text') as [l' e']. cbn [fst snd] in *.
  assert (Em : forall v, match emit_api debug v with RError (ParseErrorToken _) => False | _ => True end).
  { intro v. unfold emit_api. destruct (emit_program debug v); exact I. }
  destruct (parse Program l e) as [v|i| | |] eqn:E, (parse Program l' e') as [v'|i'| | |] eqn:E'; try exact H; try contradiction.
  - pose proof (Em v) as M. destruct (emit_api debug v) as [c|[]| |], (emit_api debug v') as [c'|[]| |]; exact H || contradiction.
  - pose proof (Em v) as M. destruct (emit_api debug v) as [c|[]| |]; contradiction.
  - pose proof (Em v') as M. destruct (emit_api debug v') as [c|[]| |]; contradiction.
  - destruct (like_parse_error _ _ _ _ _ Ht E) as (i2 & E2 & Hi). cbn in H |- *. destruct H as (n & N1 & N2).
    rewrite He, E' in E2. injection E2 as <-. exact Hi.
Qed.

(** Layout of any text without double quotes: the same, except for the end. *)
Lemma no_strings U pos ln b pr s is e : segmented U pos ln b pr s is e -> ~ In 34 s -> Forall (fun i => forall l, item_token i <> TStringLiteral l) is.
Proof.
  assert (Skip : forall a (l : str), ~ In 34 (a ++ l) -> ~ In 34 l) by (intros a l H Hi; apply H, in_or_app; auto).
  induction 1 as [pos ln b pr|pos ln b pr s is e H IH|pos ln b pr c s is e Hws H10 H IH|pos ln b pr c s is e Hc H IH|pos ln b pr c Hc|pos ln b pr t x s is e Ht Hb Hl H IH
    |pos ln b pr c s is e Hws Ho Hn Hb H IH|pos ln b pr s Hb]; intro Hq; try constructor.
  - apply IH. exact (Skip [10] s Hq).
  - apply IH. exact (Skip [c] s Hq).
  - apply IH. rewrite !app_assoc in Hq. exact (Skip _ s Hq).
  - cbn [item_token fst snd]. intros l ->. destruct (string_inv _ _ _ Ht) as (b0 & r0 & -> & E). apply Hq. rewrite E. left. reflexivity.
  - apply IH. rewrite app_assoc in Hq. exact (Skip _ s Hq).
  - discriminate.
  - apply IH. exact (Skip [c] s Hq).
Qed.
Theorem C74_unicode : forall U debug text text',
  ~ In 34 text -> reformatted false text text' ->
  shape_of (from_str U debug text) = shape_of (from_str U debug text').
Proof.
  intros U debug text text' Hq Hr. apply C15_from_str_depends_on_tokens.
  destruct (tokens_re U false text text' Hr (or_introl (conj eq_refl Hq))) as [Ht He].
  destruct (segmented_exists U text 0 0 0 0) as (is & e & Hs & _). apply no_strings in Hs as Hn; [|assumption].
  rewrite (segmented_tokens _ _ _ _ _ _ _ _ Hs) in *. destruct (tokens_of U text') as [l' e']. cbn [fst snd] in *. subst e'. f_equal.
  clear - Ht Hn. revert l' Ht. induction Hn as [|i is Hi _ IH]; intros l' Ht; cbn [map] in Ht; inversion Ht as [|? t' ? l2 H1 H2]; subst; [reflexivity|].
  cbn [map]. f_equal; [|apply IH; assumption]. destruct H1 as [E|(b & b' & E & _)]; [exact E|]. elim (Hi _ E).
Qed.

(** ** Line endings and tabs *)
Lemma crlf_respaced text : respaced false text (crlf text).
Proof.
  induction text as [|c text IH]; [constructor|]. cbn [crlf flat_map]. destruct (N.eqb_spec c 10) as [->|].
  - change (10 :: text) with ([10] ++ text). apply rs_space; [repeat constructor|repeat constructor|discriminate|discriminate|exact IH].
  - apply rs_char, IH.
Qed.
Lemma white_repeat n : white (List.repeat 32 n).
Proof. induction n; cbn; constructor; [reflexivity|assumption]. Qed.
Lemma tabs_respaced n text : respaced false text (expand_tabs (S n) text).
Proof.
  induction text as [|c text IH]; [constructor|]. cbn [expand_tabs flat_map]. destruct (N.eqb_spec c 9) as [->|].
  - change (9 :: text) with ([9] ++ text). apply rs_space; [repeat constructor|apply white_repeat|discriminate|discriminate|exact IH].
  - apply rs_char, IH.
Qed.
Lemma respaced_reformatted trim s s' : respaced trim s s' -> reformatted trim s s'.
Proof. intro H. exists [], [], s, s'. repeat split; [constructor|constructor|assumption]. Qed.
Lemma crlf_ascii text : ascii_str text = true -> ascii_str (crlf text) = true.
Proof.
  induction text as [|c text IH]; [reflexivity|]. change (ascii_str ([c] ++ text) = true -> ascii_str ((if c =? 10 then [13; 10] else [c]) ++ crlf text) = true).
  rewrite !ascii_app, !andb_true_iff. intros [H1 H2]. split; [destruct (c =? 10); [reflexivity|exact H1]|apply IH, H2].
Qed.
Lemma tabs_ascii n text : ascii_str text = true -> ascii_str (expand_tabs n text) = true.
Proof.
  induction text as [|c text IH]; [reflexivity|]. change (ascii_str ([c] ++ text) = true -> ascii_str ((if c =? 9 then List.repeat 32 n else [c]) ++ expand_tabs n text) = true).
  rewrite !ascii_app, !andb_true_iff. intros [H1 H2]. split; [destruct (c =? 9); [|exact H1]|apply IH, H2]. clear. induction n; [reflexivity|exact IHn].
Qed.

Corollary C74_line_endings : forall U debug text,
  (ascii_str text = true -> like_answer (from_str U debug text) (from_str U debug (crlf text))) /\
  (~ In 34 text -> shape_of (from_str U debug text) = shape_of (from_str U debug (crlf text))).
Proof.
  intros U debug text. pose proof (crlf_respaced text) as H. split; intro Ha.
  - apply C74_ascii; [assumption|apply crlf_ascii, Ha|apply respaced_reformatted, respaced_weak, H].
  - apply C74_unicode; [assumption|apply respaced_reformatted, H].
Qed.
Corollary C74_tabs : forall U debug n text, n <> O ->
  (ascii_str text = true -> like_answer (from_str U debug text) (from_str U debug (expand_tabs n text))) /\
  (~ In 34 text -> shape_of (from_str U debug text) = shape_of (from_str U debug (expand_tabs n text))).
Proof.
  intros U debug n text Hn. destruct n as [|n]; [contradiction|]. pose proof (tabs_respaced n text) as H. split; intro Ha.
  - apply C74_ascii; [assumption|apply tabs_ascii, Ha|apply respaced_reformatted, respaced_weak, H].
  - apply C74_unicode; [assumption|apply respaced_reformatted, H].
Qed.
(** In particular an accepted file stays accepted, with the same contract. *)
Corollary C74_accepted : forall U debug debug' text text' c,
  ascii_str text = true -> ascii_str text' = true -> reformatted true text text' ->
  from_str U debug text = RValue c -> from_str U debug' text' = RValue c.
Proof.
  intros U debug debug' text text' c Ha Ha' Hr E. pose proof (C74_ascii U debug text text' Ha Ha' Hr) as H. rewrite E in H.
  destruct (from_str U debug text') as [c'|[]| |] eqn:E'; try contradiction. cbn in H. subst c'.
  pose proof (C49_same_answer U U debug debug' text' (fun _ _ _ => conj eq_refl eq_refl)) as O. rewrite E' in O.
  destruct (from_str U debug' text') as [c'|[]| |]; try contradiction. subst. reflexivity.
Qed.

(** ** The hypotheses are met, and needed *)
Definition nl : str := [10].
Definition tab : str := [9].
Definition spread : str := lit "scilla_version 0" ++ nl ++ lit "contract C" ++ nl ++ tab ++ lit "(a : Uint32)" ++ nl ++ lit "field f : String = ""x" ++ tab ++ lit "y"" (* one" ++ nl ++ lit "two *)" ++ nl
  ++ lit "transition t ()" ++ nl ++ tab ++ lit "x = Uint32 1" ++ nl ++ lit "end" ++ nl.
Example C74_witness : ascii_str spread = true /\ ascii_str (crlf (expand_tabs 4 spread)) = true /\ spread <> crlf (expand_tabs 4 spread)
  /\ reformatted true spread (crlf (expand_tabs 4 spread)) /\ reformatted true spread (nl ++ spread ++ tab).
Proof.
  split; [vm_compute; reflexivity|]. split; [vm_compute; reflexivity|]. split; [vm_compute; discriminate|]. split.
  - assert (T : forall t, respaced false t (crlf (expand_tabs 4 t))).
    { induction t as [|c t IH]; [constructor|]. change (respaced false (c :: t) (crlf ((if c =? 9 then List.repeat 32 4 else [c]) ++ expand_tabs 4 t))). destruct (N.eqb_spec c 9) as [->|].
      - change (9 :: t) with ([9] ++ t). change (crlf (List.repeat 32 4 ++ expand_tabs 4 t)) with (List.repeat 32 4 ++ crlf (expand_tabs 4 t)).
        apply (rs_space false [9] (List.repeat 32 4) t (crlf (expand_tabs 4 t))); [repeat constructor|apply white_repeat|discriminate|discriminate|exact IH].
      - change (crlf ([c] ++ expand_tabs 4 t)) with ((if c =? 10 then [13; 10] else [c]) ++ crlf (expand_tabs 4 t)). destruct (N.eqb_spec c 10) as [->|].
        + change (10 :: t) with ([10] ++ t). apply (rs_space false [10] [13; 10] t (crlf (expand_tabs 4 t))); [repeat constructor|repeat constructor|discriminate|discriminate|exact IH].
        + apply rs_char, IH. }
    apply respaced_reformatted, respaced_weak, T.
  - exists [], nl, spread, (spread ++ tab). split; [constructor|]. split; [repeat constructor|]. split; [reflexivity|]. split; [reflexivity|].
    generalize spread as t. induction t as [|c t IH]; [apply rs_trim; [reflexivity|constructor|repeat constructor]|apply rs_char, IH].
Qed.
Example C74_answers : exists c, from_str U_none no_debug spread = RValue c /\ from_str U_none no_debug (crlf (expand_tabs 4 spread)) = RValue c
  /\ map field_name (c_fields c) = [lit "f"] /\ map t_name (c_transitions c) = [lit "t"].
Proof. eexists. split; [vm_compute; reflexivity|]. split; [vm_compute; reflexivity|]. split; reflexivity. Qed.

(** Also when reading the contract fails. *)
Definition misread : str := lit "scilla_version 0 contract C (a : Event) field f : String = ""x" ++ tab ++ lit "y""".
Example C74_message : from_str U_none no_debug misread = RError (ParseErrorEmit (lit "Expected symbol name, but found nothing."))
  /\ from_str U_none no_debug (expand_tabs 4 misread) = from_str U_none no_debug misread.
Proof. split; vm_compute; reflexivity. Qed.

(** White space cannot be removed altogether. *)
Theorem C74_removing_refuted : exists text c i, ascii_str text = true /\
  from_str U_none no_debug text = RValue c /\ from_str U_none no_debug (expand_tabs 0 text) = RError (ParseErrorToken i).
Proof.
  exists (lit "scilla_version 0 contract" ++ tab ++ lit "C ()"). eexists. eexists. split; [vm_compute; reflexivity|]. split; vm_compute; reflexivity.
Qed.
(** A string literal with characters of several bytes swallows the characters
    after it, so the white space there matters. *)
Theorem C74_multibyte_refuted : exists text text' c i, reformatted false text text' /\
  from_str U_none no_debug text = RValue c /\ from_str U_none no_debug text' = RError (ParseErrorToken i).
Proof.
  set (a := lit "scilla_version 0 contract C () field f : String = " ++ [34; 233; 233; 34]). set (b := lit "field g : String = x").
  exists (a ++ [32; 32] ++ b), (a ++ [32] ++ b). eexists. eexists. split.
  - apply respaced_reformatted. generalize a as t. induction t as [|c t IH]; [|apply rs_char, IH].
    cbn [app]. change (32 :: 32 :: b) with ([32; 32] ++ b). change (32 :: b) with ([32] ++ b).
    apply rs_space; [repeat constructor|repeat constructor|discriminate|discriminate|apply respaced_refl].
  - split; vm_compute; reflexivity.
Qed.
(** A word with other letters is read as several tokens at the very end of the
    text, and stops the lexer with a panic elsewhere. *)
Theorem C74_trailing_refuted : exists text text', reformatted true text text' /\ ~ In 34 text /\
  from_str U_latin no_debug text' = RPanic /\ from_str U_latin no_debug text <> RPanic.
Proof.
  set (a := lit "scilla_version 0 contract C () field f : String = " ++ [97; 233]). exists a, (a ++ [10]). split; [|split; [|split]].
  - apply respaced_reformatted. generalize a as t. induction t as [|c t IH]; [|apply rs_char, IH]. apply rs_trim; [reflexivity|constructor|repeat constructor].
  - vm_compute. intuition discriminate.
  - vm_compute. reflexivity.
  - vm_compute. discriminate.
Qed.
