(** Tokens of a text without unknown characters: identifiers are whole words. *)
From Verif Require Import Chars Lexer LexSpec LexerProofs LexFacts LexSegment Spaced.

(** Well-formed, string literals (which may have any characters) apart. *)
Definition wf_lexed (t : token) : Prop := match t with TStringLiteral _ => True | _ => wf_token t end.

Lemma ascii_first U d r t : token_at U (d :: r) t -> d < 128.
Proof.
  intro H. remember (d :: r) as s eqn:E. revert E.
  destruct H as [w t r' Hx Hm|s w t Hx Hw|ds r' Hne Hd|r'|x hs r' Hx Hh|ds r' Hne Hd|ds r' Hne Hd|b r' Hb|b r' Hb|c w r' Hc|c w r' Hc|c w r' Hc|w r' Hw]; intro E;
    try (cbn in E; injection E as <- _; reflexivity).
  - assert (Hp : forallb (fun p => match fst p with c :: _ => c <? 128 | [] => false end) punctuation = true) by reflexivity.
    rewrite forallb_forall in Hp. specialize (Hp _ Hx). cbn [fst] in Hp. destruct w as [|a w]; [discriminate|].
    cbn [app] in E. injection E as <- _. apply N.ltb_lt, Hp.
  - destruct Hw as (r' & -> & _). assert (Hp : forallb (fun p => match fst p with c :: _ => c <? 128 | [] => false end) keyword_list = true) by reflexivity.
    rewrite forallb_forall in Hp. specialize (Hp _ Hx). cbn [fst] in Hp. destruct w as [|a w]; [discriminate|].
    cbn [app] in E. injection E as <- _. apply N.ltb_lt, Hp.
  - destruct ds as [|a ds]; [congruence|]. cbn [app] in E. injection E as <- _. inversion Hd as [|? ? H1]; subst.
    unfold is_digit, in_range in H1. rewrite andb_true_iff, !N.leb_le in H1. lia.
  - injection E as <- _. unfold is_lower, in_range in Hc. rewrite andb_true_iff, !N.leb_le in Hc. lia.
  - injection E as <- _. unfold is_upper, in_range in Hc. rewrite andb_true_iff, !N.leb_le in Hc. lia.
Qed.

(** After an identifier comes a character that cannot continue a word, or an
    unknown character. *)
Lemma word_ends U pos ln b pr r is : segmented U pos ln b pr r is LEof -> Forall (fun i => item_token i <> TUnknown) is ->
  not_followed_by is_word r -> not_followed_by (word_char U) r.
Proof.
  intros H Hu Hr. destruct r as [|d r]; [exact I|]. cbn in Hr |- *. destruct (word_char U d) eqn:Ed; [exfalso|reflexivity].
  assert (Hd : 128 <= d).
  { destruct (N.lt_ge_cases d 128) as [Hl|Hl]; [|exact Hl]. exfalso. rewrite word_char_ascii in Ed; [congruence|]. apply N.ltb_lt, Hl. }
  remember (d :: r) as s eqn:E. remember LEof as e0 eqn:Ee. destruct H as [pos ln b pr|pos ln b pr s is e _|pos ln b pr c s is e Hw _ _|pos ln b pr c s is e _ _|pos ln b pr c _
    |pos ln b pr t x s is e Ht|pos ln b pr c s is e|]; try discriminate.
  - injection E as <- _. discriminate Ed.
  - injection E as <- _. rewrite (whitespace_not_word U c Hw) in Ed. discriminate.
  - cbn in E. injection E as <- _. lia.
  - cbn in E. injection E as <- _. lia.
  - rewrite E in Ht. apply ascii_first in Ht. lia.
  - inversion Hu as [|? ? Hx]; subst. now apply Hx.
Qed.

Lemma lexed_wf U pos ln b pr s is e : segmented U pos ln b pr s is e -> e = LEof -> Forall (fun i => item_token i <> TUnknown) is ->
  Forall (fun i => wf_lexed (item_token i)) is.
Proof.
  induction 1 as [pos ln b pr|pos ln b pr s is e H IH|pos ln b pr c s is e Hw Hn H IH|pos ln b pr c s is e Hc H IH|pos ln b pr c Hc
    |pos ln b pr t x s is e Ht Hb Hl H IH|pos ln b pr c s is e Hw Ho Ht Hb H IH|pos ln b pr s Hb]; intros Ee Hu; try discriminate Ee; try subst e; auto.
  - inversion Hu as [|? ? Hx Hu']; subst. constructor; [|apply IH; auto]. cbn [item_token fst snd].
    assert (Hx' : forall s', (forall u, t <> TStringLiteral u) -> x ++ s = s' -> not_followed_by is_word s' -> not_followed_by (word_char U) s').
    { intros s' Ht' <-. assert (x = []) as -> by (destruct t; try exact Hl; exfalso; eapply Ht'; reflexivity). cbn [app]. eapply word_ends; [exact H|exact Hu']. }
    remember (token_text t ++ x ++ s) as text eqn:E. revert E.
    destruct Ht as [w t r' Hp Hm|s0 w t Hp Hww|ds r' Hne Hd|r' Hr|y hs r' Hy Hh|ds r' Hne Hd|ds r' Hne Hd|bd r' Hbd|bd r' Hbd|c w r' Hc Hw Hr Hk|c w r' Hc Hw Hr|c w r' Hc Hw Hr Hk Hby|w r' Hw Hr Hk]; intro E.
    + assert (Hs : wf_token t) by (eapply wf_punct, Hp). destruct t; try exact Hs; exact I.
    + assert (Hs : wf_token t) by (eapply wf_keyword, Hp). destruct t; try exact Hs; exact I.
    + now apply wf_bystr_size.
    + apply wf_bystr.
    + now apply wf_hex.
    + now apply wf_number.
    + now apply (wf_negative ds).
    + exact I.
    + exact I.
    + apply wf_identifier; auto. cbn [token_text] in E. change (c :: w ++ r') with ((c :: w) ++ r') in E. apply app_inv_head in E.
      apply Hk. exists r'. split; [reflexivity|]. split; [apply all_word_chars; constructor; [apply is_lower_word, Hc|exact Hw]|].
      apply Hx'; [discriminate|now symmetry|exact Hr].
    + now apply wf_template.
    + cbn [token_text] in E. change (c :: w ++ r') with ((c :: w) ++ r') in E. apply app_inv_head in E.
      apply wf_custom; auto.
      * apply Hk. exists r'. split; [reflexivity|]. split; [apply all_word_chars; constructor; [apply is_upper_word, Hc|exact Hw]|].
        apply Hx'; [discriminate|now symmetry|exact Hr].
      * intros q Eq. apply (Hby (q ++ r')). change (c :: w ++ r') with ((c :: w) ++ r'). rewrite Eq, <- app_assoc. reflexivity.
    + cbn [token_text] in E. change (95 :: w ++ r') with ((95 :: w) ++ r') in E. apply app_inv_head in E.
      apply wf_special; [|exact Hw]. intros ->. apply Hk. cbn [app].
      apply Hx'; [discriminate|now symmetry|exact Hr].
  - inversion Hu as [|? ? Hx Hu']; subst. exfalso. now apply Hx.
Qed.

Theorem lex_wf U text items : lex U text = (items, LEof) -> Forall (fun i => item_token i <> TUnknown) items ->
  Forall (fun i => wf_lexed (item_token i)) items.
Proof. intros E. apply lex_iff_segmented in E. apply (lexed_wf _ _ _ _ _ _ _ _ E eq_refl). Qed.
