(** How far a lexer looks: texts that agree up to a white space character are
    split into the same tokens up to there, if the string literals before it are
    closed. *)
From Coq Require Import Wf_nat.
From Verif Require Import Chars Lexer LexSpec LexerProofs LexStep LexSegment LexFacts LexWritten.

(** Specification: every double quote of a text outside comments belongs to a
    closed string literal, which is followed by (at least) as many characters as it
    has bytes more than characters: those are dropped with it.  There are none if
    the literal is ASCII text ([qc_ascii_string]). *)
Inductive quotes_closed : str -> Prop :=
| qc_end : quotes_closed []
| qc_open_comment c : ~ occurs close_comment c -> quotes_closed (open_comment ++ c)
| qc_comment c s : ~ occurs close_comment c -> quotes_closed s ->
    quotes_closed (open_comment ++ c ++ close_comment ++ s)
| qc_string b x s : string_body b -> byte_len b = N.of_nat (List.length b + List.length x) -> quotes_closed s ->
    quotes_closed (34 :: b ++ 34 :: x ++ s)
| qc_char c s : c <> 34 -> (forall r, c :: s <> open_comment ++ r) -> quotes_closed s -> quotes_closed (c :: s).

Definition solid (c : char) : Prop := is_whitespace c = false.

Lemma word_solid U c : word_char U c = true -> solid c.
Proof. intro H. unfold solid. destruct (is_whitespace c) eqn:E; [|reflexivity]. rewrite (whitespace_not_word U c E) in H. discriminate. Qed.
Lemma is_word_solid c : is_word c = true -> solid c.
Proof. intro H. apply (word_solid U_none), is_word_char, H. Qed.
Lemma all_word_solid w : all_word w -> Forall solid w.
Proof. intro H. eapply Forall_impl; [|exact H]. apply is_word_solid. Qed.
Lemma digit_solid c : is_digit c = true -> solid c.
Proof. intro H. apply is_word_solid. unfold is_word. rewrite H. destruct (is_lower c), (is_upper c); reflexivity. Qed.
Lemma digits_solid w : all_digits w -> Forall solid w.
Proof. intro H. eapply Forall_impl; [|exact H]. apply digit_solid. Qed.
Lemma upper_solid c : is_upper c = true -> solid c.
Proof. intro H. apply is_word_solid. unfold is_word. rewrite H. destruct (is_lower c); reflexivity. Qed.
Lemma lower_solid c : is_lower c = true -> solid c.
Proof. intro H. apply is_word_solid. unfold is_word. rewrite H. reflexivity. Qed.
Lemma hex_solid c : is_hex c = true -> solid c.
Proof.
  intro H. apply is_word_solid. unfold is_hex, is_word, is_lower, is_upper, is_digit, in_range in *. lia.
Qed.
Lemma hexs_solid w : hex_digits w -> Forall solid w.
Proof. induction 1; repeat constructor; auto using hex_solid. Qed.
Lemma punct_solid w t : In (w, t) punctuation -> Forall solid w.
Proof. intro H. repeat (destruct H as [H|H]; [injection H as <- <-; repeat constructor|]). destruct H. Qed.

Section Ws.
  Context (U : unicode) (c : char) (Hc : is_whitespace c = true).

  Lemma split_ws w : forall rest p r, Forall solid w -> w ++ rest = p ++ c :: r ->
    exists p', p = w ++ p' /\ rest = p' ++ c :: r.
  Proof.
    induction w as [|a w IH]; intros rest p r Hw E; [exists p; auto|]. inversion Hw as [|? ? Ha Hw']; subst.
    destruct p as [|b p].
    - exfalso. injection E as -> _. unfold solid in Ha. congruence.
    - injection E as -> E. destruct (IH _ _ _ Hw' E) as (p' & -> & ->). exists p'. auto.
  Qed.
  Lemma follow_ws f p r r' : not_followed_by f (p ++ c :: r) -> not_followed_by f (p ++ c :: r').
  Proof. destruct p; auto. Qed.
  Lemma word_at_ws p r r' w : word_at U (p ++ c :: r) w -> word_at U (p ++ c :: r') w.
  Proof.
    intros (q & E & Hw & Hq). symmetry in E.
    destruct (split_ws w q p r) as (p' & -> & ->); [eapply Forall_impl; [|exact Hw]; apply word_solid|exact E|].
    exists (p' ++ c :: r'). rewrite <- app_assoc. split; [reflexivity|]. split; [exact Hw|]. exact (follow_ws _ _ _ _ Hq).
  Qed.
  Lemma bad_word_ws p r r' : bad_word U (p ++ c :: r) -> bad_word U (p ++ c :: r').
  Proof.
    intros (w & q & E & Hne & Hq & Hw & Hb). pose proof Hw as (q0 & _ & Hww & _). symmetry in E.
    destruct (split_ws w q p r) as (p' & -> & ->); [eapply Forall_impl; [|exact Hww]; apply word_solid|exact E|].
    exists w, (p' ++ c :: r'). split; [rewrite <- app_assoc; reflexivity|]. split; [exact Hne|].
    split; [destruct p'; discriminate|]. split; [exact (word_at_ws _ _ _ _ Hw)|exact Hb].
  Qed.
  Definition not_string (t : token) : Prop := match t with TStringLiteral _ => False | _ => True end.

  Lemma prefix_ws k p r r' q : Forall solid k -> p ++ c :: r' = k ++ q -> exists q', p ++ c :: r = k ++ q'.
  Proof.
    intros Hk E. symmetry in E. destruct (split_ws _ _ _ _ Hk E) as (p' & -> & _). exists (p' ++ c :: r).
    rewrite <- app_assoc. reflexivity.
  Qed.

  Lemma token_at_ws p r r' t : token_at U (p ++ c :: r) t -> not_string t -> token_at U (p ++ c :: r') t.
  Proof.
    intros H Hs. remember (p ++ c :: r) as s eqn:E.
    destruct H as [w t q Hin Hm|s w t Hin Hat|ds q Hne Hd Hq|q Hq|x hs q Hx Hh Hq
      |ds q Hne Hd Hq Hx|ds q Hne Hd Hq|b q Hb|b q Hb Hq|a w q Ha Hw Hq Hk|a w q Ha Hw Hq
      |a w q Ha Hw Hq Hk Hb|w q Hw Hq Hf]; try (destruct Hs; fail).
    - destruct (split_ws w q p r (punct_solid _ _ Hin) E) as (p' & -> & ->). rewrite <- app_assoc. apply ta_punct; [exact Hin|].
      clear -Hm. destruct t; cbn in *; try exact I; exact (follow_ws _ _ _ _ Hm).
    - subst s. eapply ta_keyword; [exact Hin|]. exact (word_at_ws _ _ _ _ Hat).
    - rewrite app_assoc in E. apply split_ws in E;
        [|apply Forall_app; split; [repeat constructor|apply digits_solid, Hd]].
      destruct E as (p' & -> & ->). rewrite <- !app_assoc. apply ta_bystr_size; [exact Hne|exact Hd|exact (follow_ws _ _ _ _ Hq)].
    - apply split_ws in E; [|repeat constructor]. destruct E as (p' & -> & ->). rewrite <- app_assoc. apply ta_bystr. exact (follow_ws _ _ _ _ Hq).
    - change (48 :: x :: hs ++ q) with ((48 :: x :: hs) ++ q) in E. apply split_ws in E;
        [|constructor; [reflexivity|constructor; [destruct Hx as [-> | ->]; reflexivity|apply hexs_solid, Hh]]].
      destruct E as (p' & -> & ->). rewrite <- app_assoc. apply ta_hex; [exact Hx|exact Hh|].
      intros a b q E Ha Hb. destruct p' as [|a' [|b' p']]; cbn in E.
      + injection E as <- E. apply hex_solid in Ha. unfold solid in Ha. congruence.
      + injection E as <- <- E. apply hex_solid in Hb. unfold solid in Hb. congruence.
      + injection E as <- <- E. exact (Hq a' b' _ eq_refl Ha Hb).
    - apply split_ws in E; [|apply digits_solid, Hd]. destruct E as (p' & -> & ->). rewrite <- app_assoc.
      apply ta_number; [exact Hne|exact Hd|exact (follow_ws _ _ _ _ Hq)|]. intro E. exact (follow_ws _ _ _ _ (Hx E)).
    - change (45 :: ds ++ q) with ((45 :: ds) ++ q) in E. apply split_ws in E; [|constructor; [reflexivity|apply digits_solid, Hd]].
      destruct E as (p' & -> & ->). rewrite <- app_assoc. apply ta_negative; [exact Hne|exact Hd|exact (follow_ws _ _ _ _ Hq)].
    - pose proof E as E0. change (a :: w ++ q) with ((a :: w) ++ q) in E. apply split_ws in E; [|constructor; [apply lower_solid, Ha|apply all_word_solid, Hw]].
      destruct E as (p' & -> & ->). rewrite <- app_assoc. apply ta_identifier; [exact Ha|exact Hw|exact (follow_ws _ _ _ _ Hq)|].
      intros k Hat. apply Hk. change (a :: w ++ p' ++ c :: r') with ((a :: w) ++ p' ++ c :: r') in Hat. rewrite app_assoc in Hat.
      change (a :: w ++ p' ++ c :: r) with ((a :: w) ++ p' ++ c :: r). rewrite app_assoc. exact (word_at_ws _ _ _ _ Hat).
    - change (39 :: a :: w ++ q) with ((39 :: a :: w) ++ q) in E. apply split_ws in E;
        [|constructor; [reflexivity|constructor; [apply upper_solid, Ha|apply all_word_solid, Hw]]].
      destruct E as (p' & -> & ->). rewrite <- app_assoc. apply ta_template; [exact Ha|exact Hw|exact (follow_ws _ _ _ _ Hq)].
    - change (a :: w ++ q) with ((a :: w) ++ q) in E. apply split_ws in E; [|constructor; [apply upper_solid, Ha|apply all_word_solid, Hw]].
      destruct E as (p' & -> & ->). rewrite <- app_assoc. apply ta_custom; [exact Ha|exact Hw|exact (follow_ws _ _ _ _ Hq)| |].
      + intros k Hat. apply Hk. change (a :: w ++ p' ++ c :: r') with ((a :: w) ++ p' ++ c :: r') in Hat. rewrite app_assoc in Hat.
        change (a :: w ++ p' ++ c :: r) with ((a :: w) ++ p' ++ c :: r). rewrite app_assoc. exact (word_at_ws _ _ _ _ Hat).
      + intros k E. change (a :: w ++ p' ++ c :: r') with ((a :: w) ++ p' ++ c :: r') in E. rewrite app_assoc in E.
        destruct (prefix_ws (lit "ByStr") ((a :: w) ++ p') r r' k ltac:(repeat constructor) E) as (k' & E').
        apply (Hb k'). change (a :: w ++ p' ++ c :: r) with ((a :: w) ++ p' ++ c :: r). rewrite app_assoc. exact E'.
    - change (95 :: w ++ q) with ((95 :: w) ++ q) in E. apply split_ws in E; [|constructor; [reflexivity|apply all_word_solid, Hw]].
      destruct E as (p' & -> & ->). rewrite <- app_assoc. apply ta_special; [exact Hw|exact (follow_ws _ _ _ _ Hq)|].
      intro H. apply Hf. rewrite app_assoc in *. exact (follow_ws _ _ _ _ H).
  Qed.
End Ws.

(** *** Comments *)
Lemma not_occurs_cons a s : ~ occurs close_comment (a :: s) -> ~ occurs close_comment s.
Proof. intros H (p & q & ->). apply H. exists (a :: p), q. reflexivity. Qed.
Lemma first_close s : ~ occurs close_comment s \/ exists d r, s = d ++ close_comment ++ r /\ ~ occurs close_comment d.
Proof.
  induction s as [|a s IH]; [left; apply not_occurs_nil|].
  destruct (N.eq_dec a 42) as [-> |Ha].
  - destruct s as [|b s].
    + left. intro H. apply occurs_cons in H. destruct H as [(_ & r & E)|H]; [discriminate|]. exact (not_occurs_nil H).
    + destruct (N.eq_dec b 41) as [-> |Hb]; [right; exists [], s; split; [reflexivity|apply not_occurs_nil]|].
      destruct IH as [H|(d & r & E & Hd)].
      * left. intro Ho. apply occurs_cons in Ho. destruct Ho as [(_ & r & E)|Ho]; [congruence|contradiction].
      * right. exists (42 :: d), r. rewrite E. split; [reflexivity|]. intro Ho. apply occurs_cons in Ho.
        destruct Ho as [(_ & q & Eq)|Ho]; [|contradiction]. subst d. cbn in E. congruence.
  - destruct IH as [H|(d & r & -> & Hd)].
    + left. intro Ho. apply occurs_cons in Ho. destruct Ho as [(E & _)|Ho]; contradiction.
    + right. exists (a :: d), r. split; [reflexivity|]. intro Ho. apply occurs_cons in Ho. destruct Ho as [(E & _)|Ho]; contradiction.
Qed.
Lemma close_after c (Hc : is_whitespace c = true) : forall a r d s, ~ occurs close_comment (a ++ [c]) ->
  a ++ c :: r = d ++ close_comment ++ s -> exists d', d = a ++ c :: d'.
Proof.
  induction a as [|x a IH]; intros r d s Ha E; change (close_comment ++ s) with (42 :: 41 :: s) in E.
  - destruct d as [|y d]; cbn [app] in E; [injection E as E1 _; rewrite E1 in Hc; discriminate Hc|]. injection E as <- E. exists d. reflexivity.
  - destruct d as [|y d].
    + exfalso. cbn [app] in E. injection E as -> E. destruct a as [|z a]; cbn [app] in E; [injection E as E1 _; rewrite E1 in Hc; discriminate Hc|]. injection E as -> E.
      apply Ha. exists [], (a ++ [c]). reflexivity.
    + cbn in E. injection E as <- E. cbn in Ha. apply not_occurs_cons in Ha. destruct (IH _ _ _ Ha E) as (d' & ->).
      exists d'. reflexivity.
Qed.

(** *** What the tokens leave *)
Lemma qc_skip w : forall s, quotes_closed (w ++ s) -> Forall (fun x => x <> 34 /\ x <> 40) w -> quotes_closed s.
Proof.
  induction w as [|a w IH]; intros s H Hw; [exact H|]. inversion Hw as [|? ? [H1 H2] Hw']; subst. cbn in H.
  apply IH; [|exact Hw']. inversion H; subst; try contradiction; [exfalso; congruence..|assumption].
Qed.
Definition calm (x : char) : Prop := x <> 34 /\ x <> 40.
Lemma word_calm x : is_word x = true -> calm x.
Proof. unfold calm, is_word, is_lower, is_upper, is_digit, in_range. lia. Qed.
Lemma all_calm w : all_word w -> Forall calm w.
Proof. intro H. eapply Forall_impl; [|exact H]. apply word_calm. Qed.
Lemma digits_calm w : all_digits w -> Forall calm w.
Proof. intro H. apply all_calm. eapply Forall_impl; [|exact H]. intros x Hx. unfold is_word. rewrite Hx. destruct (is_lower x), (is_upper x); reflexivity. Qed.
Lemma hex_calm w : hex_digits w -> Forall calm w.
Proof.
  induction 1 as [|a b s Ha Hb _ IH]; [constructor|].
  assert (P : forall x, is_hex x = true -> calm x) by (intro x; unfold calm, is_hex, is_digit, in_range; lia). auto.
Qed.
Lemma token_calm U s t : token_at U s t -> not_string t -> t <> TOpenParen -> Forall calm (token_text t).
Proof.
  intros H Hs Ho.
  destruct H as [w t q Hin Hm|s w t Hin Hat|ds q Hne Hd Hq|q Hq|x hs q Hx Hh Hq
    |ds q Hne Hd Hq Hx|ds q Hne Hd Hq|b q Hb|b q Hb Hq|a w q Ha Hw Hq Hk|a w q Ha Hw Hq
    |a w q Ha Hw Hq Hk Hb|w q Hw Hq Hf]; try (destruct Hs; fail); cbn [token_text].
  - destruct (punct_text _ _ Hin) as [-> _]. clear -Hin Ho.
    repeat (destruct Hin as [Hin|Hin]; [injection Hin as <- <-; try (contradiction Ho; reflexivity); repeat constructor; discriminate|]). destruct Hin.
  - destruct (keyword_props _ _ Hin) as (-> & Hw & _). apply all_calm, Hw.
  - apply Forall_app. split; [repeat constructor; discriminate|apply digits_calm, Hd].
  - repeat constructor; discriminate.
  - constructor; [split; discriminate|]. constructor; [destruct Hx as [-> | ->]; split; discriminate|apply hex_calm, Hh].
  - apply digits_calm, Hd.
  - constructor; [split; discriminate|apply digits_calm, Hd].
  - constructor; [apply word_calm; unfold is_word; rewrite Ha; reflexivity|apply all_calm, Hw].
  - constructor; [split; discriminate|]. constructor; [apply word_calm; unfold is_word; rewrite Ha; destruct (is_lower a); reflexivity|apply all_calm, Hw].
  - constructor; [apply word_calm; unfold is_word; rewrite Ha; destruct (is_lower a); reflexivity|apply all_calm, Hw].
  - constructor; [split; discriminate|apply all_calm, Hw].
Qed.
Lemma token_eq_paren t : t = TOpenParen \/ t <> TOpenParen.
Proof. destruct t; (left; reflexivity) || (right; discriminate). Qed.
Lemma open_paren_follow U s : token_at U (40 :: s) TOpenParen -> ~ bad_word U (40 :: s) -> forall r, 40 :: s <> open_comment ++ r.
Proof. intros H Hb. destruct (token_at_first _ _ _ H Hb) as (c & s' & E & _ & Ho). exact Ho. Qed.
Lemma token_solid U s t : token_at U s t -> not_string t -> Forall solid (token_text t).
Proof.
  intros H Hs.
  destruct H as [w t q Hin Hm|s w t Hin Hat|ds q Hne Hd Hq|q Hq|x hs q Hx Hh Hq
    |ds q Hne Hd Hq Hx|ds q Hne Hd Hq|b q Hb|b q Hb Hq|a w q Ha Hw Hq Hk|a w q Ha Hw Hq
    |a w q Ha Hw Hq Hk Hb|w q Hw Hq Hf]; try (destruct Hs; fail); cbn [token_text].
  - destruct (punct_text _ _ Hin) as [-> _]. exact (punct_solid _ _ Hin).
  - destruct (keyword_props _ _ Hin) as (-> & Hw & _). apply all_word_solid, Hw.
  - apply Forall_app. split; [repeat constructor|apply digits_solid, Hd].
  - repeat constructor.
  - constructor; [reflexivity|]. constructor; [destruct Hx as [-> | ->]; reflexivity|apply hexs_solid, Hh].
  - apply digits_solid, Hd.
  - constructor; [reflexivity|apply digits_solid, Hd].
  - constructor; [apply lower_solid, Ha|apply all_word_solid, Hw].
  - constructor; [reflexivity|]. constructor; [apply upper_solid, Ha|apply all_word_solid, Hw].
  - constructor; [apply upper_solid, Ha|apply all_word_solid, Hw].
  - constructor; [reflexivity|apply all_word_solid, Hw].
Qed.
Lemma string_first U s b : token_at U s (TStringLiteral b) -> exists r, s = 34 :: r.
Proof. intro H. destruct (token_at_prefix _ _ _ H) as (_ & q & E). inversion H; subst; try (eexists; reflexivity); 
  exfalso; match goal with H : In _ _ |- _ => clear -H; cbn in H; repeat (destruct H as [H|H]; [discriminate H|]); exact H end.
Qed.
Lemma starts_from U pos ln b pr s is e : segmented U pos ln b pr s is e -> Forall (fun i => pos <= position (item_start i)) is.
Proof.
  induction 1 as [pos ln b pr|pos ln b pr s is e H IH|pos ln b pr c s is e Hws H10 H IH|pos ln b pr c s is e Hc H IH
    |pos ln b pr c Hc|pos ln b pr t x s is e Hat Hnb Hl H IH|pos ln b pr c s is e Hws Hoc Hnt Hnb H IH|pos ln b pr s Hbad];
    try constructor; try (cbn; lia); eapply Forall_impl; try exact IH; cbn; intros; lia.
Qed.

Lemma qc_tail a s : quotes_closed (a :: s) -> a <> 34 -> (forall r, a :: s <> open_comment ++ r) -> quotes_closed s.
Proof.
  intros H Ha Ho. inversion H; subst; try contradiction; try assumption.
  - exfalso. exact (Ho _ eq_refl).
  - exfalso. exact (Ho _ eq_refl).
Qed.
Lemma qc_after_comment d s : quotes_closed (open_comment ++ d ++ close_comment ++ s) -> ~ occurs close_comment d -> quotes_closed s.
Proof.
  intros H Hd. remember (open_comment ++ d ++ close_comment ++ s) as z eqn:E.
  destruct H as [|d' Hd'|d' s' Hd' Hs|b x s' Hb Ha Hs|a s' Ha Ho Hs].
  - discriminate E.
  - apply app_inv_head in E. exfalso. exact (comment_no_split d s d' Hd' (eq_sym E)).
  - apply app_inv_head in E. destruct (comment_split d' s' d s Hd' Hd E) as [_ <-]. exact Hs.
  - discriminate E.
  - exfalso. exact (Ho _ E).
Qed.
Lemma qc_string_inv s : quotes_closed (34 :: s) -> exists b x s', s = b ++ 34 :: x ++ s' /\ string_body b
  /\ byte_len b = N.of_nat (List.length b + List.length x) /\ quotes_closed s'.
Proof.
  intro H. inversion H as [E|d' Hd' E|d' s' Hd' Hs E|b x s' Hb Ha Hs E|a s' Ha Ho Hs E]; [|contradiction]. eauto 7.
Qed.
Lemma qc_ascii_string b s : string_body b -> ascii_str b = true -> quotes_closed s -> quotes_closed (34 :: b ++ 34 :: s).
Proof.
  intros Hb Ha Hs. apply (qc_string b [] s Hb); [|exact Hs]. rewrite (byte_len_ascii _ Ha). f_equal. cbn. lia.
Qed.
(** The characters dropped after a literal, if there is more text than that. *)
Lemma lost_length b (x0 : str) : byte_len b = N.of_nat (List.length b + List.length x0) ->
  byte_len (34 :: b ++ [34]) - N.of_nat (List.length (34 :: b ++ [34])) = N.of_nat (List.length x0).
Proof.
  intro H. change (34 :: b ++ [34]) with ([34] ++ b ++ [34]). rewrite !byte_len_app, !app_length, H.
  change (byte_len [34]) with 1. cbn [List.length]. lia.
Qed.
Lemma lost_enough b x0 x r r0 : byte_len b = N.of_nat (List.length b + List.length x0) ->
  lost (TStringLiteral (34 :: b ++ [34])) x r -> x ++ r = x0 ++ r0 -> r0 <> [] -> x = x0 /\ r = r0.
Proof.
  intros Hb H E Hr. unfold lost in H. rewrite (lost_length _ _ Hb) in H.
  assert (L : List.length x = List.length x0).
  { destruct H as [H|[H ->]]; [lia|]. exfalso. apply (f_equal (@List.length _)) in E. rewrite !app_length in E. cbn in E.
    destruct r0; [congruence|cbn in E; lia]. }
  clear -E L. revert x0 E L. induction x as [|a x IH]; intros [|a0 x0] E L; try discriminate L; [auto|].
  cbn in E. injection E as -> E. destruct (IH x0 E) as [-> ->]; [cbn in L; lia|auto].
Qed.

Lemma byte_len_nil : byte_len [] = 0.
Proof. reflexivity. Qed.
Lemma byte_len_cons a s : byte_len (a :: s) = len_utf8 a + byte_len s.
Proof. reflexivity. Qed.

Section Extend.
  Context (U : unicode) (c : char) (Hc : is_whitespace c = true).

  Lemma first_solid a p q r : a ++ q = p ++ c :: r -> a <> [] -> Forall solid a -> exists p', p = a ++ p' /\ q = p' ++ c :: r.
  Proof. intros E _ Ha. exact (split_ws c Hc a q p r Ha E). Qed.

  (** The text ends inside a comment with contents [d], or outside ([None]); what the lexer
      sees of a continuation [r]. *)
  Definition in_comment (m : option str) : Prop := match m with None => True | Some d => ~ occurs close_comment (d ++ [c]) end.
  Definition seen (m : option str) (r : str) : str := match m with None => r | Some d => open_comment ++ d ++ c :: r end.

  Lemma seg_extend : forall n p, (List.length p <= n)%nat -> quotes_closed p -> forall pos ln b pr is e,
    segmented U pos ln b pr (p ++ [c]) is e -> exists m, in_comment m /\ forall r, exists is' e',
      segmented U pos ln b pr (p ++ c :: r) (is ++ is') e'
      /\ (e = LPanic -> e' = LPanic /\ is' = []) /\ Forall (fun i => pos + byte_len p <= position (item_start i)) is'
      /\ (e = LEof -> tokens_of U (seen m r) = (map item_token is', e')).
  Proof.
    induction n as [n IH] using (well_founded_induction Wf_nat.lt_wf). intros p Hn Hq pos ln b pr is e H.
    assert (Lem : forall q pos' ln' b' pr' is0, (List.length q < List.length p)%nat -> quotes_closed q ->
      segmented U pos' ln' b' pr' (q ++ [c]) is0 e -> exists m, in_comment m /\ forall r, exists is' e',
      segmented U pos' ln' b' pr' (q ++ c :: r) (is0 ++ is') e'
      /\ (e = LPanic -> e' = LPanic /\ is' = []) /\ Forall (fun i => pos' + byte_len q <= position (item_start i)) is'
      /\ (e = LEof -> tokens_of U (seen m r) = (map item_token is', e'))).
    { intros q pos' ln' b' pr' is0 Hl Hq' H'. apply (IH (List.length q)); [lia|lia|exact Hq'|exact H']. }
    remember (p ++ [c]) as s eqn:E.
    destruct H as [pos ln b pr|pos ln b pr s is e H|pos ln b pr a s is e Hws H10 H|pos ln b pr d s is e Hd H
      |pos ln b pr d Hd|pos ln b pr t x s is e Hat Hnb Hl H|pos ln b pr a s is e Hws Hoc Hnt Hnb H|pos ln b pr s Hbad].
    - destruct p; discriminate E.
    - destruct p as [|a p]; cbn [app] in E; injection E as <- ->.
      + cbn [app]. inversion H; subst; try (exfalso; discriminate); cbn [app].
        * exists None. split; [exact I|]. intro r. destruct (segmented_exists U r (pos + 1) (ln + 1) pos pos) as (is' & e' & Hs & Htk). exists is', e'.
          split; [apply sg_newline, Hs|]. split; [discriminate|]. split; [|intros _; exact Htk]. eapply Forall_impl; [|exact (starts_from _ _ _ _ _ _ _ _ Hs)]. cbn beta; intros ? Hi; rewrite ?byte_len_cons, ?byte_len_nil in *; try change (len_utf8 10) with 1 in *; lia.
        * exfalso. match goal with H : token_at _ _ _ |- _ => destruct (token_at_prefix _ _ _ H) end. destruct (token_text t); [congruence|discriminate].
        * exfalso. match goal with H : bad_word _ _ |- _ => destruct H as (w & q & E & Hw & _) end. destruct w; [congruence|discriminate].
      + destruct (Lem p (pos + 1) (ln + 1) pos pos is) as (m & Hm & HR); [cbn; lia| |exact H|].
        { apply (qc_tail 10); [exact Hq|discriminate|]. intros r' E. discriminate. }
        exists m. split; [exact Hm|]. intro r. destruct (HR r) as (is' & e' & Hs & He & Hp & Htk). exists is', e'. cbn [app]. split; [apply sg_newline, Hs|]. split; [exact He|]. split; [|exact Htk]. eapply Forall_impl; [|exact Hp]. cbn beta; intros ? Hi; rewrite ?byte_len_cons, ?byte_len_nil in *; try change (len_utf8 10) with 1 in *; lia.
    - destruct p as [|a' p]; cbn [app] in E; injection E as <- ->.
      + cbn [app]. inversion H; subst; try (exfalso; discriminate); cbn [app].
        * exists None. split; [exact I|]. intro r. destruct (segmented_exists U r (pos + len_utf8 c) ln b pos) as (is' & e' & Hs & Htk). exists is', e'.
          split; [apply sg_space; assumption|]. split; [discriminate|]. split; [|intros _; exact Htk]. eapply Forall_impl; [|exact (starts_from _ _ _ _ _ _ _ _ Hs)]. cbn beta; intros ? Hi; rewrite ?byte_len_cons, ?byte_len_nil in *; try change (len_utf8 10) with 1 in *; lia.
        * exfalso. match goal with H : token_at _ _ _ |- _ => destruct (token_at_prefix _ _ _ H) end. destruct (token_text t); [congruence|discriminate].
        * exfalso. match goal with H : bad_word _ _ |- _ => destruct H as (w & q & E & Hw & _) end. destruct w; [congruence|discriminate].
      + destruct (Lem p (pos + len_utf8 a) ln b pos is) as (m & Hm & HR); [cbn; lia| |exact H|].
        { apply (qc_tail a); [exact Hq| |intros z; exact (ws_not_open _ _ z Hws)]. intros ->. discriminate Hws. }
        exists m. split; [exact Hm|]. intro r. destruct (HR r) as (is' & e' & Hs & He & Hp & Htk). exists is', e'. cbn [app]. split; [apply sg_space; assumption|]. split; [exact He|]. split; [|exact Htk]. eapply Forall_impl; [|exact Hp]. cbn beta; intros ? Hi; rewrite ?byte_len_cons, ?byte_len_nil in *; try change (len_utf8 10) with 1 in *; lia.
    - (* a closed comment *)
      assert (Ep : exists s', s = s' ++ [c] /\ p = open_comment ++ d ++ close_comment ++ s').
      { destruct (exists_last (l := s)) as (s' & z & Es).
        - intros ->. rewrite app_nil_r in E. rewrite app_assoc in E.
          change close_comment with ([42] ++ [41]) in E. rewrite app_assoc in E. apply app_inj_tail in E. destruct E as [_ E].
          rewrite <- E in Hc. discriminate Hc.
        - subst s. exists s'. rewrite !app_assoc in E. apply app_inj_tail in E. destruct E as [<- ->]. rewrite <- !app_assoc. auto. }
      destruct Ep as (s' & -> & ->).
      destruct (Lem s' (pos + byte_len (open_comment ++ d ++ close_comment)) ln b pos is) as (m & Hm & HR);
        [rewrite !app_length; cbn; lia|exact (qc_after_comment d s' Hq Hd)|exact H|].
      exists m. split; [exact Hm|]. intro r. destruct (HR r) as (is' & e' & Hs & He & Hp & Htk). exists is', e'. split; [rewrite <- !app_assoc; apply sg_comment; assumption|]. split; [exact He|]. split; [|exact Htk].
      eapply Forall_impl; [|exact Hp]. cbn beta. intros i Hi. rewrite !byte_len_app in *. lia.
    - (* an open comment *)
      assert (Ep : exists d', d = d' ++ [c] /\ p = open_comment ++ d').
      { destruct (exists_last (l := d)) as (d' & z & Ed).
        - intros ->. rewrite app_nil_r in E. change open_comment with ([40] ++ [42]) in E. apply app_inj_tail in E. destruct E as [_ E].
          rewrite <- E in Hc. discriminate Hc.
        - subst d. exists d'. rewrite app_assoc in E. apply app_inj_tail in E. destruct E as [<- ->]. auto. }
      destruct Ep as (d' & -> & ->). exists (Some d'). split; [exact Hd|]. intro r. rewrite <- app_assoc. cbn [seen]. destruct (first_close (d' ++ c :: r)) as [Hno|(d & s & Ed & Hnd)].
      + exists [], LEof. split; [apply sg_open_comment, Hno|]. split; [discriminate|]. split; [constructor|]. intros _. apply (segmented_tokens U 0 0 0 0 _ []), sg_open_comment, Hno.
      + rewrite Ed. destruct (segmented_exists U s (pos + byte_len (open_comment ++ d ++ close_comment)) ln b pos) as (is' & e' & Hs & Htk).
        exists is', e'. split; [apply sg_comment; assumption|]. split; [discriminate|]. split;
          [|intros _; exact (segmented_tokens U pos ln b pr _ _ _ (sg_comment U pos ln b pr d s is' e' Hnd Hs))].
        destruct (close_after c Hc d' r d s Hd Ed) as (d2 & ->).
        eapply Forall_impl; [|exact (starts_from _ _ _ _ _ _ _ _ Hs)]. cbn beta. intros i Hi. rewrite !byte_len_app in *. lia.
    - (* a token *)
      destruct (token_at_prefix _ _ _ Hat) as (Hne & _).
      assert (Cases : not_string t \/ exists bb, t = TStringLiteral bb) by (destruct t; cbn; eauto).
      destruct Cases as [Hns|(bb & ->)].
      + assert (x = []) as -> by (destruct t; exact Hl || destruct Hns). cbn [app] in *.
        destruct (split_ws c Hc (token_text t) s p [] (token_solid _ _ _ Hat Hns) E) as (p' & -> & ->).
        destruct (Lem p' (pos + byte_len (token_text t ++ [])) ln b pos is) as (m & Hm & HR).
        * rewrite app_length. destruct (token_text t); [congruence|cbn; lia].
        * destruct (token_eq_paren t) as [-> |Hnp].
          -- apply (qc_tail 40); [exact Hq|discriminate|]. intros q Eq. apply (open_paren_follow U _ Hat Hnb (q ++ [c])).
             cbn [token_text app] in *. rewrite app_assoc, <- Eq. reflexivity.
          -- exact (qc_skip _ _ Hq (token_calm _ _ _ Hat Hns Hnp)).
        * exact H.
        * exists m. split; [exact Hm|]. intro r. destruct (HR r) as (is' & e' & Hs & He & Hp & Htk). exists is', e'. cbn [app] in Hs |- *. rewrite <- app_assoc. split.
          -- apply (sg_token U pos ln b pr t [] (p' ++ c :: r)); [| |destruct t; try exact Hl; destruct Hns|exact Hs]; cbn [app]; rewrite app_assoc in *.
             ++ exact (token_at_ws U c Hc _ _ _ _ Hat Hns).
             ++ intro Hb. apply Hnb. exact (bad_word_ws U c Hc _ _ _ Hb).
          -- split; [exact He|]. split; [|exact Htk]. eapply Forall_impl; [|exact Hp]. cbn beta. intros i Hi. rewrite !byte_len_app in *. cbn [byte_len fold_right map] in Hi. lia.
      + destruct (string_first _ _ _ Hat) as (q & Eq). rewrite Eq in E. destruct p as [|a p]; cbn [app] in E; injection E as <- E.
        { exfalso. discriminate Hc. }
        destruct (qc_string_inv p Hq) as (b0 & x0 & s' & -> & Hb0 & Ha & Hq').
        assert (Hstr2 : forall z, token_at U (34 :: b0 ++ 34 :: z) (TStringLiteral (34 :: b0 ++ [34]))) by (intro; apply ta_string, Hb0).
        assert (Et : TStringLiteral bb = TStringLiteral (34 :: b0 ++ [34])).
        { apply (token_at_unique U _ _ _ Hat); [|exact Hnb]. rewrite Eq, E, <- app_assoc. apply Hstr2. }
        injection Et as ->. cbn [token_text] in Eq.
        cbn [app] in Eq. injection Eq as Eq. rewrite E in Eq. rewrite <- !app_assoc in Eq. apply app_inv_head in Eq. cbn [app] in Eq. injection Eq as Eq.
        rewrite <- app_assoc in Eq. destruct (lost_enough _ _ _ _ _ Ha Hl Eq) as [-> ->]; [destruct s'; discriminate|]. cbn [token_text] in *.
        destruct (Lem s' (pos + byte_len ((34 :: b0 ++ [34]) ++ x0)) ln b pos is) as (m & Hm & HR);
          [cbn; rewrite !app_length; cbn; rewrite !app_length; lia|exact Hq'|exact H|].
        exists m. split; [exact Hm|]. intro r. destruct (HR r) as (is' & e' & Hs & He & Hp & Htk). exists is', e'. cbn [app]. rewrite <- app_assoc. cbn [app]. rewrite <- app_assoc. split.
        * assert (Sg : segmented U pos ln b pr (token_text (TStringLiteral (34 :: b0 ++ [34])) ++ x0 ++ (s' ++ c :: r))
            ((mkpos pos ln (pr - b), TStringLiteral (34 :: b0 ++ [34]), mkpos (pos + byte_len (34 :: b0 ++ [34])) ln (pr - b + byte_len (34 :: b0 ++ [34])))
             :: is ++ is') e').
          { apply sg_token; [| | |exact Hs].
            - cbn [token_text app]. rewrite <- app_assoc. apply Hstr2.
            - cbn [token_text app]. apply not_bad_nonword. reflexivity.
            - left. symmetry. exact (lost_length _ _ Ha). }
          cbn [token_text app] in Sg. rewrite <- app_assoc in Sg. exact Sg.
        * split; [exact He|]. split; [|exact Htk]. eapply Forall_impl; [|exact Hp]. cbn beta. intros i Hi.
          change (34 :: b0 ++ 34 :: x0 ++ s') with ([34] ++ b0 ++ [34] ++ x0 ++ s'). change (34 :: b0 ++ [34]) with ([34] ++ b0 ++ [34]) in Hi.
          rewrite !byte_len_app in *. lia.
    - (* an unknown character *)
      destruct p as [|a' p]; cbn [app] in E; injection E as <- ->; [congruence|].
      assert (Ha : a <> 34).
      { intros ->. destruct (qc_string_inv p Hq) as (b0 & x0 & s' & -> & Hb0 & _). apply (Hnt (TStringLiteral (34 :: b0 ++ [34]))).
        rewrite <- app_assoc. apply ta_string, Hb0. }
      destruct (Lem p (pos + len_utf8 a) ln b pos is) as (m & Hm & HR); [cbn; lia| |exact H|].
      { apply (qc_tail a); [exact Hq|exact Ha|]. intros r' E. apply (Hoc (r' ++ [c])). rewrite app_assoc, <- E. reflexivity. }
      exists m. split; [exact Hm|]. intro r. destruct (HR r) as (is' & e' & Hs & He & Hp & Htk). exists is', e'. cbn [app]. split.
      + apply sg_unknown; [exact Hws| | | |exact Hs].
        * intros r' E. change (open_comment ++ r') with (40 :: 42 :: r') in E. injection E as -> E.
          destruct p as [|z p]; cbn [app] in E; injection E as E1 E; [rewrite E1 in Hc; discriminate Hc|]. subst z.
          apply (Hoc (p ++ [c])). reflexivity.
        * intros t Ht. assert (Cases : not_string t \/ exists bb, t = TStringLiteral bb) by (destruct t; cbn; eauto).
          destruct Cases as [Hns|(bb & ->)].
          -- apply (Hnt t). exact (token_at_ws U c Hc (a :: p) r [] t Ht Hns).
          -- destruct (string_first _ _ _ Ht) as (q & Eq). injection Eq as -> _. congruence.
        * intro Hb. apply Hnb. exact (bad_word_ws U c Hc (a :: p) r [] Hb).
      + split; [exact He|]. split; [|exact Htk]. eapply Forall_impl; [|exact Hp]. cbn beta; intros ? Hi; rewrite ?byte_len_cons, ?byte_len_nil in *; try change (len_utf8 10) with 1 in *; lia.
    - (* a word at which the lexer panics *)
      subst s. exists None. split; [exact I|]. intro r. exists [], LPanic.
      split; [apply sg_panic; exact (bad_word_ws U c Hc p [] r Hbad)|]. split; [auto|]. split; [constructor|discriminate].
  Qed.
End Extend.
