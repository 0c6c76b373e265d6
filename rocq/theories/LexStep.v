(** One iteration of the lexer loop against the declarative [token_at]. *)
From Verif Require Import Chars Lexer LexSpec LexerProofs.

Lemma not_bad_nonword U c s : word_char U c = false -> ~ bad_word U (c :: s).
Proof.
  intros H (w & r & E & Hne & _ & (r' & _ & Hw & _) & _).
  destruct w as [|d w]; [congruence|]. cbn in E. injection E as <- _.
  inversion Hw; subst. congruence.
Qed.

Lemma not_bad_ascii_word U s w : word_at U s w -> ascii_str w = true -> ~ bad_word U s.
Proof.
  intros Hat Ha (w' & r & E & _ & _ & Hat' & H).
  pose proof (word_at_fun _ _ _ _ Hat Hat') as <-. apply (H w []).
  - rewrite app_nil_r; reflexivity.
  - apply byte_len_ascii, Ha.
Qed.

Definition plain_start (U : unicode) (c : N) (s' : list N) : Prop :=
  (is_word c = true \/ c = 34 \/ c = 39 \/ (c = 45 /\ exists d r, s' = d :: r /\ is_digit d = true))
  /\ (c = 95 -> ~ not_followed_by (word_char U) s').

Lemma step_plain U c s' pos ln chr la : plain_start U c s' -> la <= pos ->
  step U (mklx (c :: s') pos ln chr la)
  = word_step U (mkpos pos ln chr) pos c (mklx s' (pos + len_utf8 c) ln (chr + (pos - la)) pos).
Proof.
  intros [Hc H95] Hla. unfold step. cbn [lx_chars lx_pos lx_line lx_character lx_last chars_next].
  replace (pos <? la) with false by lia.
  assert (Hws : is_whitespace c = false).
  { destruct Hc as [H|[->|[->|[-> _]]]]; try reflexivity.
    revert H. unfold is_word, is_lower, is_upper, is_digit, is_whitespace, in_range. lia. }
  rewrite Hws.
  assert (Hs : single_char_token c = None).
  { unfold single_char_token. destruct Hc as [H|[->|[->|[-> _]]]]; try reflexivity.
    assert (H' : 48 <= c <= 57 \/ 65 <= c <= 90 \/ c = 95 \/ 97 <= c <= 122)
      by (revert H; unfold is_word, is_lower, is_upper, is_digit, in_range; lia).
    repeat match goal with |- context [c =? ?k] => replace (c =? k) with false by lia end. reflexivity. }
  rewrite Hs.
  destruct (N.eq_dec c 45) as [->|H45].
  - destruct Hc as [H|[H|[H|[_ (d & r & -> & Hd)]]]]; try discriminate.
    cbn [hd_error]. assert (Hnum : is_numeric U d = true).
    { unfold is_numeric. replace (d <? 128) with true; [exact Hd|].
      revert Hd. unfold is_digit, in_range. lia. }
    rewrite Hnum. replace (d =? 62) with false by (revert Hd; unfold is_digit, in_range; lia).
    reflexivity.
  - assert (c = 95 \/ c <> 61 /\ c <> 60 /\ c <> 58 /\ c <> 40 /\ c <> 95) as [->|(H1 & H2 & H3 & H4 & H5)].
    { destruct Hc as [H|[->|[->|[-> _]]]]; try lia.
      revert H. unfold is_word, is_lower, is_upper, is_digit, in_range. lia. }
    + specialize (H95 eq_refl). destruct s' as [|d s']; [destruct H95; exact I|]. cbn [hd_error].
      rewrite is_alnum_under_eq. cbn in H95. destruct (word_char U d); [|destruct H95; reflexivity].
      reflexivity.
    + rewrite (proj2 (N.eqb_neq _ _) H1), (proj2 (N.eqb_neq _ _) H2), (proj2 (N.eqb_neq _ _) H3),
        (proj2 (N.eqb_neq _ _) H4), (proj2 (N.eqb_neq _ _) H5), (proj2 (N.eqb_neq _ _) H45). reflexivity.
Qed.

Lemma emit_tok_eq pos ln chr t k l :
  emit_tok (mkpos pos ln chr) t (pos + k) l = STok (mkpos pos ln chr, t, mkpos (pos + k) ln (chr + k)) l.
Proof.
  unfold emit_tok, with_end. cbn [position line column].
  replace (pos + k <? pos) with false by lia. replace (pos + k - pos) with k by lia. reflexivity.
Qed.

Lemma emit_tok_zero pos ln chr t l :
  emit_tok (mkpos pos ln chr) t pos l = STok (mkpos pos ln chr, t, mkpos pos ln chr) l.
Proof.
  replace (emit_tok (mkpos pos ln chr) t pos l) with (emit_tok (mkpos pos ln chr) t (pos + 0) l) by (f_equal; lia).
  rewrite emit_tok_eq, !N.add_0_r. reflexivity.
Qed.

Lemma word_step_keyword U sp pos c s' l w t : In (w, t) keyword_list -> word_at U (c :: s') w ->
  lx_chars l = s' ->
  word_step U sp pos c l = emit_tok sp t (pos + byte_len w) (chars_nth (List.length w - 2) l).
Proof.
  intros Hin Hat <-. unfold word_step. rewrite (kw_slice_keyword U _ w t Hin Hat).
  rewrite (assoc_keyword _ _ Hin). reflexivity.
Qed.

(** What a token step looks like. *)
Definition token_step (U : unicode) (s : list N) (t : token) (pos ln chr la : N) : Prop :=
  exists x r, s = token_text t ++ x ++ r /\ lost t x r /\
    step U (mklx s pos ln chr la)
    = STok (mkpos pos ln chr, t,
            mkpos (pos + byte_len (token_text t)) ln (chr + byte_len (token_text t)))
           (mklx r (pos + byte_len (token_text t ++ x)) ln (chr + (pos - la)) pos).

Lemma punct_text w t : In (w, t) punctuation -> token_text t = w /\ w <> [].
Proof.
  intro H. repeat (destruct H as [H|H]; [injection H as <- <-; split; [reflexivity|discriminate]|]). destruct H.
Qed.

Lemma token_at_prefix U s t : token_at U s t -> token_text t <> [] /\ exists q, s = token_text t ++ q.
Proof.
  intros H. destruct H as [w t r Hin Hm|s w t Hin Hat|ds r Hne Hd Hr|r Hr|x hs r Hx Hh Hr
    |ds r Hne Hd Hr Hx|ds r Hne Hd Hr|b r Hb|b r Hb Hr|c w r Hc Hw Hr Hk|c w r Hc Hw Hr
    |c w r Hc Hw Hr Hk Hb|w r Hw Hr Hf].
  - destruct (punct_text _ _ Hin) as [-> Hne]. eauto.
  - destruct (keyword_props _ _ Hin) as (-> & _ & Hlen & _). split.
    + destruct w; [cbn in Hlen; lia|discriminate].
    + destruct Hat as (r & -> & _). eauto.
  - split; [discriminate|]. exists r. reflexivity.
  - split; [discriminate|]. exists r. reflexivity.
  - split; [discriminate|]. exists r. reflexivity.
  - split; [exact Hne|]. exists r. reflexivity.
  - split; [discriminate|]. exists r. reflexivity.
  - split; [discriminate|]. exists r. cbn [token_text app]. rewrite <- app_assoc. reflexivity.
  - split; [discriminate|]. exists r. cbn [token_text app]. rewrite <- app_assoc. reflexivity.
  - split; [discriminate|]. exists r. reflexivity.
  - split; [discriminate|]. exists r. reflexivity.
  - split; [discriminate|]. exists r. reflexivity.
  - split; [discriminate|]. exists r. reflexivity.
Qed.

Lemma step_token_plain U s t pos ln chr la : token_at U s t -> plain_token t ->
  ~ bad_word U s -> la <= pos -> token_step U s t pos ln chr la.
Proof.
  intros Hat Hp Hnb Hla.
  destruct (other_complete U s t Hat Hp) as (Ho & Hk & c & s' & -> & Hst).
  pose proof (step_plain U c s' pos ln chr la Hst Hla) as E.
  unfold word_step in E. cbn [lx_chars] in E.
  pose proof (keyword_token_spec U (c :: s')) as Pk.
  destruct (keyword_token U (c :: s')) as [kw|] eqn:Ekw; [|contradiction].
  rewrite (kw_slice_not_keyword U _ _ Ekw Hk), Ho in E.
  destruct (other_sound U (c :: s') t (token_text t) Ho Hk) as (_ & _ & Hasc).
  { intros r [= -> ->]. destruct Hst as [[H|[H|[H|[H _]]]] _]; discriminate. }
  { intros r [= -> ->]. apply Hst. reflexivity. }
  destruct (token_at_prefix _ _ _ Hat) as (Hne & q & Hq).
  destruct (advance_match t (token_text t) c s' pos ln (chr + (pos - la)) pos) as (x & r & E1 & E2 & E3).
  { rewrite Hq. rewrite skipn_app, skipn_all, PeanoNat.Nat.sub_diag. reflexivity. }
  { exact Hne. } { reflexivity. } { exact Hasc. }
  exists x, r. split; [exact E1|]. split; [exact E2|]. rewrite E, emit_tok_eq, E3. reflexivity.
Qed.

Lemma step_token_keyword U s w t pos ln chr la : In (w, t) keyword_list -> word_at U s w ->
  la <= pos -> token_step U s t pos ln chr la.
Proof.
  intros Hin Hat Hla. pose proof (keyword_props _ _ Hin) as (Htt & Hw & Hlen & _ & Hf).
  destruct (Hat) as (r & -> & Hwc & Hr).
  destruct w as [|c w]; [cbn in Hlen; lia|]. cbn [app] in *.
  assert (Hc : is_lower c || is_upper c = true) by (eapply Hf; reflexivity).
  assert (Hst : plain_start U c (w ++ r)).
  { split; [left; inversion Hw; assumption|]. intros ->. discriminate. }
  exists [], r. rewrite Htt. split; [reflexivity|]. split.
  { pose proof (keyword_not_plain _ _ Hin) as Hn. destruct t; cbn; auto. destruct Hn; constructor. }
  rewrite (step_plain U c (w ++ r) pos ln chr la Hst Hla).
  rewrite (word_step_keyword U _ pos c (w ++ r) _ _ _ Hin Hat) by reflexivity.
  rewrite emit_tok_eq. rewrite app_nil_r.
  assert (Hb : byte_len (c :: w) = N.of_nat (List.length (c :: w))) by (apply byte_len_ascii, all_word_ascii, Hw).
  unfold chars_nth. rewrite chars_advance_app by (cbn [List.length] in *; lia).
  cbn [byte_len]. f_equal. f_equal. lia.
Qed.

Lemma token_step_intro U w r t pos ln chr la : token_text t = w -> lost t [] r ->
  step U (mklx (w ++ r) pos ln chr la)
    = STok (mkpos pos ln chr, t, mkpos (pos + byte_len w) ln (chr + byte_len w))
           (mklx r (pos + byte_len w) ln (chr + (pos - la)) pos) ->
  token_step U (w ++ r) t pos ln chr la.
Proof.
  intros <- Hl E. exists [], r. split; [reflexivity|]. split; [exact Hl|]. rewrite app_nil_r. exact E.
Qed.

Ltac const_eqb :=
  repeat match goal with |- context [N.eqb ?a ?b] =>
    let v := eval vm_compute in (N.eqb a b) in
    match v with true => change (N.eqb a b) with true | false => change (N.eqb a b) with false end
  end.

Lemma step_token_punct U w t r pos ln chr la : In (w, t) punctuation -> may_follow U t r ->
  la <= pos -> token_step U (w ++ r) t pos ln chr la.
Proof.
  intros Hin Hm Hla.
  assert (Hlt : (pos <? la) = false) by lia.
  repeat (destruct Hin as [Hin|Hin]; [injection Hin as <- <-; apply token_step_intro;
    [reflexivity|reflexivity|]|]); [..|destruct Hin];
  match goal with |- step U (mklx (?x ++ r) _ _ _ _) = _ =>
    let v := eval vm_compute in x in change x with v end; cbn [app];
  unfold step; cbn [lx_chars lx_pos lx_line lx_character lx_last chars_next hd_error]; rewrite Hlt;
  match goal with |- context [is_whitespace ?x] => change (is_whitespace x) with false end; cbn match;
  const_eqb; cbn [andb negb].
  all: destruct r as [|d r]; cbn in Hm; cbn [hd_error];
    rewrite ?is_alnum_under_eq;
    repeat match goal with H : _ || _ = false |- _ => apply orb_false_iff in H; destruct H end;
    repeat match goal with H : ?a = false |- context [?a] => rewrite H end; cbn [negb andb].
  all: unfold single_char_token; const_eqb; cbn match.
  all: try (rewrite emit_tok_eq; reflexivity).
  all: try (change (2 * len_utf8 _) with 2; rewrite emit_tok_eq; cbn [byte_len];
       change (len_utf8 _) with 1; f_equal; f_equal; lia).
  all: try (destruct (d =? _); cbn match; rewrite emit_tok_eq; reflexivity).
Qed.

Lemma step_token U s t pos ln chr la : token_at U s t -> ~ bad_word U s -> la <= pos ->
  token_step U s t pos ln chr la.
Proof.
  intros Hat Hnb Hla. destruct (Hat) as [w t r Hin Hm|s w t Hin Hw|ds r Hne Hd Hr|r Hr|x hs r Hx Hh Hr
    |ds r Hne Hd Hr Hx|ds r Hne Hd Hr|b r Hb|b r Hb Hr|c w r Hc Hw Hr Hk|c w r Hc Hw Hr
    |c w r Hc Hw Hr Hk Hb|w r Hw Hr Hf].
  1: apply step_token_punct; assumption.
  1: eapply step_token_keyword; eassumption.
  all: apply step_token_plain; auto; constructor.
Qed.

Lemma token_at_not_unknown U s t : token_at U s t -> t <> TUnknown.
Proof.
  intros H E. subst t. inversion H; subst.
  - repeat match goal with H : In _ _ |- _ => destruct H as [H|H]; [discriminate|] end.
    match goal with H : In _ _ |- _ => destruct H end.
  - repeat match goal with H : In _ _ |- _ => destruct H as [H|H]; [discriminate|] end.
    match goal with H : In _ _ |- _ => destruct H end.
Qed.

(** Only one token fits at the head of a text. *)
Lemma token_at_unique U s t t' : token_at U s t -> token_at U s t' -> ~ bad_word U s -> t = t'.
Proof.
  intros H H' Hb.
  destruct (step_token U s t 0 0 0 0 H Hb (N.le_refl 0)) as (x & r & _ & _ & E).
  destruct (step_token U s t' 0 0 0 0 H' Hb (N.le_refl 0)) as (x' & r' & _ & _ & E').
  rewrite E in E'. injection E'. auto.
Qed.

(** *** Comments *)
Lemma occurs_cons a s : occurs close_comment (a :: s) ->
  (a = 42 /\ exists r, s = 41 :: r) \/ occurs close_comment s.
Proof.
  intros (p & q & E). destruct p as [|b p]; cbn [app] in E.
  - left. change (close_comment ++ q) with (42 :: 41 :: q) in E. injection E as -> ->. eauto.
  - injection E as -> ->. right. exists p, q. reflexivity.
Qed.
Lemma not_occurs_nil : ~ occurs close_comment [].
Proof. intros (p & q & E). destruct p; discriminate. Qed.

Lemma skip_comment_spec s : forall pos, let '(r, p) := skip_comment s pos in
  (exists c, ~ occurs close_comment c /\ s = c ++ close_comment ++ r
             /\ p = pos + byte_len (c ++ close_comment))
  \/ (~ occurs close_comment s /\ r = [] /\ p = pos + byte_len s).
Proof.
  induction s as [|c s IH]; intro pos; cbn [skip_comment].
  - right. split; [apply not_occurs_nil|]. split; [reflexivity|]. cbn [byte_len]. lia.
  - specialize (IH (pos + len_utf8 c)). destruct s as [|d s].
    + cbn [skip_comment]. right. split.
      { intro H. apply occurs_cons in H. destruct H as [(_ & r & H)|H]; [discriminate|].
        exact (not_occurs_nil H). }
      split; [reflexivity|]. cbn [byte_len]. lia.
    + destruct ((c =? 42) && (d =? 41)) eqn:E.
      * apply andb_true_iff in E. destruct E as [E1 E2]. apply N.eqb_eq in E1, E2. subst.
        left. exists []. split; [apply not_occurs_nil|]. split; [reflexivity|].
        change (byte_len ([] ++ close_comment)) with 2. change (len_utf8 42) with 1. change (len_utf8 41) with 1. lia.
      * destruct (skip_comment (d :: s) (pos + len_utf8 c)) as [r p].
        destruct IH as [(k & Hk & E1 & E2)|(H1 & H2 & H3)].
        -- left. exists (c :: k). split.
           { intro H. apply occurs_cons in H. destruct H as [(-> & q & ->)|H]; [|exact (Hk H)].
             cbn [app] in E1. injection E1 as -> _. discriminate. }
           split; [cbn [app]; congruence|]. cbn [app byte_len]. lia.
        -- right. split; [|split; [exact H2|cbn [byte_len] in *; lia]].
           intro H. apply occurs_cons in H. destruct H as [(-> & q & E')|H]; [|exact (H1 H)].
           injection E' as -> _. discriminate.
Qed.

Lemma word_char_first_not_open U c s : word_char U c = true -> forall r, c :: s <> open_comment ++ r.
Proof.
  intros H r E. change (open_comment ++ r) with (40 :: 42 :: r) in E. injection E as -> _.
  discriminate H.
Qed.

(** *** Soundness of one iteration *)
Definition unknown_step (U : unicode) (s : list N) (i : item) (l' : lexer) (pos ln chr la : N) : Prop :=
  exists c s', s = c :: s' /\ is_whitespace c = false /\ (forall r, s <> open_comment ++ r)
    /\ (forall t, ~ token_at U s t) /\ ~ bad_word U s
    /\ i = (mkpos pos ln chr, TUnknown, mkpos pos ln chr)
    /\ l' = mklx s' (pos + len_utf8 c) ln (chr + (pos - la)) pos.

Lemma word_step_inv U c s' pos ln chr la :
  step U (mklx (c :: s') pos ln chr la)
    = word_step U (mkpos pos ln chr) pos c (mklx s' (pos + len_utf8 c) ln (chr + (pos - la)) pos) ->
  la <= pos -> is_whitespace c = false -> (forall r, c :: s' <> open_comment ++ r) -> c <> 43 ->
  (c = 95 -> ~ not_followed_by (word_char U) s') ->
  match step U (mklx (c :: s') pos ln chr la) with
  | SPanic => bad_word U (c :: s')
  | STok i l' => (exists t, token_at U (c :: s') t /\ ~ bad_word U (c :: s'))
                 \/ unknown_step U (c :: s') i l' pos ln chr la
  | _ => False
  end.
Proof.
  intros E Hla Hws Hoc H43 H95. rewrite E. unfold word_step. cbn [lx_chars].
  pose proof (keyword_token_spec U (c :: s')) as P.
  destruct (keyword_token U (c :: s')) as [kw|] eqn:Ek; [|exact P].
  destruct P as (Hnb & _).
  destruct (assoc kw keywords) as [t|] eqn:Ea.
  - rewrite emit_tok_eq. left.
    destruct (word_at_exists U (c :: s')) as (w & Hw).
    destruct (assoc w keywords) as [t'|] eqn:Ew.
    + exists t'. split; [|exact Hnb]. eapply ta_keyword; [apply assoc_in, Ew|exact Hw].
    + exfalso. rewrite (kw_slice_not_keyword U _ _ Ek) in Ea; [discriminate|].
      intros k Hk. rewrite (word_at_fun _ _ _ _ Hk Hw). apply assoc_none, Ew.
  - assert (Hk : forall k, word_at U (c :: s') k -> ~ is_keyword k).
    { intros k Hk Hkw. apply in_map_iff in Hkw. destruct Hkw as ([k' t] & Ek' & Hin). cbn in Ek'. subst k'.
      rewrite (kw_slice_keyword U _ _ _ Hin Hk) in Ek. injection Ek as <-.
      rewrite (assoc_keyword _ _ Hin) in Ea. discriminate. }
    destruct (other_token (c :: s')) as [[t m]|] eqn:Eo.
    + rewrite emit_tok_eq. left. exists t. split; [|exact Hnb].
      apply (other_sound U _ t m Eo Hk).
      * intros r [= -> _]. congruence.
      * intros r [= -> <-]. apply H95. reflexivity.
    + rewrite emit_tok_zero. right.
      exists c, s'. repeat (split; [solve [auto]|]). split; [|split; [exact Hnb|split]].
      * intros t Ht. destruct (step_token U _ t pos ln chr la Ht Hnb Hla) as (x & r & _ & _ & E').
        rewrite E in E'. unfold word_step in E'. cbn [lx_chars] in E'. rewrite Ek, Ea, Eo in E'.
        rewrite emit_tok_zero in E'. injection E' as E' _ _ _ _.
        apply (token_at_not_unknown _ _ _ Ht). symmetry. exact E'.
      * reflexivity.
      * reflexivity.
Qed.

Definition skip_step (U : unicode) (s : list N) (l' : lexer) (pos ln chr la : N) : Prop :=
  (exists s', s = 10 :: s' /\ l' = mklx s' (pos + 1) (ln + 1) 0 pos)
  \/ (exists c s', s = c :: s' /\ c <> 10 /\ is_whitespace c = true
        /\ l' = mklx s' (pos + len_utf8 c) ln (chr + (pos - la)) pos)
  \/ (exists c s', ~ occurs close_comment c /\ s = open_comment ++ c ++ close_comment ++ s'
        /\ l' = mklx s' (pos + byte_len (open_comment ++ c ++ close_comment)) ln (chr + (pos - la)) pos)
  \/ (exists c, ~ occurs close_comment c /\ s = open_comment ++ c
        /\ l' = mklx [] (pos + byte_len s) ln (chr + (pos - la)) pos).

Lemma single_char_punct c t : single_char_token c = Some t -> In ([c], t) punctuation.
Proof.
  unfold single_char_token. intro H.
  repeat match type of H with (if ?c =? ?k then _ else _) = _ =>
    let E := fresh in destruct (c =? k) eqn:E;
    [injection H as <-; apply N.eqb_eq in E; subst; vm_compute; tauto|] end.
  discriminate.
Qed.

Lemma step_inv U s pos ln chr la : la <= pos ->
  match step U (mklx s pos ln chr la) with
  | SEnd => s = []
  | SPanic => bad_word U s
  | SSkip l' => skip_step U s l' pos ln chr la
  | STok i l' => (exists t, token_at U s t /\ ~ bad_word U s)
                 \/ unknown_step U s i l' pos ln chr la
  end.
Proof.
  intro Hla. destruct s as [|c s]; [reflexivity|].
  assert (Hpunct : forall w t r, In (w, t) punctuation -> may_follow U t r -> c :: s = w ++ r ->
     exists t, token_at U (c :: s) t /\ ~ bad_word U (c :: s)).
  { intros w t r Hin Hm E. exists t. rewrite E. split; [apply ta_punct; assumption|].
    destruct (N.eq_dec c 95) as [->|Hn].
    - assert (w = [95] /\ t = TUnderscore) as [-> ->].
      { repeat (destruct Hin as [Hin|Hin]; [injection Hin as <- <-; try discriminate E; auto|]); destruct Hin. }
      cbn in E. cbn in Hm. apply (not_bad_ascii_word U _ [95]); [|reflexivity].
      exists r. repeat constructor. exact Hm.
    - rewrite <- E. apply not_bad_nonword.
      repeat (destruct Hin as [Hin|Hin]; [injection Hin as <- <-; injection E as -> _; try reflexivity; try congruence|]).
      + destruct Hn. reflexivity.
      + destruct Hin. }
  remember (step U (mklx (c :: s) pos ln chr la)) as res eqn:Hres.
  pose proof Hres as Hres'. unfold step in Hres'.
  cbn [lx_chars lx_pos lx_line lx_character lx_last chars_next] in Hres'.
  replace (pos <? la) with false in Hres' by lia.
  destruct (is_whitespace c) eqn:Hws.
  { destruct (c =? 10) eqn:E10; rewrite Hres'.
    - apply N.eqb_eq in E10. subst c. left. exists s. split; reflexivity.
    - right; left. exists c, s. split; [reflexivity|]. split; [apply N.eqb_neq, E10|]. split; [exact Hws|reflexivity]. }
  assert (Htok : forall w t r i l, In (w, t) punctuation -> may_follow U t r -> c :: s = w ++ r ->
     res = STok i l -> match res with
  | SEnd => c :: s = []
  | SPanic => bad_word U (c :: s)
  | SSkip l' => skip_step U (c :: s) l' pos ln chr la
  | STok i l' => (exists t, token_at U (c :: s) t /\ ~ bad_word U (c :: s))
                 \/ unknown_step U (c :: s) i l' pos ln chr la
  end).
  { intros w t r i l H1 H2 H3 ->. left. eapply Hpunct; eassumption. }
  set (la1 := fun k => match hd_error s with Some d => d =? k | None => false end).
  assert (Hla1 : forall k, la1 k = true -> exists r, s = k :: r).
  { intros k. unfold la1. destruct s as [|d r]; [discriminate|]. cbn [hd_error]. intro H.
    apply N.eqb_eq in H. subst. eauto. }
  assert (Hla0 : forall k, la1 k = false -> not_followed_by (fun c => c =? k) s).
  { intros k. unfold la1. destruct s as [|d r]; [reflexivity|]. cbn [hd_error]. auto. }
  fold (la1 62) in Hres'. fold (la1 45) in Hres'. fold (la1 61) in Hres'. fold (la1 42) in Hres'.
  destruct ((c =? 61) && la1 62) eqn:B1.
  { apply andb_true_iff in B1. destruct B1 as [B1 B2]. apply N.eqb_eq in B1. subst c.
    destruct (Hla1 _ B2) as (r & ->). rewrite emit_tok_eq in Hres'.
    eapply (Htok (lit "=>") TDoubleArrow r); [vm_compute; tauto|exact I|reflexivity|exact Hres']. }
  destruct ((c =? 45) && la1 62) eqn:B2.
  { apply andb_true_iff in B2. destruct B2 as [B2 B3]. apply N.eqb_eq in B2. subst c.
    destruct (Hla1 _ B3) as (r & ->). rewrite emit_tok_eq in Hres'.
    eapply (Htok (lit "->") TArrow r); [vm_compute; tauto|exact I|reflexivity|exact Hres']. }
  destruct ((c =? 45) && negb match hd_error s with Some d => is_numeric U d | None => false end) eqn:B3.
  { apply andb_true_iff in B3. destruct B3 as [B3 B4]. apply N.eqb_eq in B3. subst c.
    rewrite emit_tok_eq in Hres'.
    eapply (Htok (lit "-") TMinus s); [vm_compute; tauto| |reflexivity|exact Hres'].
    destruct s as [|d r]; [exact I|]. cbn [hd_error] in B4. cbn.
    change (la1 62 = false) in B2. unfold la1 in B2. cbn [hd_error] in B2. rewrite B2.
    destruct (is_numeric U d); [discriminate|reflexivity]. }
  destruct ((c =? 60) && la1 45) eqn:B4.
  { apply andb_true_iff in B4. destruct B4 as [B4 B5]. apply N.eqb_eq in B4. subst c.
    destruct (Hla1 _ B5) as (r & ->). rewrite emit_tok_eq in Hres'.
    eapply (Htok (lit "<-") TLeftArrow r); [vm_compute; tauto|exact I|reflexivity|exact Hres']. }
  destruct ((c =? 58) && la1 61) eqn:B5.
  { apply andb_true_iff in B5. destruct B5 as [B5 B6]. apply N.eqb_eq in B5. subst c.
    destruct (Hla1 _ B6) as (r & ->). rewrite emit_tok_eq in Hres'.
    eapply (Htok (lit ":=") TColonEquals r); [vm_compute; tauto|exact I|reflexivity|exact Hres']. }
  destruct ((c =? 95) && negb match hd_error s with Some d => is_alnum_under U d | None => false end) eqn:B6.
  { apply andb_true_iff in B6. destruct B6 as [B6 B7]. apply N.eqb_eq in B6. subst c.
    rewrite emit_tok_eq in Hres'.
    eapply (Htok (lit "_") TUnderscore s); [vm_compute; tauto| |reflexivity|exact Hres'].
    destruct s as [|d r]; [exact I|]. cbn [hd_error] in B7. cbn. rewrite is_alnum_under_eq in B7.
    destruct (word_char U d); [discriminate|reflexivity]. }
  destruct ((c =? 40) && la1 42) eqn:B7.
  { apply andb_true_iff in B7. destruct B7 as [B7 B8]. apply N.eqb_eq in B7. subst c.
    destruct (Hla1 _ B8) as (r & ->). cbn [lx_chars lx_pos lx_line lx_character lx_last chars_next] in Hres'.
    pose proof (skip_comment_spec r (pos + len_utf8 40 + len_utf8 42)) as P.
    destruct (skip_comment r (pos + len_utf8 40 + len_utf8 42)) as [r' p']. rewrite Hres'.
    right; right. destruct P as [(k & Hk & -> & ->)|(Hk & -> & ->)].
    - left. exists k, r'. split; [exact Hk|]. split; [reflexivity|]. f_equal.
      change (open_comment ++ k ++ close_comment) with (40 :: 42 :: k ++ close_comment).
      cbn [byte_len]. lia.
    - right. exists r. split; [exact Hk|]. split; [reflexivity|]. f_equal. cbn [byte_len]. lia. }
  destruct (single_char_token c) as [t|] eqn:B8.
  { rewrite emit_tok_eq in Hres'. pose proof (single_char_punct _ _ B8) as Hin.
    eapply (Htok [c] t s); [exact Hin| |reflexivity|exact Hres'].
    unfold single_char_token in B8.
    repeat match type of B8 with (if ?c =? ?k then _ else _) = _ =>
      let E := fresh in destruct (c =? k) eqn:E;
      [injection B8 as <-; apply N.eqb_eq in E; subst c|] end; try discriminate; try exact I.
    - apply Hla0. exact B5.
    - apply Hla0. exact B7.
    - apply Hla0. exact B1. }
  pose proof (word_step_inv U c s pos ln chr la) as P. rewrite <- Hres in P. rewrite <- Hres' in P.
  specialize (P eq_refl Hla Hws).
  assert (match res with
       | STok i l' => (exists t, token_at U (c :: s) t /\ ~ bad_word U (c :: s)) \/ unknown_step U (c :: s) i l' pos ln chr la
       | SPanic => bad_word U (c :: s)
       | _ => False
       end) as Q.
  { apply P.
    - intros r E. change (open_comment ++ r) with (40 :: 42 :: r) in E. injection E as -> ->. discriminate B7.
    - intros ->. discriminate.
    - intros ->. destruct s as [|d r]; [discriminate|]. cbn [hd_error] in B6. rewrite is_alnum_under_eq in B6.
      cbn. destruct (word_char U d); [discriminate|]. discriminate. }
  destruct res; auto; destruct Q.
Qed.
