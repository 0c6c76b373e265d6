(** Lexing a written-down token sequence gives that sequence back. *)
From Verif Require Import Chars Lexer LexSpec LexerProofs LexStep LexSegment LexFacts.

Lemma not_word_not_digit U r : not_followed_by (word_char U) r -> not_followed_by is_digit r.
Proof.
  destruct r as [|c r]; [auto|]. cbn. intro H. destruct (is_digit c) eqn:E; [|reflexivity].
  rewrite (is_word_char U c) in H; [discriminate|]. apply is_digit_word, E.
Qed.
Lemma not_word_not_is_word U r : not_followed_by (word_char U) r -> not_followed_by is_word r.
Proof.
  destruct r as [|c r]; [auto|]. cbn. intro H. destruct (is_word c) eqn:E; [|reflexivity].
  rewrite (is_word_char U c) in H; [discriminate|]. exact E.
Qed.

Lemma word_at_app U w r : all_word w -> not_followed_by (word_char U) r -> word_at U (w ++ r) w.
Proof. intros Hw Hr. exists r. split; [reflexivity|]. split; [apply all_word_chars, Hw|exact Hr]. Qed.

Lemma not_bad_word_app U w r : all_word w -> not_followed_by (word_char U) r -> ~ bad_word U (w ++ r).
Proof.
  intros Hw Hr. eapply not_bad_ascii_word; [apply word_at_app; eassumption|apply all_word_ascii, Hw].
Qed.

Lemma punct_not_bad U w t r : In (w, t) punctuation -> may_follow U t r -> ~ bad_word U (w ++ r).
Proof.
  intros Hin Hm.
  repeat (destruct Hin as [Hin|Hin]; [injection Hin as <- <-; cbn [lit app];
    try (apply not_bad_nonword; reflexivity)|]); [|destruct Hin].
  cbn in Hm. apply (not_bad_word_app U [95] r); [repeat constructor|exact Hm].
Qed.

Lemma keyword_follow U w t r : In (w, t) keyword_list -> may_follow U t r -> not_followed_by (word_char U) r.
Proof.
  intros Hin Hm. repeat (destruct Hin as [Hin|Hin]; [injection Hin as <- <-; exact Hm|]). destruct Hin.
Qed.

Lemma wf_token_at U t r : wf_token t -> may_follow U t r ->
  token_at U (token_text t ++ r) t /\ ~ bad_word U (token_text t ++ r) /\ lost t [] r.
Proof.
  intros Hwf Hm. destruct Hwf as [w t Hin|w t Hin| |ds Hne Hd|ds Hne Hd|ds Hne Hd|x hs Hx Hh
    |c s Hc Hs Hk|c s Hc Hs Hk Hb|s Hne Hs|c s Hc Hs|s Hs Ha]; cbn [token_text].
  - pose proof (keyword_props _ _ Hin) as (-> & Hw & _). pose proof (keyword_follow _ _ _ _ Hin Hm) as Hr.
    split; [eapply ta_keyword; [exact Hin|apply word_at_app; assumption]|].
    split; [apply not_bad_word_app; assumption|].
    pose proof (keyword_not_plain _ _ Hin) as Hp. destruct t; try reflexivity. destruct Hp. constructor.
  - pose proof (punct_text _ _ Hin) as (-> & _).
    split; [apply ta_punct; assumption|]. split; [eapply punct_not_bad; eassumption|].
    pose proof (punct_not_plain _ _ Hin) as Hp. destruct t; try reflexivity. destruct Hp. constructor.
  - cbn in Hm. split; [apply ta_bystr, (not_word_not_digit U), Hm|]. split; [|reflexivity].
    apply not_bad_word_app; [repeat constructor|exact Hm].
  - cbn in Hm. rewrite <- app_assoc. split; [apply ta_bystr_size; auto; apply (not_word_not_digit U), Hm|].
    split; [|reflexivity]. rewrite app_assoc. apply not_bad_word_app; [|exact Hm].
    apply Forall_app. split; [repeat constructor|apply all_digits_word, Hd].
  - cbn in Hm. split; [apply ta_number; auto|split; [|reflexivity]].
    + apply (not_word_not_digit U), Hm.
    + intros _. destruct r as [|c r]; [exact I|]. cbn in Hm |- *.
      destruct ((c =? 120) || (c =? 88)) eqn:E; [|reflexivity].
      rewrite (is_word_char U c) in Hm; [discriminate|].
      unfold is_word, is_lower, is_upper, in_range. lia.
    + apply not_bad_word_app; [apply all_digits_word, Hd|exact Hm].
  - cbn in Hm. cbn [lit app]. split; [apply ta_negative; auto|split; [|reflexivity]].
    + apply (not_word_not_digit U), Hm.
    + apply not_bad_nonword. reflexivity.
  - cbn in Hm. cbn [app]. split; [apply ta_hex; auto|split; [|reflexivity]].
    + intros a b r' -> Ha _. cbn in Hm. rewrite (is_word_char U a) in Hm; [discriminate|]. apply is_hex_word, Ha.
    + apply (not_bad_word_app U (48 :: x :: hs) r); [|exact Hm].
      constructor; [reflexivity|]. constructor; [destruct Hx; subst; reflexivity|].
      apply hex_digits_word, Hh.
  - cbn in Hm. assert (Hw : all_word (c :: s)) by (constructor; [apply is_lower_word, Hc|exact Hs]).
    cbn [app]. split; [apply ta_identifier; auto|split; [|reflexivity]].
    + apply (not_word_not_is_word U), Hm.
    + intros k Hat. rewrite (word_at_fun U _ _ _ Hat (word_at_app U (c :: s) r Hw Hm)). exact Hk.
    + apply (not_bad_word_app U (c :: s) r); assumption.
  - cbn in Hm. assert (Hw : all_word (c :: s)) by (constructor; [apply is_upper_word, Hc|exact Hs]).
    cbn [app]. split; [apply ta_custom; auto|split; [|reflexivity]].
    + apply (not_word_not_is_word U), Hm.
    + intros k Hat. rewrite (word_at_fun U _ _ _ Hat (word_at_app U (c :: s) r Hw Hm)). exact Hk.
    + intros k E. apply (f_equal (starts_with kw_bystr)) in E.
      rewrite (proj2 (starts_with_spec kw_bystr (lit "ByStr" ++ k))) in E by (eexists; reflexivity).
      assert (Hlen : starts_with kw_bystr (c :: s) = true).
      { clear - E Hw Hm.
        revert E. change (c :: s ++ r) with ((c :: s) ++ r). revert Hw. generalize (c :: s) as w. intros w Hw E.
        assert (G : forall p w, all_word p -> starts_with p (w ++ r) = true -> starts_with p w = true).
        { clear - Hm. induction p as [|a p IH]; intros w Hp E; [reflexivity|].
          inversion Hp as [|? ? Ha Hp']; subst. destruct w as [|b w].
          - cbn [app] in E. destruct r as [|b r]; [discriminate|]. cbn [starts_with] in E.
            apply andb_true_iff in E. destruct E as [E _]. apply N.eqb_eq in E. subst b.
            cbn in Hm. rewrite (is_word_char U a Ha) in Hm. discriminate.
          - cbn [app starts_with] in *. apply andb_true_iff in E. destruct E as [-> E].
            cbn [andb]. apply IH; assumption. }
        apply G; [repeat constructor|exact E]. }
      apply starts_with_spec in Hlen. destruct Hlen as (q & Eq). eapply Hb, Eq.
    + apply (not_bad_word_app U (c :: s) r); assumption.
  - cbn in Hm. cbn [app]. split; [apply ta_special; auto|split; [|reflexivity]].
    + apply (not_word_not_is_word U), Hm.
    + destruct s as [|d s]; [congruence|]. inversion Hs as [|? ? Hd _]; subst. cbn.
      rewrite (is_word_char U d Hd). discriminate.
    + apply (not_bad_word_app U (95 :: s) r); [constructor; [reflexivity|exact Hs]|exact Hm].
  - cbn in Hm. cbn [app]. split; [apply ta_template; auto|split; [|reflexivity]].
    + apply (not_word_not_is_word U), Hm.
    + apply not_bad_nonword. reflexivity.
  - cbn [app]. rewrite <- app_assoc. cbn [app]. split; [apply ta_string, Hs|split].
    + apply not_bad_nonword. reflexivity.
    + cbn [lost]. left.
      assert (Hall : ascii_str (34 :: s ++ [34]) = true).
      { change (34 :: s ++ [34]) with ([34] ++ s ++ [34]). rewrite !ascii_app, Ha. reflexivity. }
      rewrite (byte_len_ascii _ Hall). cbn [List.length]. lia.
Qed.

Theorem written_tokens U toks text : written U toks text -> tokens_of U text = (toks, LEof).
Proof.
  induction 1 as [g Hg|g n t toks text Hg Hwf Hm H IH].
  - apply tokens_final, Hg.
  - rewrite (tokens_layout U g n _ Hg). destruct (wf_token_at U t text Hwf Hm) as (H1 & H2 & H3).
    pose proof (tokens_token U t [] text H1 H2 H3) as E. cbn [app] in E. rewrite E, IH. reflexivity.
Qed.

(** *** ASCII texts never make the lexer panic *)
Lemma bad_word_not_ascii U s : bad_word U s -> exists w r, s = w ++ r /\ word_at U s w /\ ascii_str w = false.
Proof.
  intros (w & r & E & _ & _ & Hat & Hb). exists w, r. split; [exact E|]. split; [exact Hat|].
  destruct (ascii_str w) eqn:Ea; [|reflexivity]. exfalso. apply (Hb w []).
  - rewrite app_nil_r. reflexivity.
  - apply byte_len_ascii, Ea.
Qed.

(** *** Words *)
Lemma whole_word_token U s t w : token_at U s t -> ~ bad_word U s ->
  word_at U s w -> all_word w ->
  (forall c r, w = c :: r -> is_digit c = false) -> (forall r, w <> lit "ByStr" ++ r) -> w <> [] ->
  token_text t = w.
Proof.
  intros Hat Hnb Hw Ha Hd Hbs Hne.
  destruct Hw as (r & -> & _ & Hr).
  destruct w as [|c w]; [congruence|]. inversion Ha as [|? ? Hc Hw']; subst.
  assert (Hu : exists t', token_at U ((c :: w) ++ r) t' /\ token_text t' = c :: w).
  { destruct (assoc (c :: w) keywords) as [k|] eqn:Ek.
    - apply assoc_in in Ek. pose proof (keyword_props _ _ Ek) as (E & _). exists k. split; [|exact E].
      eapply ta_keyword; [exact Ek|]. apply word_at_app; assumption.
    - assert (Hk : forall k, word_at U ((c :: w) ++ r) k -> ~ is_keyword k).
      { intros k Hk. rewrite (word_at_fun U _ _ _ Hk (word_at_app U (c :: w) r Ha Hr)). apply assoc_none, Ek. }
      assert (Hr' := not_word_not_is_word U r Hr).
      destruct (is_lower c) eqn:El; [|destruct (is_upper c) eqn:Eu].
      + exists (TIdentifier (c :: w)). split; [apply ta_identifier; assumption|reflexivity].
      + exists (TCustomIdentifier (c :: w)). split; [apply ta_custom; try assumption|reflexivity].
        intros k E. destruct (wf_token_at U (TCustomIdentifier (c :: w)) r) as (H & _ & _).
        * apply wf_custom; auto. apply assoc_none, Ek.
        * exact Hr.
        * cbn [token_text app] in H. inversion H; subst.
          -- repeat match goal with H : In _ _ |- _ => destruct H as [H|H]; [discriminate|] end.
             match goal with H : In _ _ |- _ => destruct H end.
          -- repeat match goal with H : In _ _ |- _ => destruct H as [H|H]; [discriminate|] end.
             match goal with H : In _ _ |- _ => destruct H end.
          -- match goal with H : forall k, _ <> lit "ByStr" ++ k |- _ => eapply H end.
             match goal with H : _ ++ _ = w ++ r |- _ => rewrite H end. exact E.
      + specialize (Hd c w eq_refl). assert (c = 95) as ->.
        { revert Hc. unfold is_word. rewrite El, Eu, Hd. cbn [orb]. apply N.eqb_eq. }
        destruct w as [|d w].
        * exists TUnderscore. split; [|reflexivity]. apply (ta_punct U [95] TUnderscore r); [vm_compute; tauto|exact Hr].
        * exists (TSpecialIdentifier (95 :: d :: w)). split; [|reflexivity]. apply ta_special; auto.
          inversion Hw'; subst. cbn. rewrite (is_word_char U d); [discriminate|assumption]. }
  destruct Hu as (t' & Ht' & <-). rewrite (token_at_unique U _ _ _ Hat Ht' Hnb). reflexivity.
Qed.
