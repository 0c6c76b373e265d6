(** Properties C75 and C76 for insertions between two tokens that have no white
    space between them. *)
From Coq Require Import PeanoNat Lia.
From Verif Require Import Chars Lexer LexSpec LexerProofs LexStep LexSegment LexFacts LexWritten Ast Types Grammar Cfg Parser
  Emitter Contract Local PropLexer PropParser PropParse2 PropMoves Marks Erase Remap RemapFacts PropTrees.

(** ** Specification *)
(** No word goes on from [p] into [s]. *)
Definition no_word_across (U : unicode) (p s : str) : Prop :=
  forall a p' b s', p = p' ++ [a] -> s = b :: s' -> word_char U a = true -> word_char U b = true -> False.

(** Positions before the offset [p] stay, the others move. *)
Definition shifted_at (p k n l : N) (x x' : source_position) : Prop :=
  if position x <? p then x' = x else shifted k n l x x'.

(** ** Proof *)
Definition quiet (c : char) : Prop := is_whitespace c = true \/ c = 40.
Lemma quiet_word U c : quiet c -> word_char U c = false.
Proof. intros [H| ->]; [apply whitespace_not_word, H|reflexivity]. Qed.
Lemma quiet_ascii c : quiet c -> is_word c = false.
Proof. intro H. destruct (is_word c) eqn:E; [|reflexivity]. rewrite <- (quiet_word U_none c H). symmetry. apply is_word_char, E. Qed.
Lemma quiet_digit c : quiet c -> is_digit c = false.
Proof. intro H. destruct (is_digit c) eqn:E; [|reflexivity]. rewrite <- (quiet_ascii c H). unfold is_word. rewrite E. destruct (is_lower c), (is_upper c); reflexivity. Qed.
Lemma quiet_hex c : quiet c -> is_hex c = false.
Proof. intro H. destruct (is_hex c) eqn:E; [|reflexivity]. rewrite <- (quiet_ascii c H). symmetry. apply is_hex_word, E. Qed.
Lemma quiet_not k c : quiet c -> is_whitespace k = false -> k <> 40 -> (c =? k) = false.
Proof. intros [H| ->] Hk Hn; apply N.eqb_neq; congruence. Qed.
Lemma layout_quiet g n : layout g n -> match g with [] => True | c :: _ => quiet c end.
Proof. induction 1; [exact I|left; assumption|right; reflexivity]. Qed.
Lemma layout_quiet_or g n s : layout g n -> g ++ s = s \/ match g ++ s with [] => False | c :: _ => quiet c end.
Proof. intro H. apply layout_quiet in H. destruct g; [left; reflexivity|right; exact H]. Qed.

Section Insert.
  (** [z] instead of [s] after a prefix. *)
  Context (U : unicode) (z s : str) (Hz : z = s \/ match z with [] => False | c :: _ => quiet c end) (Hq : In 34 z -> In 34 s) (Hs : s <> []).

  Lemma follow_ins f q : (forall c, quiet c -> f c = false) -> not_followed_by f (q ++ s) -> not_followed_by f (q ++ z).
  Proof. intros Hf H. destruct q as [|a q]; [|exact H]. cbn [app] in *. destruct Hz as [-> |Hg]; [exact H|]. destruct z as [|c z']; [contradiction|]. apply Hf, Hg. Qed.
  Lemma word_at_ins P w : P <> [] -> no_word_across U P s -> word_at U (P ++ s) w -> word_at U (P ++ z) w.
  Proof.
    intros HP Hn (r & E & Hw & Hr). apply app_eq_app in E. destruct E as (l & [[-> ->]|[-> El]]).
    - exists (l ++ z). rewrite <- app_assoc. split; [reflexivity|]. split; [exact Hw|]. exact (follow_ins _ _ (quiet_word U) Hr).
    - destruct l as [|b l].
      + exists z. rewrite app_nil_r in *. cbn in El. subst r. split; [reflexivity|]. split; [exact Hw|]. exact (follow_ins _ [] (quiet_word U) Hr).
      + exfalso. destruct (exists_last HP) as (P' & a & ->). apply (Hn a P' b (l ++ r)); [reflexivity|exact El| |].
        * rewrite Forall_forall in Hw. apply Hw. apply in_or_app. left. apply in_or_app. right. left. reflexivity.
        * rewrite Forall_forall in Hw. apply Hw. apply in_or_app. right. left. reflexivity.
  Qed.
  Lemma word_at_ins_back P w : P <> [] -> no_word_across U P s -> word_at U (P ++ z) w -> word_at U (P ++ s) w.
  Proof.
    intros HP Hn H. destruct (word_at_exists U (P ++ s)) as (k & Hk).
    rewrite (word_at_fun _ _ _ _ H (word_at_ins P k HP Hn Hk)). exact Hk.
  Qed.
  Lemma bad_word_ins P : P <> [] -> no_word_across U P s -> bad_word U (P ++ z) -> bad_word U (P ++ s).
  Proof.
    intros HP Hn (w & r & E & Hw & Hr & Hat & Hb). pose proof (word_at_ins_back P w HP Hn Hat) as Hat'.
    destruct Hat' as (r' & E' & H1 & H2). exists w, r'. split; [exact E'|]. split; [exact Hw|]. split; [|split; [exists r'; auto|exact Hb]].
    intros ->. rewrite app_nil_r in E'. subst w. pose proof (word_at_fun _ _ _ _ Hat (word_at_ins P (P ++ s) HP Hn (ex_intro _ [] (conj (eq_sym (app_nil_r _)) (conj H1 I))))).
    destruct (exists_last HP) as (P' & a & ->). destruct s as [|b s']; [congruence|].
    rewrite Forall_forall in H1. apply (Hn a P' b s'); [reflexivity|reflexivity| |]; apply H1.
    - apply in_or_app. left. apply in_or_app. right. left. reflexivity.
    - apply in_or_app. right. left. reflexivity.
  Qed.
  Lemma text_rest (w r q : str) : w ++ r = (w ++ q) ++ s -> r = q ++ s.
  Proof. rewrite <- app_assoc. apply app_inv_head. Qed.

  Lemma token_at_ins t q : no_word_across U (token_text t ++ q) s -> token_at U ((token_text t ++ q) ++ s) t ->
    token_at U ((token_text t ++ q) ++ z) t.
  Proof.
    intros Hn H. assert (HP : token_text t ++ q <> []).
    { destruct (token_at_prefix _ _ _ H) as [Hne _]. destruct (token_text t); [congruence|discriminate]. }
    remember ((token_text t ++ q) ++ s) as s0 eqn:E.
    assert (Hk : forall k, word_at U ((token_text t ++ q) ++ z) k -> word_at U s0 k).
    { intros k Hk. subst s0. exact (word_at_ins_back _ _ HP Hn Hk). }
    destruct H as [w t r Hin Hm|s1 w t Hin Hat|ds r Hne Hd Hr|r Hr|x hs r Hx Hh Hr
      |ds r Hne Hd Hr Hx|ds r Hne Hd Hr|b r Hb|b r Hb Hr|a w r Ha Hw Hr Hkw|a w r Ha Hw Hr
      |a w r Ha Hw Hr Hkw Hb|w r Hw Hr Hf]; cbn [token_text] in *.
    - destruct (punct_text _ _ Hin) as [Et _]. rewrite Et in *. apply text_rest in E. subst r. rewrite <- app_assoc. apply ta_punct; [exact Hin|].
      assert (F : forall f, (forall c, quiet c -> f c = false) -> not_followed_by f (q ++ s) -> not_followed_by f (q ++ z)) by (intro; apply follow_ins).
      clear -Hm F. destruct t; cbn in *; try exact I; try (apply F; [|exact Hm]; intros c Hc);
        try exact (quiet_word U c Hc); try (apply quiet_not; [exact Hc|reflexivity|discriminate]).
      rewrite quiet_not by (exact Hc || reflexivity || discriminate). cbn. pose proof (quiet_word U c Hc) as Hw. unfold word_char, is_alphanumeric in Hw.
      destruct (is_numeric U c); [|reflexivity]. rewrite orb_true_r in Hw. discriminate Hw.
    - eapply ta_keyword; [exact Hin|]. rewrite E in Hat. exact (word_at_ins _ _ HP Hn Hat).
    - rewrite (app_assoc (lit "ByStr")) in E. apply text_rest in E. subst r. rewrite <- !app_assoc. apply ta_bystr_size; [exact Hne|exact Hd|].
      exact (follow_ins _ _ quiet_digit Hr).
    - apply text_rest in E. subst r. rewrite <- app_assoc. apply ta_bystr. exact (follow_ins _ _ quiet_digit Hr).
    - change (48 :: x :: hs ++ r) with ((48 :: x :: hs) ++ r) in E. apply text_rest in E. subst r. rewrite <- app_assoc.
      apply ta_hex; [exact Hx|exact Hh|]. intros a b r' E Ha Hb. destruct q as [|a' [|b' q']]; cbn [app] in *.
      + destruct Hz as [Ez|Hg]; [rewrite Ez in E; exact (Hr _ _ _ E Ha Hb)|]. rewrite E in Hg. rewrite (quiet_hex _ Hg) in Ha. discriminate.
      + injection E as <- E. destruct Hz as [Ez|Hg]; [rewrite Ez in E; exact (Hr a' b r' (f_equal (cons a') E) Ha Hb)|].
        rewrite E in Hg. rewrite (quiet_hex _ Hg) in Hb. discriminate.
      + injection E as <- <- E. exact (Hr a' b' _ eq_refl Ha Hb).
    - apply text_rest in E. subst r. rewrite <- app_assoc. apply ta_number; [exact Hne|exact Hd|exact (follow_ins _ _ quiet_digit Hr)|].
      intro E. apply follow_ins; [|exact (Hx E)]. intros c Hc. rewrite !quiet_not by (exact Hc || reflexivity || discriminate). reflexivity.
    - change (45 :: ds ++ r) with ((45 :: ds) ++ r) in E. apply text_rest in E. subst r. rewrite <- app_assoc.
      apply ta_negative; [exact Hne|exact Hd|exact (follow_ins _ _ quiet_digit Hr)].
    - rewrite <- !app_assoc. cbn [app]. rewrite <- !app_assoc. cbn [app]. apply ta_string, Hb.
    - replace (34 :: b ++ 34 :: r) with ((34 :: b ++ [34]) ++ r) in E by (cbn [app]; rewrite <- app_assoc; reflexivity).
      apply text_rest in E. subst r. rewrite <- app_assoc. cbn [app]. rewrite <- app_assoc. cbn [app].
      assert (Hn2 : ~ In 34 (q ++ z)).
      { intro Hi. apply Hr. apply in_app_or in Hi. apply in_or_app. destruct Hi as [Hi|Hi]; auto. }
      apply ta_string_last_quote; [|exact Hn2]. intros b' r' Hb' E. apply app_eq_app in E. destruct E as (l & [[-> El]|[-> El]]).
      + destruct l as [|c l]; cbn [app] in El.
        * apply (Hb b' (q ++ s) Hb'). rewrite app_nil_r. reflexivity.
        * injection El as <- ->. apply (Hb b' (l ++ 34 :: q ++ s) Hb'). rewrite <- app_assoc. reflexivity.
      + destruct l as [|c l]; cbn [app] in El.
        * rewrite app_nil_r in Hb'. exact (Hb b (q ++ s) Hb' eq_refl).
        * injection El as <- El. apply Hn2. rewrite El. apply in_or_app. right. left. reflexivity.
    - pose proof E as E0. change (a :: w ++ r) with ((a :: w) ++ r) in E. apply text_rest in E. subst r. rewrite <- app_assoc. apply ta_identifier; [exact Ha|exact Hw|exact (follow_ins _ _ quiet_ascii Hr)|].
      intros k H. apply Hkw. apply Hk. rewrite <- app_assoc. exact H.
    - change (39 :: a :: w ++ r) with ((39 :: a :: w) ++ r) in E. apply text_rest in E. subst r. rewrite <- app_assoc. apply ta_template; [exact Ha|exact Hw|exact (follow_ins _ _ quiet_ascii Hr)].
    - change (a :: w ++ r) with ((a :: w) ++ r) in E. apply text_rest in E. subst r. rewrite <- app_assoc. apply ta_custom; [exact Ha|exact Hw|exact (follow_ins _ _ quiet_ascii Hr)| |].
      + intros k H. apply Hkw. apply Hk. rewrite <- app_assoc. exact H.
      + intros k H. change (a :: w ++ q ++ z) with ((a :: w) ++ q ++ z) in H. rewrite (app_assoc (a :: w) q) in H.
        apply app_eq_app in H. destruct H as (l & [[El _]|[El E]]).
        * apply (Hb (l ++ s)). change (a :: w ++ q ++ s) with ((a :: w) ++ q ++ s). rewrite (app_assoc (a :: w) q), El, <- app_assoc. reflexivity.
        * destruct l as [|c l].
          -- apply (Hb s). rewrite app_nil_r in El. change (a :: w ++ q ++ s) with ((a :: w) ++ q ++ s). rewrite (app_assoc (a :: w) q), <- El. reflexivity.
          -- destruct Hz as [Ez|Hg].
             ++ rewrite Ez in E. apply (Hb k). change (a :: w ++ q ++ s) with ((a :: w) ++ q ++ s). rewrite (app_assoc (a :: w) q), E, El. rewrite <- !app_assoc. reflexivity.
             ++ exfalso. rewrite E in Hg. cbn [app] in Hg. assert (Hi : In c (lit "ByStr")) by (rewrite El; apply in_or_app; right; left; reflexivity).
                pose proof (quiet_ascii c Hg) as Hc. clear -Hi Hc. cbn in Hi. repeat (destruct Hi as [<-|Hi]; [discriminate Hc|]). destruct Hi.
    - change (95 :: w ++ r) with ((95 :: w) ++ r) in E. apply text_rest in E. subst r. rewrite <- app_assoc. apply ta_special; [exact Hw|exact (follow_ins _ _ quiet_ascii Hr)|].
      intro H. apply Hf. destruct w as [|b w]; [|exact H]. cbn [app] in *. destruct q as [|b q]; [|exact H]. cbn [app] in *.
      destruct s as [|b s']; [exact I|]. cbn. destruct (word_char U b) eqn:Eb; [|reflexivity]. exfalso.
      apply (Hn 95 [] b s'); [reflexivity|reflexivity|reflexivity|exact Eb].
  Qed.
  Lemma lost_ins t x q : lost t x (q ++ s) -> lost t x (q ++ z).
  Proof.
    unfold lost. destruct t; auto. intros [H|[_ H]]; [auto|]. exfalso. destruct q; [cbn in H; congruence|discriminate H].
  Qed.
  Lemma across_tail p q : no_word_across U (p ++ q) s -> no_word_across U q s.
  Proof. intros H a q' b s' -> Es. apply (H a (p ++ q') b s'); [apply app_assoc|exact Es]. Qed.

  Definition is_unknown (i : item) : Prop := item_token i = TUnknown.
  Lemma visited_ins input p0 s0 ln b pr : visited U input p0 s0 ln b pr -> forall q, s0 = q ++ s -> no_word_across U (p0 ++ q) s ->
    exists is0, Forall (before (byte_len p0)) is0
      /\ (forall is e, segmented U (byte_len p0) ln b pr s0 is e -> segmented U 0 0 0 0 input (is0 ++ is) e)
      /\ (Exists is_unknown is0 \/ forall is e, segmented U (byte_len p0) ln b pr (q ++ z) is e -> segmented U 0 0 0 0 (p0 ++ q ++ z) (is0 ++ is) e).
  Proof.
    assert (W : forall (p1 y : str) is0, Forall (before (byte_len p1)) is0 -> Forall (before (byte_len (p1 ++ y))) is0).
    { intros p1 y is0 H. eapply Forall_impl; [|exact H]. intros i [H1 H2]. unfold before. rewrite byte_len_app. lia. }
    induction 1 as [|p s1 ln b pr H IH|p c s1 ln b pr H IH Hws H10|p c s1 ln b pr H IH Hc|p t x s1 ln b pr H IH Hat Hnb Hl|p c s1 ln b pr H IH Hws Hoc Hnt Hnb]; intros q E Hn.
    - exists []. split; [constructor|]. split; [auto|]. right. auto.
    - destruct (IH (10 :: q)) as (is0 & F & S1 & S2); [rewrite E; reflexivity|rewrite <- app_assoc in Hn; exact Hn|]. exists is0. split; [apply W, F|]. rewrite byte_len_app. split.
      + intros is e HS. apply S1, sg_newline, HS.
      + destruct S2 as [S2|S2]; [left; exact S2|right]. intros is e HS. rewrite <- app_assoc. apply S2. cbn [app]. apply sg_newline, HS.
    - destruct (IH (c :: q)) as (is0 & F & S1 & S2); [rewrite E; reflexivity|rewrite <- app_assoc in Hn; exact Hn|]. exists is0. split; [apply W, F|].
      rewrite byte_len_app. cbn [byte_len]. rewrite N.add_0_r. split.
      + intros is e HS. apply S1, sg_space; assumption.
      + destruct S2 as [S2|S2]; [left; exact S2|right]. intros is e HS. rewrite <- app_assoc. apply S2. cbn [app]. apply sg_space; assumption.
    - destruct (IH (open_comment ++ c ++ close_comment ++ q)) as (is0 & F & S1 & S2); [rewrite E, <- !app_assoc; reflexivity|rewrite <- !app_assoc in Hn; exact Hn|].
      exists is0. split; [apply W, F|]. rewrite (byte_len_app p). split.
      + intros is e HS. apply S1, sg_comment; assumption.
      + destruct S2 as [S2|S2]; [left; exact S2|right]. intros is e HS. specialize (S2 is e). rewrite <- !app_assoc in S2 |- *. apply S2. apply sg_comment; assumption.
    - destruct (IH (token_text t ++ x ++ q)) as (is0 & F & S1 & S2); [rewrite E, <- !app_assoc; reflexivity|rewrite <- !app_assoc in Hn; exact Hn|].
      assert (HP : token_text t ++ x ++ q <> []).
      { destruct (token_at_prefix _ _ _ Hat) as [Hne _]. destruct (token_text t); [congruence|discriminate]. }
      exists (is0 ++ [(mkpos (byte_len p) ln (pr - b), t, mkpos (byte_len p + byte_len (token_text t)) ln (pr - b + byte_len (token_text t)))]). split; [|split].
      + apply Forall_app. split; [apply W, F|]. constructor; [|constructor]. unfold before, item_start, item_end. cbn [fst snd position]. rewrite !byte_len_app.
        assert (0 < byte_len (token_text t)). { destruct (token_at_prefix _ _ _ Hat) as [Hne _]. destruct (token_text t) as [|d w]; [congruence|]. cbn [byte_len]. pose proof (len_utf8_pos d). lia. }
        lia.
      + intros is e HS. rewrite <- app_assoc. cbn [app]. apply S1. apply sg_token; [assumption..|]. rewrite (byte_len_app p) in HS. exact HS.
      + destruct S2 as [S2|S2]; [left; apply Exists_app; left; exact S2|right]. intros is e HS. rewrite <- (app_assoc is0). cbn [app].
        pose proof (sg_token U (byte_len p) ln b pr t x (q ++ z) is e) as Sg. rewrite <- !app_assoc in S2, Hn |- *.
        apply S2. subst s1. apply across_tail in Hn. apply Sg.
        * rewrite (app_assoc x), (app_assoc (token_text t)). apply token_at_ins; [exact Hn|]. rewrite <- !app_assoc. exact Hat.
        * intro Hb. apply Hnb. replace (token_text t ++ x ++ q ++ s) with ((token_text t ++ x ++ q) ++ s) by (rewrite <- !app_assoc; reflexivity).
          apply bad_word_ins; [exact HP|exact Hn|]. rewrite <- !app_assoc. exact Hb.
        * apply lost_ins, Hl.
        * rewrite (byte_len_app p) in HS. exact HS.
    - destruct (IH (c :: q)) as (is0 & F & S1 & S2); [rewrite E; reflexivity|rewrite <- app_assoc in Hn; exact Hn|].
      exists (is0 ++ [(mkpos (byte_len p) ln (pr - b), TUnknown, mkpos (byte_len p) ln (pr - b))]). split; [|split].
      + apply Forall_app. split; [apply W, F|]. constructor; [|constructor]. unfold before, item_start, item_end. cbn [fst snd position]. rewrite !byte_len_app.
        cbn [byte_len]. pose proof (len_utf8_pos c). lia.
      + intros is e HS. rewrite <- app_assoc. cbn [app]. apply S1. apply sg_unknown; [assumption..|]. rewrite byte_len_app in HS. cbn [byte_len] in HS. rewrite N.add_0_r in HS. exact HS.
      + left. apply Exists_app. right. constructor. reflexivity.
  Qed.
End Insert.

Lemma tokens_between U p g n s is e i : lex U (p ++ s) = (is, e) -> In i is -> position (item_start i) = byte_len p ->
  no_word_across U p s -> (forall j, In j is -> position (item_start j) < byte_len p -> item_token j <> TUnknown) ->
  layout g n -> ~ In 34 g ->
  exists is', lex U (p ++ g ++ s) = (is', e)
    /\ Forall2 (fun i0 i' => (before (byte_len p) i0 /\ i' = i0)
         \/ (byte_len p <= position (item_start i0) /\ moved (byte_len g) n (line (item_start i)) i0 i')) is is'.
Proof.
  intros HL Hi Hp Hn Hu Hg H34.
  destruct (lex_item_at _ _ _ _ _ HL Hi) as (p1 & s1 & ln & b & pr & Hv & _ & (c & s2 & Es & _) & _ & Hst).
  assert (Est : item_start i = mkpos (byte_len p1) ln (pr - b)) by (destruct Hst as [(t & x & r & _ & _ & _ & ->)|(_ & ->)]; reflexivity). clear Hst.
  rewrite Est in Hp |- *. cbn [position line] in *. pose proof (visited_input _ _ _ _ _ _ _ Hv) as Ev.
  assert (p1 = p) as -> by (symmetry; exact (prefix_same_bytes _ _ _ _ Ev (eq_sym Hp))). apply app_inv_head in Ev. rewrite <- Ev in *. clear s1 Ev.
  destruct (visited_ins U (g ++ s) s (layout_quiet_or g n s Hg) (fun H => match in_app_or _ _ _ H with or_introl H => False_ind _ (H34 H) | or_intror H => H end)) with (input := p ++ s) (p0 := p) (s0 := s) (ln := ln) (b := b) (pr := pr) (q := @nil char) as (is0 & F & S1 & S2);
    [rewrite Es; discriminate|exact Hv|reflexivity|rewrite app_nil_r; exact Hn|].
  destruct (segmented_exists U s (byte_len p) ln b pr) as (is1 & e1 & H1 & _). apply lex_iff_segmented in HL.
  destruct (segmented_unique U _ _ _ _ _ _ _ _ _ _ (le_n _) (N.le_refl 0) (N.le_refl 0) HL (S1 _ _ H1)) as [-> ->].
  destruct S2 as [S2|S2].
  { exfalso. apply Exists_exists in S2. destruct S2 as (j & Hj & Ej). rewrite Forall_forall in F. apply (Hu j); [apply in_or_app; auto|exact (proj1 (F j Hj))|exact Ej]. }
  destruct (layout_skip U g n Hg (byte_len p) ln b pr) as (b2 & pr2 & Hsk).
  destruct (segmented_move U (byte_len g) n ln _ _ _ _ _ _ _ H1 b2 pr2 (or_introl (N.le_refl _))) as (is1' & H1' & HM).
  exists (is0 ++ is1'). split; [apply lex_iff_segmented; exact (S2 _ _ (Hsk _ _ _ H1'))|]. apply Forall2_app.
  - apply (Forall2_same _ _ _ F). auto.
  - apply (Forall2_weak _ _ _ _ _ (segmented_from _ _ _ _ _ _ _ _ H1) HM). intros x y Hx Hm. right. auto.
Qed.

(** ** C75 *)
(** Writing white space and comments right before a token [i] (also where none
    stood), with only proper tokens before it, and without cutting a word in two:
    the tokens before stay where they are, [i] and the tokens after it move by the
    length of the inserted text and its lines. *)
Theorem C75_before_a_token : forall U p g n s is e i,
  lex U (p ++ s) = (is, e) -> In i is -> position (item_start i) = byte_len p -> no_word_across U p s ->
  (forall j, In j is -> position (item_start j) < byte_len p -> item_token j <> TUnknown) ->
  layout g n -> ~ In 34 g ->
  exists is', lex U (p ++ g ++ s) = (is', e)
    /\ Forall2 (moved_from (byte_len p) (byte_len g) n (line (item_start i))) is is'.
Proof.
  intros U p g n s is e i HL Hi Hp Hn Hu Hg H34. destruct (tokens_between U p g n s is e i HL Hi Hp Hn Hu Hg H34) as (is' & HL' & HM). exists is'. split; [exact HL'|].
  clear -HM. induction HM as [|i0 i' is is' H _ IH]; constructor; [|exact IH]. unfold moved_from. destruct H as [[[H _] ->] |[H Hm]].
  - rewrite (proj2 (N.ltb_lt _ _) H). reflexivity.
  - rewrite (proj2 (N.ltb_ge _ _)); [exact Hm|lia].
Qed.
(** So the answers are the same but for the position of the error. *)
Theorem C75_answers_before_a_token : forall U debug p g n s is e i,
  lex U (p ++ s) = (is, e) -> In i is -> position (item_start i) = byte_len p -> no_word_across U p s ->
  (forall j, In j is -> position (item_start j) < byte_len p -> item_token j <> TUnknown) ->
  layout g n -> ~ In 34 g ->
  moved_answer (moved_from (byte_len p) (byte_len g) n (line (item_start i)))
    (from_str U debug (p ++ s)) (from_str U debug (p ++ g ++ s)).
Proof.
  intros U debug p g n s is e i HL Hi Hp Hn Hu Hg H34.
  destruct (C75_before_a_token U p g n s is e i HL Hi Hp Hn Hu Hg H34) as (is' & HL' & HM).
  exact (from_str_moved U debug _ _ is is' e _ HL HL' (moved_tokens _ _ _ _ _ _ HM) HM).
Qed.

(** ** C76 *)
(** The syntax tree is the same, in which every start before the insertion and every
    end up to it is kept, and every other one has moved. *)
Theorem C76_before_a_token : forall U A p g n s is e i,
  lex U (p ++ s) = (is, e) -> In i is -> position (item_start i) = byte_len p -> no_word_across U p s ->
  (forall j, In j is -> position (item_start j) < byte_len p -> item_token j <> TUnknown) ->
  layout g n -> ~ In 34 g ->
  let l := line (item_start i) in
  moved_outcome_by A (shifted_at (byte_len p) (byte_len g) n l) (shifted_from (byte_len p) (byte_len g) n l)
    (moved_from (byte_len p) (byte_len g) n l)
    (parse_str U A (p ++ s)) (parse_str U A (p ++ g ++ s)).
Proof.
  intros U A p g n s is e i HL Hi Hp Hn Hu Hg H34 l.
  destruct (tokens_between U p g n s is e i HL Hi Hp Hn Hu Hg H34) as (is' & HL' & HM). fold l in HM.
  set (I := fun i0 i' => _) in HM.
  assert (HI : forall i0 i', I i0 i' -> moved_from (byte_len p) (byte_len g) n l i0 i').
  { intros i0 i' H. unfold moved_from. destruct H as [[[H _] ->] |[H Hm]].
    - rewrite (proj2 (N.ltb_lt _ _) H). reflexivity.
    - rewrite (proj2 (N.ltb_ge _ _)); [exact Hm|lia]. }
  assert (M : moved_outcome_by A (shifted_at (byte_len p) (byte_len g) n l) (shifted_from (byte_len p) (byte_len g) n l) I (parse_str U A (p ++ s)) (parse_str U A (p ++ g ++ s))).
  { set (mv := fun x => mkpos (position x + byte_len g) (line x + n) (column x)).
    apply (outcome_moved U A _ _ is is' e _ _ I (fun x => if position x <? byte_len p then x else mv x) (fun x => if position x <=? byte_len p then x else mv x) HL HL').
    - intro x. unfold shifted_at, shifted. destruct (_ <? _); [reflexivity|]. cbn. auto.
    - intro x. unfold shifted_from, shifted. destruct (_ <=? _); [reflexivity|]. cbn. auto.
    - exact HM.
    - intros i0 i' Hlt Hln [[[H1 H2] ->] |[H1 Hm]]; (split; [|unfold shifted_at, shifted_from]).
      + reflexivity.
      + rewrite (proj2 (N.ltb_lt _ _)), (proj2 (N.leb_le _ _)) by lia. auto.
      + exact (proj1 Hm).
      + rewrite (proj2 (N.ltb_ge _ _)), (proj2 (N.leb_gt _ _)) by lia. destruct Hm as (_ & P1 & P2 & L1 & L2 & C). unfold shifted. repeat split; try assumption; intro Hl.
        * exact (proj1 (C Hl)).
        * rewrite Hln in Hl. exact (proj2 (C Hl)).
    - intros i0 i' [[_ ->] |[_ [H _]]]; [reflexivity|exact H]. }
  revert M. unfold moved_outcome_by. destruct (parse_str U A (p ++ s)) as [v|i0| | |]; auto. intros (i' & E & H). exists i'. split; [exact E|apply HI, H].
Qed.

(** ** Witnesses *)
Lemma no_across_last U p a s : word_char U a = false -> no_word_across U (p ++ [a]) s.
Proof. intros H a' p' b s' E _ Ha _. apply app_inj_tail in E. destruct E as [_ ->]. congruence. Qed.
Lemma no_across_first U p b s : word_char U b = false -> no_word_across U p (b :: s).
Proof. intros H a p' b' s' _ E _ Hb. injection E as <- _. congruence. Qed.
(** [Map Int32(Map Int32 Int32)] with a line feed and a comment before the
    parenthesis: the start of the value of the map moves, the end of the key,
    at the same offset, does not. *)
Example C76_before_witness :
  let p := lit "Map Int32" in let g := [10] ++ lit "(*x*)" in let s := lit "(Map Int32 Int32)" in
  (exists is i, lex U_none (p ++ s) = (is, LEof) /\ In i is /\ position (item_start i) = byte_len p
     /\ forall j, In j is -> position (item_start j) < byte_len p -> item_token j <> TUnknown)
  /\ no_word_across U_none p s /\ layout g 1 /\ ~ In 34 g
  /\ (exists k v, parse_str U_none ScillaType (p ++ s) = POk (mkwm (MapType k v) (mkpos 0 0 0) (mkpos 26 0 21))
        /\ wm_end k = mkpos 9 0 8 /\ wm_start v = mkpos 9 0 4)
  /\ (exists k v, parse_str U_none ScillaType (p ++ g ++ s) = POk (mkwm (MapType k v) (mkpos 0 0 0) (mkpos 32 1 18))
        /\ wm_end k = mkpos 9 0 8 /\ wm_start v = mkpos 15 1 1).
Proof.
  cbv zeta. split; [|split; [|split; [|split; [|split]]]].
  - eexists. eexists. split; [vm_compute; reflexivity|]. split; [right; right; left; reflexivity|]. split; [reflexivity|].
    intros j Hj _ E. repeat (destruct Hj as [<-|Hj]; [discriminate E|]). destruct Hj.
  - apply no_across_first. reflexivity.
  - apply (lay_space 10 _ 0); [reflexivity|]. apply (lay_comment (lit "x") [] 0); [|constructor].
    intros (u & v & E). destruct u as [|? [|? ?]]; discriminate E.
  - intro H. repeat (destruct H as [H|H]; [discriminate H|]). exact H.
  - eexists. eexists. split; [vm_compute; reflexivity|split; reflexivity].
  - eexists. eexists. split; [vm_compute; reflexivity|split; reflexivity].
Qed.
(** Cutting a word in two can change the tokens before: here [in] is an
    identifier, because the word goes on, and becomes the keyword. *)
Theorem C75_inside_word_refuted : exists p g n s is i,
  lex U_latin (p ++ s) = (is, LEof) /\ In i is /\ position (item_start i) = byte_len p /\ layout g n /\ ~ In 34 g
  /\ (forall j, In j is -> position (item_start j) < byte_len p -> item_token j <> TUnknown)
  /\ map item_token (fst (lex U_latin (p ++ g ++ s))) <> map item_token is.
Proof.
  exists (lit "in"), [32], 0, (233 :: lit "ab"). eexists. eexists. split; [vm_compute; reflexivity|]. split; [right; left; reflexivity|].
  split; [reflexivity|]. split; [apply (lay_space 32 [] 0); [reflexivity|constructor]|].
  split; [intro H; repeat (destruct H as [H|H]; [discriminate H|]); exact H|]. split.
  - intros j Hj Hp E. destruct Hj as [<-|[<-|Hj]]; [discriminate E|vm_compute in Hp; discriminate Hp|]. 
    repeat (destruct Hj as [<-|Hj]; [discriminate E|]). destruct Hj.
  - vm_compute. discriminate.
Qed.
(** A quote in an inserted comment can close a string literal that has no proper end. *)
Theorem C75_quote_refuted : exists p g n s is i,
  lex U_none (p ++ s) = (is, LEof) /\ In i is /\ position (item_start i) = byte_len p /\ layout g n /\ no_word_across U_none p s
  /\ (forall j, In j is -> position (item_start j) < byte_len p -> item_token j <> TUnknown)
  /\ map item_token (fst (lex U_none (p ++ g ++ s))) <> map item_token is.
Proof.
  exists (lit """a\"""), (lit "(*""*)"), 0, (lit "x"). eexists. eexists. split; [vm_compute; reflexivity|]. split; [right; left; reflexivity|].
  split; [reflexivity|]. split.
  - apply (lay_comment (lit """") [] 0); [|constructor]. intros (u & v & E). destruct u as [|? [|? ?]]; discriminate E.
  - split; [apply (no_across_last U_none (lit """a\") 34); reflexivity|]. split.
    + intros j Hj _ E. repeat (destruct Hj as [<-|Hj]; [discriminate E|]). destruct Hj.
    + vm_compute. discriminate.
Qed.
(** Behind a character that is no token an insertion can make it one: the [-] before
    a numeric character outside ASCII. *)
Theorem C75_unknown_refuted : exists (U : unicode) p g n s is i,
  lex U (p ++ s) = (is, LEof) /\ In i is /\ position (item_start i) = byte_len p /\ layout g n /\ ~ In 34 g /\ no_word_across U p s
  /\ map item_token (fst (lex U (p ++ g ++ s))) <> map item_token is.
Proof.
  exists (Build_unicode (fun _ => false) (fun c => c =? 1635)), (lit "-"), [32], 0, [1635]. 
  vm_compute lex. eexists. eexists. split; [reflexivity|]. split; [right; left; reflexivity|].
  split; [reflexivity|]. split; [apply (lay_space 32 [] 0); [reflexivity|constructor]|].
  split; [intro H; repeat (destruct H as [H|H]; [discriminate H|]); exact H|]. split.
  - apply (no_across_last _ [] 45). reflexivity.
  - discriminate.
Qed.
