(** The whole run of the lexer is a segmentation of its input. *)
From Verif Require Import Chars Lexer LexSpec LexerProofs LexStep.

Definition good (l : lexer) (base : N) : Prop :=
  base <= lx_last l /\ lx_last l <= lx_pos l /\ lx_character l = lx_last l - base.

Lemma len_app (a b : list N) : List.length (a ++ b) = (List.length a + List.length b)%nat.
Proof. apply app_length. Qed.

Lemma next_segmented U : forall n s g pos ln chr la base,
  (List.length s <= n)%nat -> (List.length s < g)%nat -> good (mklx s pos ln chr la) base ->
  match next_fuel U g (mklx s pos ln chr la) with
  | NEnd l' => segmented U pos ln base la s [] LEof /\ lx_chars l' = []
  | NPanic => segmented U pos ln base la s [] LPanic
  | NFuel => False
  | NItem i l' => exists base', good l' base' /\ (List.length (lx_chars l') < List.length s)%nat /\
      forall is e, segmented U (lx_pos l') (lx_line l') base' (lx_last l') (lx_chars l') is e ->
        segmented U pos ln base la s (i :: is) e
  end.
Proof.
  induction n as [|n IH]; intros s g pos ln chr la base Hn Hg (G1 & G2 & G3);
    cbn [lx_last lx_pos lx_character] in G1, G2, G3; subst chr.
  - destruct s; [|cbn in Hn; lia]. destruct g; [cbn in Hg; lia|]. cbn. split; [constructor|reflexivity].
  - destruct g as [|g]; [lia|]. cbn [next_fuel].
    pose proof (step_inv U s pos ln (la - base) la G2) as P.
    destruct (step U (mklx s pos ln (la - base) la)) as [|l'|i l'|] eqn:E.
    + subst s. split; [constructor|reflexivity].
    + destruct P as [(s' & -> & ->)|[(c & s' & -> & H10 & Hws & ->)|[(c & s' & Hc & -> & ->)|(c & Hc & -> & ->)]]].
      * assert (G : good (mklx s' (pos + 1) (ln + 1) 0 pos) pos) by (unfold good; cbn; lia).
        specialize (IH s' g _ _ _ _ _ ltac:(cbn in Hn; lia) ltac:(cbn in Hg; lia) G).
        destruct (next_fuel U g _).
        -- destruct IH. split; [constructor|]; assumption.
        -- destruct IH as (b & I1 & I2 & I3). exists b. split; [exact I1|]. split; [cbn; lia|].
           intros is e H. apply sg_newline. apply I3, H.
        -- apply sg_newline, IH.
        -- exact IH.
      * assert (G : good (mklx s' (pos + len_utf8 c) ln (la - base + (pos - la)) pos) base)
          by (pose proof (len_utf8_pos c); unfold good; cbn; lia).
        specialize (IH s' g _ _ _ _ _ ltac:(cbn in Hn; lia) ltac:(cbn in Hg; lia) G).
        destruct (next_fuel U g _).
        -- destruct IH. split; [apply sg_space|]; assumption.
        -- destruct IH as (b & I1 & I2 & I3). exists b. split; [exact I1|]. split; [cbn; lia|].
           intros is e H. apply sg_space; auto.
        -- apply sg_space; assumption.
        -- exact IH.
      * assert (G : good (mklx s' (pos + byte_len (open_comment ++ c ++ close_comment)) ln (la - base + (pos - la)) pos) base)
          by (unfold good; cbn [lx_last lx_pos lx_character]; lia).
        rewrite !len_app in Hn, Hg. cbn [List.length open_comment close_comment lit] in Hn, Hg.
        specialize (IH s' g _ _ _ _ _ ltac:(lia) ltac:(lia) G).
        destruct (next_fuel U g _).
        -- destruct IH. split; [apply sg_comment|]; assumption.
        -- destruct IH as (b & I1 & I2 & I3). exists b. split; [exact I1|]. split; [rewrite !len_app; lia|].
           intros is e H. apply sg_comment; auto.
        -- apply sg_comment; assumption.
        -- exact IH.
      * rewrite !len_app in Hg. cbn [List.length open_comment lit] in Hg.
        destruct g as [|g]; [lia|]. cbn. split; [apply sg_open_comment, Hc|reflexivity].
    + destruct P as [(t & Hat & Hnb)|(c & s' & -> & Hws & Hoc & Hnt & Hnb & -> & ->)].
      * destruct (step_token U s t pos ln (la - base) la Hat Hnb G2) as (x & r & Es & Hl & E').
        rewrite E in E'. injection E' as -> ->. exists base.
        pose proof (token_at_prefix _ _ _ Hat) as (Hne & _).
        subst s.
        split; [unfold good; cbn [lx_last lx_pos lx_character]; lia|]. split.
        { rewrite !len_app. cbn [lx_chars]. destruct (token_text t); [congruence|]. cbn. lia. }
        intros is e H. cbn [lx_chars lx_pos lx_line lx_last] in H.
        rewrite app_assoc in Hat |- *. rewrite <- app_assoc in Hat |- *.
        apply sg_token; auto.
      * exists base. split; [unfold good; cbn [lx_last lx_pos lx_character]; lia|].
        split; [cbn; lia|]. intros is e H. apply sg_unknown; auto.
    + apply sg_panic, P.
Qed.

Lemma lex_run_segmented U : forall n f l base,
  (List.length (lx_chars l) <= n)%nat -> (List.length (lx_chars l) < f)%nat -> good l base ->
  let '(is, e) := lex_run U f l in
  segmented U (lx_pos l) (lx_line l) base (lx_last l) (lx_chars l) is e.
Proof.
  induction n as [|n IH]; intros f l base Hn Hf Hg; (destruct f as [|f]; [lia|]);
    cbn [lex_run]; destruct l as [s pos ln chr la]; cbn [lx_chars] in *; unfold next; cbn [lx_chars];
    pose proof (next_segmented U _ s (S (List.length s)) pos ln chr la base (le_n _) (le_n _) Hg) as P;
    destruct (next_fuel U (S (List.length s)) (mklx s pos ln chr la)) as [l'|i l'| |].
  - apply P.
  - destruct P as (b & _ & P & _). lia.
  - exact P.
  - destruct P.
  - apply P.
  - destruct P as (b & I1 & I2 & I3). specialize (IH f l' b ltac:(lia) ltac:(lia) I1).
    destruct (lex_run U f l') as [is e]. apply I3, IH.
  - exact P.
  - destruct P.
Qed.

Theorem lex_segmented U input : let '(is, e) := lex U input in segmented U 0 0 0 0 input is e.
Proof.
  unfold lex. apply (lex_run_segmented U (List.length input) (S (List.length input)) (lexer_new input) 0); cbn; [lia..|].
  unfold good; cbn; lia.
Qed.

(** *** The segmentation is unique, so it defines the lexer *)
Lemma comment_split c s c' s' : ~ occurs close_comment c -> ~ occurs close_comment c' ->
  c ++ close_comment ++ s = c' ++ close_comment ++ s' -> c = c' /\ s = s'.
Proof.
  revert c'. induction c as [|a c IH]; intros c' H H' E.
  - destruct c' as [|a' c']; [split; [reflexivity|]; injection E; auto|].
    exfalso. cbn in E. change (close_comment ++ s) with (42 :: 41 :: s) in E. injection E as <- E.
    destruct c' as [|b c']; [discriminate E|]. injection E as <- _.
    apply H'. exists [], c'. reflexivity.
  - destruct c' as [|a' c'].
    + exfalso. cbn in E. change (close_comment ++ s') with (42 :: 41 :: s') in E. injection E as -> E.
      destruct c as [|b c]; [discriminate E|]. injection E as -> _.
      apply H. exists [], c. reflexivity.
    + cbn in E. injection E as -> E.
      assert (Hn : forall k, ~ occurs close_comment (a' :: k) -> ~ occurs close_comment k).
      { intros k Hk (p & q & Ek). apply Hk. exists (a' :: p), q. cbn [app]. rewrite Ek. reflexivity. }
      destruct (IH c' (Hn _ H) (Hn _ H') E) as [-> ->]. auto.
Qed.
Lemma comment_no_split c s c' : ~ occurs close_comment c' -> c ++ close_comment ++ s = c' -> False.
Proof. intros H E. apply H. exists c, s. auto. Qed.

Lemma ws_not_open c s r : is_whitespace c = true -> c :: s <> open_comment ++ r.
Proof.
  intros H E. change (open_comment ++ r) with (40 :: 42 :: r) in E. injection E as -> _. discriminate.
Qed.
Lemma ws_not_bad U c s : is_whitespace c = true -> ~ bad_word U (c :: s).
Proof. intro H. apply not_bad_nonword, whitespace_not_word, H. Qed.
Lemma open_not_bad U r : ~ bad_word U (open_comment ++ r).
Proof. change (open_comment ++ r) with (40 :: 42 :: r). apply not_bad_nonword. reflexivity. Qed.

(** No token starts with white space or a comment. *)
Lemma token_at_first U s t : token_at U s t -> ~ bad_word U s ->
  exists c s', s = c :: s' /\ is_whitespace c = false /\ (forall r, s <> open_comment ++ r).
Proof.
  intros Hat Hnb. destruct (step_token U s t 0 0 0 0 Hat Hnb (N.le_refl 0)) as (x & r & _ & _ & E).
  destruct s as [|c s]; [discriminate|]. exists c, s. split; [reflexivity|].
  unfold step in E. cbn [lx_chars lx_pos lx_line lx_character lx_last chars_next] in E.
  change (0 <? 0) with false in E. cbn match in E.
  destruct (is_whitespace c) eqn:Hws.
  - destruct (c =? 10); discriminate.
  - split; [reflexivity|]. intros q Eq. change (open_comment ++ q) with (40 :: 42 :: q) in Eq.
    injection Eq as -> ->. cbn in E. destruct (skip_comment q _). discriminate.
Qed.

Lemma lost_unique t x r x' r' : x ++ r = x' ++ r' -> lost t x r -> lost t x' r' -> x = x' /\ r = r'.
Proof.
  assert (Hlen : forall (a b c d : list N), a ++ b = c ++ d -> List.length a = List.length c -> a = c /\ b = d).
  { induction a as [|h a IH]; intros b [|h' c] d E Hl; cbn in *; try discriminate; auto.
    injection E as -> E. destruct (IH _ _ _ E) as [-> ->]; auto. }
  intros E H H'. destruct t; cbn in H, H'; try (subst; auto; fail).
  apply Hlen; [exact E|]. apply (f_equal (@List.length N)) in E. rewrite !app_length in E.
  destruct H as [H|[H ->]], H' as [H'|[H' ->]]; cbn [List.length] in E; lia.
Qed.

Lemma seg_step U pos ln base la s is e : segmented U pos ln base la s is e ->
  base <= la -> la <= pos ->
  match step U (mklx s pos ln (la - base) la) with
  | SEnd => is = [] /\ e = LEof
  | SPanic => is = [] /\ e = LPanic
  | SSkip l' => exists base', good l' base' /\ (List.length (lx_chars l') < List.length s)%nat
      /\ segmented U (lx_pos l') (lx_line l') base' (lx_last l') (lx_chars l') is e
  | STok i l' => exists base' is', good l' base' /\ (List.length (lx_chars l') < List.length s)%nat
      /\ is = i :: is' /\ segmented U (lx_pos l') (lx_line l') base' (lx_last l') (lx_chars l') is' e
  end.
Proof.
  intros H Hb Hla. pose proof (step_inv U s pos ln (la - base) la Hla) as P.
  destruct H as [pos ln base la|pos ln base la s is e H|pos ln base la c s is e Hws H10 H|pos ln base la c s is e Hc H
    |pos ln base la c Hc|pos ln base la t x s is e Hat Hnb Hl H|pos ln base la c s is e Hws Hoc Hnt Hnb H|pos ln base la s Hbad].
  - cbn. auto.
  - destruct (step U (mklx (10 :: s) pos ln (la - base) la)) as [|l'|i l'|] eqn:E.
    + discriminate.
    + unfold step in E. cbn [lx_chars lx_pos lx_line lx_character lx_last chars_next] in E.
      replace (pos <? la) with false in E by lia. cbn in E. injection E as <-.
      exists pos. split; [unfold good; cbn; lia|]. split; [cbn; lia|]. exact H.
    + destruct P as [(t & Hat & Hnb)|(c & s' & E' & Hws & _)].
      * destruct (token_at_first _ _ _ Hat Hnb) as (c & s' & E' & Hws & _). injection E' as <- _. discriminate.
      * injection E' as <- _. discriminate.
    + exfalso. revert P. apply ws_not_bad. reflexivity.
  - destruct (step U (mklx (c :: s) pos ln (la - base) la)) as [|l'|i l'|] eqn:E.
    + discriminate.
    + unfold step in E. cbn [lx_chars lx_pos lx_line lx_character lx_last chars_next] in E.
      replace (pos <? la) with false in E by lia. rewrite Hws, (proj2 (N.eqb_neq _ _) H10) in E. injection E as <-.
      exists base. pose proof (len_utf8_pos c). split; [unfold good; cbn; lia|]. split; [cbn; lia|]. exact H.
    + destruct P as [(t & Hat & Hnb)|(c' & s' & E' & Hws' & _)].
      * destruct (token_at_first _ _ _ Hat Hnb) as (c' & s' & E' & Hws' & _). injection E' as <- _. congruence.
      * injection E' as <- _. congruence.
    + exfalso. revert P. apply ws_not_bad, Hws.
  - destruct (step U (mklx _ pos ln (la - base) la)) as [|l'|i l'|] eqn:E.
    + discriminate.
    + destruct P as [(s' & E' & _)|[(c' & s' & E' & _ & Hws & _)|[(c' & s' & Hc' & E' & ->)|(c' & Hc' & E' & _)]]].
      * discriminate.
      * exfalso. symmetry in E'. exact (ws_not_open _ _ _ Hws E').
      * apply app_inv_head in E'. destruct (comment_split _ _ _ _ Hc Hc' E') as [<- <-].
        exists base. split; [unfold good; cbn [lx_last lx_pos lx_character]; lia|].
        split; [rewrite !len_app; cbn; lia|]. exact H.
      * exfalso. apply app_inv_head in E'. eapply comment_no_split; eassumption.
    + destruct P as [(t & Hat & Hnb)|(c' & s' & _ & _ & E' & _)].
      * destruct (token_at_first _ _ _ Hat Hnb) as (c' & s' & _ & _ & E'). exfalso. eapply E'. reflexivity.
      * exfalso. eapply E'. reflexivity.
    + exfalso. revert P. apply open_not_bad.
  - destruct (step U (mklx _ pos ln (la - base) la)) as [|l'|i l'|] eqn:E.
    + discriminate.
    + destruct P as [(s' & E' & _)|[(c' & s' & E' & _ & Hws & _)|[(c' & s' & Hc' & E' & ->)|(c' & Hc' & E' & ->)]]].
      * discriminate.
      * exfalso. symmetry in E'. exact (ws_not_open _ _ _ Hws E').
      * exfalso. apply app_inv_head in E'. eapply comment_no_split; [exact Hc|]. symmetry. exact E'.
      * exists base. split; [unfold good; cbn [lx_last lx_pos lx_character]; lia|].
        split; [rewrite !len_app; cbn; lia|]. constructor.
    + destruct P as [(t & Hat & Hnb)|(c' & s' & _ & _ & E' & _)].
      * destruct (token_at_first _ _ _ Hat Hnb) as (c' & s' & _ & _ & E'). exfalso. eapply E'. reflexivity.
      * exfalso. eapply E'. reflexivity.
    + exfalso. revert P. apply open_not_bad.
  - destruct (step_token U _ t pos ln (la - base) la Hat Hnb Hla) as (x' & r & Es & Hl' & ->).
    apply app_inv_head in Es. destruct (lost_unique _ _ _ _ _ Es Hl Hl') as [<- <-].
    pose proof (token_at_prefix _ _ _ Hat) as (Hne & _).
    exists base, is. split; [unfold good; cbn [lx_last lx_pos lx_character]; lia|]. split.
    { rewrite !len_app. cbn [lx_chars]. destruct (token_text t); [congruence|]. cbn. lia. }
    split; [reflexivity|]. exact H.
  - destruct (step U (mklx _ pos ln (la - base) la)) as [|l'|i l'|] eqn:E.
    + discriminate.
    + exfalso. destruct P as [(s' & E' & _)|[(c' & s' & E' & _ & Hws' & _)|[(c' & s' & Hc' & E' & ->)|(c' & Hc' & E' & ->)]]].
      * injection E' as -> _. discriminate.
      * injection E' as -> _. congruence.
      * eapply Hoc, E'.
      * eapply Hoc, E'.
    + destruct P as [(t & Hat & _)|(c' & s' & E' & _ & _ & _ & _ & -> & ->)].
      * exfalso. eapply Hnt, Hat.
      * injection E' as <- <-. exists base, is. split; [unfold good; cbn [lx_last lx_pos lx_character]; lia|].
        split; [cbn; lia|]. split; [reflexivity|exact H].
    + contradiction.
  - destruct (step U (mklx s pos ln (la - base) la)) as [|l'|i l'|] eqn:E.
    + subst s. exfalso. destruct Hbad as (w & r & E' & Hne & _). destruct w; [congruence|discriminate].
    + exfalso. revert Hbad. destruct P as [(s' & -> & _)|[(c' & s' & -> & _ & Hws' & _)|[(c' & s' & Hc' & -> & ->)|(c' & Hc' & -> & ->)]]].
      * apply ws_not_bad; reflexivity.
      * apply ws_not_bad, Hws'.
      * apply open_not_bad.
      * apply open_not_bad.
    + exfalso. destruct P as [(t & _ & Hnb)|(c' & s' & _ & _ & _ & _ & Hnb & _)]; contradiction.
    + auto.
Qed.

Lemma segmented_unique U : forall n s pos ln base la is e is' e', (List.length s <= n)%nat ->
  base <= la -> la <= pos -> segmented U pos ln base la s is e -> segmented U pos ln base la s is' e' ->
  is = is' /\ e = e'.
Proof.
  assert (Hbase : forall l b b', good l b -> good l b' -> b = b') by (unfold good; intros; lia).
  assert (Hnil : forall pos ln base la is e, segmented U pos ln base la [] is e -> base <= la -> la <= pos -> is = [] /\ e = LEof).
  { intros pos ln base la is e H Hb Hla. exact (seg_step _ _ _ _ _ _ _ _ H Hb Hla). }
  induction n as [|n IH]; intros s pos ln base la is e is' e' Hn Hb Hla H H'.
  - destruct s; [|cbn in Hn; lia]. destruct (Hnil _ _ _ _ _ _ H Hb Hla) as [-> ->].
    destruct (Hnil _ _ _ _ _ _ H' Hb Hla) as [-> ->]. auto.
  - pose proof (seg_step _ _ _ _ _ _ _ _ H Hb Hla) as P.
    pose proof (seg_step _ _ _ _ _ _ _ _ H' Hb Hla) as P'.
    destruct (step U (mklx s pos ln (la - base) la)) as [|l'|i l'|].
    + destruct P as [-> ->], P' as [-> ->]. auto.
    + destruct P as (b & G & Hl & P), P' as (b' & G' & _ & P'). rewrite <- (Hbase _ _ _ G G') in P'.
      destruct G as (G1 & G2 & _). eapply IH; [|exact G1|exact G2|exact P|exact P']. lia.
    + destruct P as (b & js & G & Hl & -> & P), P' as (b' & js' & G' & _ & -> & P').
      rewrite <- (Hbase _ _ _ G G') in P'. destruct G as (G1 & G2 & _).
      assert (js = js' /\ e = e') as [-> ->]; [|auto].
      eapply IH; [|exact G1|exact G2|exact P|exact P']. lia.
    + destruct P as [-> ->], P' as [-> ->]. auto.
Qed.

(** The lexer is exactly the segmentation. *)
Theorem lex_iff_segmented U input is e :
  lex U input = (is, e) <-> segmented U 0 0 0 0 input is e.
Proof.
  pose proof (lex_segmented U input) as P. split.
  - intros E. rewrite E in P. exact P.
  - intro H. destruct (lex U input) as [is' e'].
    destruct (segmented_unique U _ _ _ _ _ _ _ _ _ _ (le_n _) (N.le_refl 0) (N.le_refl 0) P H) as [-> ->].
    reflexivity.
Qed.
