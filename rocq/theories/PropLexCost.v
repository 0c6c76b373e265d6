(** C60: what lexing costs. *)
From Verif Require Import Chars Lexer LexSpec LexFacts LexerProofs LexStep LexSegment LexWritten LexCost Ast Grammar Cfg Parser GrammarLink Types Visitor Emitter
  EmitSpec TypeFacts Contract Erase Print PropParse2 PropPrint PropEmit Spaced PropLexer PropCost.
Local Open Scope nat_scope.

(** The lexer that counts gives the items of the lexer. *)
Theorem C60_same_lexer : forall U text, fst (clex U text) = lex U text.
Proof. apply clex_lex. Qed.

(** At most quadratic, for every text. *)
Theorem C60_quadratic : forall U text,
  2 * lex_reads U text <= List.length text * List.length text + 11 * List.length text + 2.
Proof.
  intros U text. remember (List.length text) as n eqn:E.
  revert text E. induction n as [n IH] using (well_founded_induction Wf_nat.lt_wf). intros text ->. rewrite reads_step.
  destruct text as [|c text]; [cbn; lia|]. set (s := c :: text) in *. assert (Hs : 1 <= List.length s) by (cbn; lia). clearbody s.
  unfold step_reads. pose proof (cstep_cost U (lexer_new s)) as C. pose proof (cstep_step U (lexer_new s)) as Se.
  destruct (cstep U (lexer_new s)) as [r k]. cbn [fst snd] in *. rewrite <- Se. specialize (C r k eq_refl). unfold affordable, rest_of in *. cbn [lexer_new lx_chars] in C.
  destruct (after r) as [l'|]; [|nia]. destruct C as [C1 C2]. specialize (IH (List.length (lx_chars l')) ltac:(lia) _ eq_refl).
  set (m := List.length (lx_chars l')) in *. set (t := List.length s) in *.
  enough (2 * k + m * m + 11 * m <= t * t + 11 * t) by lia. assert (exists d, t = S (m + d)) as (d & ->) by (exists (t - m - 1); lia).
  replace (S (m + d) - m) with (S d) in C2 by lia. nia.
Qed.

(** *** When it is linear *)
Lemma scan_word U s w : word_at U s w -> scan_reads U s = S (List.length w).
Proof.
  intros (r & -> & Hw & Hr). induction Hw as [|c w Hc _ IH]; cbn [app scan_reads List.length].
  - destruct r as [|c r]; [reflexivity|]. cbn [not_followed_by] in Hr. cbn [scan_reads]. rewrite is_alnum_under_eq, Hr. reflexivity.
  - rewrite is_alnum_under_eq, Hc, IH. reflexivity.
Qed.
(** An iteration is cheap if it consumes the word it scans. *)
Lemma cstep_thrifty U s w : word_at U s w -> s <> [] ->
  match rest_of (step U (lexer_new s)) with
  | Some s' => List.length s' < List.length s /\ (List.length w <= List.length s - List.length s' -> step_reads U s <= 4 * (List.length s - List.length s'))
  | None => step_reads U s <= 4 * List.length s
  end.
Proof.
  intros Hw Hs. pose proof (cstep_cost U (lexer_new s)) as C0. unfold step_reads. rewrite <- (cstep_step U (lexer_new s)).
  assert (G : match rest_of (fst (cstep U (lexer_new s))) with
    | Some s' => List.length w <= List.length s - List.length s' -> snd (cstep U (lexer_new s)) <= 4 * (List.length s - List.length s')
    | None => snd (cstep U (lexer_new s)) <= 4 * List.length s end).
  2:{ destruct (cstep U (lexer_new s)) as [r k]. specialize (C0 r k eq_refl). unfold affordable, rest_of in *. cbn [fst snd] in *.
      destruct (after r) as [l'|]; [split; [apply C0|exact G]|exact G]. }
  clear C0. unfold cstep, lexer_new. cbn [lx_chars lx_pos lx_line lx_character lx_last]. destruct s as [|ch rest]; [congruence|].
  cbv zeta. cbn [chars_next lx_chars lx_pos lx_line lx_character lx_last List.length].
  assert (Hwl : List.length w <= S (List.length rest)). { destruct Hw as (q & E & _). apply (f_equal (@List.length _)) in E. rewrite app_length in E. cbn [List.length] in E. lia. }
  set (l := mklx rest (0 + len_utf8 ch) 0 (0 + (0 - 0)) 0). assert (Hl : lx_chars l = rest) by reflexivity.
  set (n := List.length rest) in *. assert (H0 : List.length (lx_chars l) = n) by reflexivity. clearbody l.
  assert (Hnx : List.length (lx_chars (chars_next l)) = n - 1) by (rewrite next_length; lia).
  assert (Tok : forall sp t e l k, k <= 3 -> List.length (lx_chars l) <= n ->
    match rest_of (fst (emit_tok sp t e l, k)) with
    | Some s' => List.length w <= S n - List.length s' -> snd (emit_tok sp t e l, k) <= 4 * (S n - List.length s')
    | None => snd (emit_tok sp t e l, k) <= 4 * S n end).
  { intros sp t e l1 k Hk Hl1. cbn [fst snd]. unfold rest_of. destruct (after _) as [l'|] eqn:E; [apply emit_after in E; subst|]; lia. }
  replace (0 <? 0)%N with false by reflexivity.
  destruct (is_whitespace ch). { destruct (ch =? 10)%N; cbn [fst snd rest_of after lx_chars]; intros _; rewrite ?Hl; fold n; lia. }
  repeat match goal with |- context [fst (if ?b then _ else _)] => destruct b end; try (apply Tok; lia).
  - pose proof (comment_length (lx_chars (chars_next l)) (lx_pos (chars_next l))) as [H1 H2]. destruct (skip_comment _ _) as [q p].
    cbn [fst snd rest_of after lx_chars] in *. lia.
  - destruct (single_char_token ch); [apply Tok; lia|].
    unfold cword_step. cbv zeta. rewrite Hl, (scan_word U _ _ Hw).
    assert (Word : forall sp t e l x, List.length (lx_chars l) + x = n ->
      match rest_of (fst (let '(r, k) := (emit_tok sp t e l, S (List.length w) + x) in (r, 2 + k))) with
      | Some s' => List.length w <= S n - List.length s' -> snd (let '(r, k) := (emit_tok sp t e l, S (List.length w) + x) in (r, 2 + k)) <= 4 * (S n - List.length s')
      | None => snd (let '(r, k) := (emit_tok sp t e l, S (List.length w) + x) in (r, 2 + k)) <= 4 * S n end).
    { intros sp t e l1 x Hl1. cbn [fst snd]. unfold rest_of. destruct (after _) as [l'|] eqn:E; [apply emit_after in E; subst|]; lia. }
    pose proof (fun j => nth_length j l) as Hj. rewrite H0 in Hj.
    destruct (keyword_token U _) as [kw|]; [|cbn [fst snd rest_of after]; lia].
    destruct (assoc _ _); [apply Word, Hj|]. destruct (other_token _) as [[t m]|].
    + destruct (1 <? byte_len m)%N; [apply Word, Hj|]. rewrite (plus_n_O (S (List.length w))). apply Word. lia.
    + rewrite (plus_n_O (S (List.length w))). apply Word. lia.
Qed.
(** [P] holds of every text the lexer arrives at, and there a word is a token. *)
Lemma linear_closed U (P : str -> Prop) :
  (forall s s', P s -> rest_of (step U (lexer_new s)) = Some s' -> P s') ->
  (forall s w, P s -> word_at U s w -> w <> [] -> ~ bad_word U s -> exists t, token_at U s t /\ List.length w <= List.length (token_text t)) ->
  forall s, P s -> lex_reads U s <= 4 * List.length s + 1.
Proof.
  intros Hstep Htok s. remember (List.length s) as n eqn:E. revert s E. induction n as [n IH] using (well_founded_induction Wf_nat.lt_wf). intros s -> HP.
  rewrite reads_step. destruct s as [|c s0]; [cbn; lia|]. set (s := c :: s0) in *. assert (Hs : s <> []) by discriminate. clearbody s.
  destruct (word_at_exists U s) as (w & Hw). pose proof (cstep_thrifty U s w Hw Hs) as T. pose proof (Hstep s) as Hst.
  pose proof (step_inv U s 0 0 0 0 (N.le_refl _)) as I. change (mklx s 0 0 0 0) with (lexer_new s) in I.
  destruct (rest_of (step U (lexer_new s))) as [s'|] eqn:Er; [|lia]. specialize (Hst s' HP eq_refl). destruct T as [T1 T2].
  specialize (IH (List.length s') T1 s' eq_refl Hst). enough (List.length w <= List.length s - List.length s') by lia. clear IH T2.
  destruct w as [|a w]; [cbn; lia|]. pose proof (Htok s (a :: w) HP Hw ltac:(discriminate)) as Ht.
  assert (Hnb : ~ bad_word U s).
  { unfold rest_of in Er. destruct (step U (lexer_new s)) as [|l|i l|]; try discriminate Er.
    - exfalso. destruct Hw as (q & -> & Hw & _). inversion Hw as [|? ? Hc _]; subst.
      destruct I as [(? & E & _)|[(? & ? & E & _ & Hws & _)|[(? & ? & _ & E & _)|(? & _ & E & _)]]];
        (injection E; intros; subst); try discriminate Hc. apply (whitespace_not_word U) in Hws. congruence.
    - destruct I as [(t & _ & H)|(? & ? & _ & _ & _ & _ & H & _)]; exact H. }
  destruct (Ht Hnb) as (t & Hat & Hl). destruct (step_token U s t 0 0 0 0 Hat Hnb (N.le_refl _)) as (x & r & E & _ & Es).
  change (mklx s 0 0 0 0) with (lexer_new s) in Es. rewrite Es in Er. cbn in Er. injection Er as <-. rewrite E, !app_length. cbn [List.length] in *. lia.
Qed.

(** Linear if every word the lexer comes to is one token. *)
Lemma step_visited U input p s ln b pr s' : visited U input p s ln b pr -> rest_of (step U (lexer_new s)) = Some s' ->
  s' = [] \/ exists p' ln' b' pr', visited U input p' s' ln' b' pr'.
Proof.
  intros Hv H. pose proof (step_inv U s 0 0 0 0 (N.le_refl _)) as I. change (mklx s 0 0 0 0) with (lexer_new s) in I. unfold rest_of in H.
  destruct (step U (lexer_new s)) as [|l|i l|] eqn:Es; try discriminate H; cbn in H; injection H as <-.
  - destruct I as [(s1 & -> & ->)|[(c & s1 & -> & Hc & Hws & ->)|[(c & s1 & Hc & -> & ->)|(c & Hc & -> & ->)]]]; cbn [lx_chars].
    + right. eexists _, _, _, _. eapply vi_newline, Hv.
    + right. eexists _, _, _, _. eapply vi_space; eauto.
    + right. eexists _, _, _, _. eapply vi_comment; eauto.
    + left. reflexivity.
  - destruct I as [(t & Hat & Hnb)|(c & s1 & -> & Hws & Hoc & Hn & Hnb & _ & ->)]; cbn [lx_chars].
    + destruct (step_token U s t 0 0 0 0 Hat Hnb (N.le_refl _)) as (x & r & E & Hl & Es'). change (mklx s 0 0 0 0) with (lexer_new s) in Es'. rewrite Es in Es'. injection Es' as -> ->.
      cbn [lx_chars]. subst s. right. eexists _, _, _, _. eapply vi_token; eauto.
    + right. eexists _, _, _, _. eapply vi_unknown; eauto.
Qed.
Theorem C60_linear : forall U text,
  (forall p s line base prev w, visited U text p s line base prev -> word_at U s w -> w <> [] -> ~ bad_word U s ->
     exists t, token_at U s t /\ List.length w <= List.length (token_text t)) ->
  lex_reads U text <= 4 * List.length text + 1.
Proof.
  intros U text H. apply (linear_closed U (fun s => s = [] \/ exists p ln b pr, visited U text p s ln b pr)).
  - intros s s' [->|(p & ln & b & pr & Hv)] E; [discriminate|]. eapply step_visited; eassumption.
  - intros s w [->|(p & ln & b & pr & Hv)] Hw Hne Hnb; [|eapply H; eassumption].
    destruct Hw as (r & E & _). symmetry in E. apply app_eq_nil in E. destruct E. contradiction.
  - right. exists [], 0%N, 0%N, 0%N. apply vi_start.
Qed.

(** In particular for tokens written one after the other with layout between
    adjacent words, as in C07. *)
Lemma wf_word_length U t text w : wf_token t -> may_follow U t text -> word_at U (token_text t ++ text) w -> List.length w <= List.length (token_text t).
Proof.
  intros Ht Hm Hw.
  assert (A : forall q, all_word q -> not_followed_by (word_char U) text -> word_at U (q ++ text) w -> List.length w <= List.length q).
  { intros q Hq Hf Hw'. rewrite (word_at_fun U _ w q Hw' (word_at_app U q text Hq Hf)). apply le_n. }
  assert (B : forall c q, word_char U c = false -> word_at U (c :: q) w -> List.length w = 0).
  { intros c q Hc (r & E & Hf & _). destruct w as [|d w]; [reflexivity|]. injection E as <- _. inversion Hf; subst. congruence. }
  destruct Ht as [k t Hin|k t Hin| |ds _ Hd|ds _ Hd|ds _ Hd|x hs Hx Hh|c s Hc Hs _|c s Hc Hs _ _|s _ Hs|c s _ _|s _ _]; cbn [token_text] in *.
  - destruct (keyword_props _ _ Hin) as (E & Hk & _). rewrite E in *. apply A; [exact Hk|eapply keyword_follow; eassumption|exact Hw].
  - repeat (destruct Hin as [Hin|Hin]; [injection Hin as <- <-; try (apply B in Hw; [rewrite Hw; apply le_0_n|reflexivity])|]); [|destruct Hin].
    apply (A (lit "_")); [repeat constructor|exact Hm|exact Hw].
  - apply A; [repeat constructor|exact Hm|exact Hw].
  - apply A; [|exact Hm|exact Hw]. apply Forall_app. split; [repeat constructor|apply all_digits_word, Hd].
  - apply A; [apply all_digits_word, Hd|exact Hm|exact Hw].
  - apply B in Hw; [lia|reflexivity].
  - apply A; [|exact Hm|exact Hw]. constructor; [reflexivity|]. constructor; [destruct Hx; subst; reflexivity|apply hex_digits_word, Hh].
  - apply A; [|exact Hm|exact Hw]. constructor; [apply is_lower_word, Hc|exact Hs].
  - apply A; [|exact Hm|exact Hw]. constructor; [apply is_upper_word, Hc|exact Hs].
  - apply A; [|exact Hm|exact Hw]. constructor; [reflexivity|exact Hs].
  - apply B in Hw; [lia|reflexivity].
  - apply B in Hw; [lia|reflexivity].
Qed.
Lemma space_step U c s : is_whitespace c = true -> rest_of (step U (lexer_new (c :: s))) = Some s.
Proof.
  intro H. unfold step, lexer_new. cbn [lx_chars lx_pos lx_line lx_character lx_last chars_next]. rewrite H. replace (0 <? 0)%N with false by reflexivity.
  destruct (c =? 10)%N; reflexivity.
Qed.
Lemma comment_step U q : rest_of (step U (lexer_new (open_comment ++ q))) = Some (fst (skip_comment q 2)).
Proof. change (open_comment ++ q) with (40%N :: 42%N :: q). 
  change (step U (lexer_new (40%N :: 42%N :: q))) with (let '(r, p) := skip_comment q 2 in SSkip (mklx r p 0 0 0)). destruct (skip_comment q 2). reflexivity.
Qed.
Lemma layout_step U g n u s' : layout g n -> g <> [] -> rest_of (step U (lexer_new (g ++ u))) = Some s' -> exists g' n', layout g' n' /\ s' = g' ++ u.
Proof.
  intros [|c s m Hc H|c s m Hc H] Hg E; [congruence| |].
  - cbn [app] in E. rewrite space_step in E by exact Hc. injection E as <-. eauto.
  - rewrite <- !app_assoc, comment_step in E. pose proof (skip_comment_spec (c ++ close_comment ++ s ++ u) 2) as K. destruct (skip_comment _ _) as [r p]. cbn [fst] in E. injection E as <-.
    destruct K as [(c' & Hc' & E & _)|(K & _)].
    + destruct (comment_split _ _ _ _ Hc Hc' E) as [_ <-]. eauto.
    + destruct K. exists c, (s ++ u). reflexivity.
Qed.
Lemma written_step U toks s s' : written U toks s -> rest_of (step U (lexer_new s)) = Some s' -> exists toks', written U toks' s'.
Proof.
  intros [g (g0 & n & Hg & [->|(c & Hc & ->)])|g n t toks' text Hg Ht Hm Hw] E.
  - destruct g0 as [|a g0]; [discriminate|]. rewrite <- (app_nil_r (a :: g0)) in E. destruct (layout_step U _ n [] s' Hg ltac:(discriminate) E) as (g' & n' & Hg' & ->).
    exists []. apply wr_end. rewrite app_nil_r. exists g', n'. auto.
  - destruct g0 as [|a g0].
    + cbn [app] in E. rewrite comment_step in E. pose proof (skip_comment_spec c 2) as K. destruct (skip_comment _ _) as [r p]. cbn [fst] in E. injection E as <-.
      destruct K as [(c' & _ & K & _)|(_ & -> & _)]; [destruct Hc; exists c', r; exact K|].
      exists []. apply wr_end. exists [], 0%N. split; [constructor|auto].
    + destruct (layout_step U _ n _ s' Hg ltac:(discriminate) E) as (g' & n' & Hg' & ->). exists []. apply wr_end. exists g', n'. split; [exact Hg'|]. right. eauto.
  - destruct g as [|a g].
    + cbn [app] in E. destruct (wf_token_at U t text Ht Hm) as (H1 & H2 & H3). destruct (step_token U _ t 0 0 0 0 H1 H2 (N.le_refl _)) as (x & r & E1 & Hl & Es).
      change (mklx ?a 0 0 0 0) with (lexer_new a) in Es. rewrite Es in E. cbn in E. injection E as <-. apply app_inv_head in E1.
      destruct (lost_unique t [] text x r) as [_ <-]; [exact E1|exact H3|exact Hl|]. eauto.
    + destruct (layout_step U _ n _ s' Hg ltac:(discriminate) E) as (g' & n' & Hg' & ->). exists (t :: toks'). econstructor; eassumption.
Qed.
Lemma visited_closed U (P : str -> Prop) : (forall s s', P s -> rest_of (step U (lexer_new s)) = Some s' -> P s') ->
  forall input p s ln b pr, P input -> visited U input p s ln b pr -> P s.
Proof.
  intros H input p s ln b pr H0. induction 1 as [|p s ln b pr _ IH|p c s ln b pr _ IH Hc _|p c s ln b pr _ IH Hc|p t x s ln b pr _ IH Ht Hnb Hl|p c s ln b pr _ IH Hws Hoc Hn Hnb].
  - exact H0.
  - apply (H _ _ IH). now apply space_step.
  - apply (H _ _ IH). now apply space_step.
  - apply (H _ _ IH). rewrite comment_step. f_equal. pose proof (skip_comment_spec (c ++ close_comment ++ s) 2) as K. destruct (skip_comment _ _) as [r q]. cbn [fst].
    destruct K as [(c' & Hc' & E & _)|(K & _)]; [destruct (comment_split _ _ _ _ Hc Hc' E); congruence|]. destruct K. exists c, s. reflexivity.
  - apply (H _ _ IH). destruct (step_token U _ t 0 0 0 0 Ht Hnb (N.le_refl _)) as (x' & r & E & Hl' & Es). change (mklx ?a 0 0 0 0) with (lexer_new a) in Es. rewrite Es. cbn.
    apply app_inv_head in E. destruct (lost_unique t x s x' r E Hl Hl') as [_ ->]. reflexivity.
  - apply (H _ _ IH). pose proof (step_inv U (c :: s) 0 0 0 0 (N.le_refl _)) as I. change (mklx (c :: s) 0 0 0 0) with (lexer_new (c :: s)) in I.
    destruct (step U (lexer_new (c :: s))) as [|l|i l|]; [discriminate| | |contradiction].
    + exfalso. destruct I as [(? & E & _)|[(? & ? & E & _ & Hc & _)|[(? & ? & _ & E & _)|(? & _ & E & _)]]].
      * injection E as -> _. discriminate.
      * injection E as -> _. congruence.
      * apply (Hoc _ E).
      * apply (Hoc _ E).
    + destruct I as [(t & Ht & _)|(c' & s' & E & _ & _ & _ & _ & _ & ->)]; [destruct (Hn t Ht)|]. injection E as _ ->. reflexivity.
Qed.
(** every word in it is one token *)
Theorem C60_written_words : forall U toks text p s line base prev w,
  written U toks text -> visited U text p s line base prev -> word_at U s w -> w <> [] ->
  exists t, token_at U s t /\ List.length w <= List.length (token_text t).
Proof.
  intros U toks text p s0 ln b pr w H Hv Hw Hne.
  assert (exists ts, written U ts s0) as (ts & Hs).
  { revert Hv. apply (visited_closed U (fun s => exists ts, written U ts s)); [|eauto]. intros s s' (ts & Hs) E. eapply written_step; eassumption. }
  destruct Hs as [g (g0 & n & Hg & Hf)|g n t ts' text' Hg Ht Hm Hw'].
  + exfalso. destruct w as [|a w]; [congruence|]. destruct Hw as (q & E & Hw & _). inversion Hw as [|? ? Ha _]; subst. change open_comment with [40; 42]%N in Hf. cbn [app] in Hf.
    destruct Hg as [|c s m Hc Hg|c s m Hc Hg].
    * destruct Hf as [Hf|(c & _ & Hf)]; [discriminate|]. injection Hf as -> _. discriminate Ha.
    * destruct Hf as [Hf|(k & _ & Hf)]; injection Hf as -> _; apply (whitespace_not_word U) in Hc; congruence.
    * change open_comment with [40; 42]%N in Hf. destruct Hf as [Hf|(k & _ & Hf)]; injection Hf as -> _; discriminate Ha.
  + exists t. destruct Hg as [|c s m Hc Hg|c s m Hc Hg].
    * cbn [app] in *. split; [apply (wf_token_at U t text' Ht Hm)|eapply wf_word_length; eassumption].
    * exfalso. destruct w as [|a w]; [congruence|]. destruct Hw as (q & E & Hw & _). inversion Hw as [|? ? Ha _]; subst. injection E as -> _. apply (whitespace_not_word U) in Hc; congruence.
    * exfalso. destruct w as [|a w]; [congruence|]. destruct Hw as (q & E & Hw & _). inversion Hw as [|? ? Ha _]; subst. change open_comment with [40; 42]%N in E. injection E as <- _. discriminate Ha.
Qed.
Theorem C60_linear_when_written : forall U toks text, written U toks text -> lex_reads U text <= 4 * List.length text + 1.
Proof. intros U toks text H. apply C60_linear. intros p s ln b pr w Hv Hw Hne _. eapply C60_written_words; eassumption. Qed.

(** *** It is not linear for all accepted texts *)

(** [scilla_version 0 contract C ( x : List ByStrByStr..ByStr)] with [k + 1]
    times [ByStr]. *)
Fixpoint glued (k : nat) : str := match k with O => [] | S k => lit "ByStr" ++ glued k end.
Definition glued_head : list token :=
  [TScillaVersion; TNumber (lit "0"); TContract; TCustomIdentifier (lit "C"); TOpenParen; TIdentifier (lit "x"); TColon; TCustomIdentifier (lit "List")].
Definition glued_tokens (k : nat) : list token := glued_head ++ repeat TByStr (S k) ++ [TCloseParen].
Definition glued_text (k : nat) : str := lit "scilla_version 0 contract C ( x : List " ++ glued (S k) ++ lit ")".
Definition glued_arg : wm NodeTypeArgument := w0 (GenericTypeArgument (w0 MetaByteString)).
Definition glued_type (k : nat) : NodeScillaType :=
  GenericTypeWithArgs (w0 (MetaName (w0 (TypeOrEnumLikeIdentifier (w0 (lit "List")))))) (repeat glued_arg k).
Definition glued_program (k : nat) : NodeProgram :=
  mkProgram (w0 (lit "0")) None None (w0 (mkContractDefinition (w0 (TypeOrEnumLikeIdentifier (w0 (lit "C"))))
    (w0 (mkComponentParameters [w0 (mkParameterPair (w0 (mkTypedIdentifier (w0 (lit "x")) (w0 (mkTypeAnnotation (w0 (glued_type (S k))))))))])) None [] [])).

Lemma glued_args_written k : canonical (flat_map (fun a => w_arg (node a)) (repeat glued_arg k)) = repeat TByStr k.
Proof. induction k as [|k IH]; [reflexivity|]. cbn [repeat flat_map]. rewrite canonical_app, IH. reflexivity. Qed.
Lemma glued_program_written k : canonical (write Program (glued_program k)) = glued_tokens k.
Proof.
  unfold glued_tokens. change (write Program (glued_program k)) with (w_program (glued_program k)). unfold glued_program, glued_head. generalize (S k). intro j.
  unfold w_program, w_contract, w_params, w_pair, w_typed, w_annot, w_id, w_number, opt, w0. cbn [node map sep flat_map app w_tni w_custom].
  rewrite app_nil_r, ?app_nil_r. change (canonical (P ?t :: ?x)) with (t :: canonical x).
  unfold canonical at 1. cbn [flat_map app]. do 7 f_equal. fold (canonical (w_type (glued_type j) ++ [P TCloseParen])).
  rewrite canonical_app. unfold glued_type. cbn [w_type]. rewrite canonical_app, glued_args_written. reflexivity.
Qed.
Lemma glued_wf k : Forall wf_token (glued_tokens k).
Proof.
  unfold glued_tokens. apply Forall_app. split; [apply wf_tokensb; reflexivity|]. apply Forall_app. split; [|apply wf_tokensb; reflexivity].
  apply Forall_forall. intros t Ht. apply repeat_spec in Ht. subst t. apply wf_tokenb_sound. reflexivity.
Qed.
Lemma glued_writable k : writable Program (glued_program k) = true.
Proof.
  change (writable Program (glued_program k)) with (k_program (glued_program k)). unfold glued_program. generalize (S k). intro j. unfold w0.
  cbn [k_program node maybe k_contract k_params all forallb k_pair k_typed k_annot k_tni andb].
  assert (H : k_type (glued_type j) = true).
  { unfold glued_type. cbn [k_type]. apply andb_true_iff. split; [reflexivity|]. induction j as [|j IH]; [reflexivity|exact IH]. }
  revert H. generalize (glued_type j). intros t H. cbn. now rewrite H.
Qed.
Definition glued_says (k : nat) : texp := TName (lit "List") (repeat (N0 "ByStr") k).
Lemma glued_says_type k : says_type (glued_type k) (glued_says k).
Proof.
  unfold glued_type, glued_says. constructor; [repeat constructor|]. induction k as [|k IH]; cbn [repeat]; constructor; [|exact IH].
  unfold glued_arg, w0, N0. cbn [node]. constructor. constructor.
Qed.
Lemma glued_denotes k : denotes (glued_says (S k)) (TyList ByStr).
Proof.
  unfold glued_says. cbn [repeat]. rewrite repeat_cons. apply d_list.
  - induction k as [|k IH]; cbn [repeat]; constructor; [repeat constructor|exact IH].
  - apply d_base; constructor.
Qed.
(** The tokens of the glued text, and what it costs to find them. *)
Lemma glued_word k : all_word (glued k).
Proof. induction k as [|k IH]; [constructor|]. cbn [glued]. apply Forall_app. split; [repeat constructor|exact IH]. Qed.
Lemma glued_length k : List.length (glued k) = 5 * k.
Proof. induction k as [|k IH]; [reflexivity|]. cbn [glued]. rewrite app_length, IH. cbn [List.length lit map]. cbn. lia. Qed.
Lemma close_not_word U : not_followed_by (word_char U) (lit ")").
Proof. reflexivity. Qed.
Lemma glued_token U k : token_at U (token_text TByStr ++ [] ++ glued k ++ lit ")") TByStr /\ ~ bad_word U (token_text TByStr ++ [] ++ glued k ++ lit ")").
Proof.
  split.
  - apply ta_bystr. destruct k; reflexivity.
  - cbn [app token_text]. change (lit "ByStr" ++ glued k ++ lit ")") with (glued (S k) ++ lit ")"). apply not_bad_word_app; [apply glued_word|apply close_not_word].
Qed.
Lemma glued_run_tokens U k : tokens_of U (glued k ++ lit ")") = (repeat TByStr k ++ [TCloseParen], LEof).
Proof.
  induction k as [|k IH]; [reflexivity|]. destruct (glued_token U k) as [H1 H2]. pose proof (tokens_token U TByStr [] _ H1 H2 eq_refl) as E.
  cbn [glued]. rewrite <- app_assoc. cbn [app token_text] in E. rewrite E, IH. reflexivity.
Qed.
Lemma reads_rest U s s' : rest_of (step U (lexer_new s)) = Some s' -> step_reads U s + lex_reads U s' = lex_reads U s.
Proof. intro H. rewrite (reads_step U s), H. reflexivity. Qed.
Lemma word_reads U c s : (c =? 66)%N = true -> S (scan_reads U (c :: s)) <= step_reads U (c :: s).
Proof.
  intro H. apply N.eqb_eq in H. subst c. unfold step_reads.
  change (cstep U (lexer_new (66%N :: s))) with (let '(r, k) := cword_step U (mkpos 0 0 0) 0 66 (mklx s (0 + len_utf8 66) 0 (0 + (0 - 0)) 0) in (r, 2 + k)).
  assert (G : forall sp st c l, scan_reads U (c :: lx_chars l) <= snd (cword_step U sp st c l)).
  { intros sp st c l. unfold cword_step. cbv zeta. destruct (keyword_token U _); [|cbn [snd]; lia]. destruct (assoc _ _); [cbn [snd]; lia|].
    destruct (other_token _) as [[t m]|]; [destruct (1 <? byte_len m)%N|]; cbn [snd]; lia. }
  specialize (G (mkpos 0 0 0) 0%N 66%N (mklx s (0 + len_utf8 66) 0 (0 + (0 - 0)) 0)). cbn [lx_chars] in G. destruct (cword_step _ _ _ _ _) as [r k]. cbn [snd] in *. lia.
Qed.
Lemma glued_run_reads U k : 5 * k * k <= 2 * lex_reads U (glued k ++ lit ")").
Proof.
  induction k as [|k IH]; [lia|]. destruct (glued_token U k) as [H1 H2]. cbn [token_text app] in H1, H2. set (s := lit "ByStr" ++ glued k ++ lit ")") in *.
  assert (Es : glued (S k) ++ lit ")" = s) by (unfold s; cbn [glued]; rewrite <- app_assoc; reflexivity). rewrite Es.
  destruct (step_token U s TByStr 0 0 0 0 H1 H2 (N.le_refl _)) as (x & r & E & Hl & Est). change (mklx s 0 0 0 0) with (lexer_new s) in Est.
  cbn [lost] in Hl. subst x. cbn [app token_text] in E. apply app_inv_head in E.
  rewrite <- (reads_rest U s r) by (rewrite Est; reflexivity). rewrite <- E.
  assert (Hw : scan_reads U s = S (5 * S k)).
  { rewrite <- Es. erewrite scan_word; [|apply word_at_app; [apply glued_word|apply close_not_word]]. rewrite glued_length. reflexivity. }
  assert (Hr : S (scan_reads U s) <= step_reads U s) by (apply word_reads; reflexivity). rewrite Hw in Hr. nia.
Qed.
Lemma step_token_wf U t s : wf_token t -> may_follow U t s -> rest_of (step U (lexer_new (token_text t ++ s))) = Some s.
Proof.
  intros Ht Hm. destruct (wf_token_at U t s Ht Hm) as (H1 & H2 & H3). destruct (step_token U _ t 0 0 0 0 H1 H2 (N.le_refl _)) as (x & r & E & Hl & Es).
  change (mklx ?a 0 0 0 0) with (lexer_new a) in Es. rewrite Es. cbn. apply app_inv_head in E. destruct (lost_unique t [] s x r E H3 Hl) as [_ ->]. reflexivity.
Qed.
(** Tokens with one space after each. *)
Lemma spaced_before_reads U toks s : forallb wf_tokenb toks = true ->
  lex_reads U s <= lex_reads U (flat_map (fun t => token_text t ++ [32%N]) toks ++ s)
  /\ tokens_of U (flat_map (fun t => token_text t ++ [32%N]) toks ++ s) = (let '(ts, e) := tokens_of U s in (toks ++ ts, e)).
Proof.
  induction toks as [|t toks IH]; intro H.
  - split; [apply le_n|]. cbn [flat_map app]. destruct (tokens_of U s). reflexivity.
  - cbn [forallb] in H. apply andb_true_iff in H. destruct H as [H1 H2]. destruct (IH H2) as [IH1 IH2]. apply wf_tokenb_sound in H1.
    cbn [flat_map]. rewrite <- !app_assoc. cbn [app]. set (q := flat_map _ toks ++ s) in *.
    assert (Hm : may_follow U t (32%N :: q)) by (destruct t; exact I || reflexivity). split.
    + pose proof (reads_rest U _ _ (step_token_wf U t _ H1 Hm)). pose proof (reads_rest U _ _ (space_step U 32 q eq_refl)). lia.
    + destruct (wf_token_at U t (32%N :: q) H1 Hm) as (A & B & C). pose proof (tokens_token U t [] _ A B C) as E. cbn [app] in E. rewrite E.
      pose proof (tokens_layout U [32%N] 0 q (lay_space 32 [] 0 eq_refl lay_nil)) as E2. cbn [app] in E2. rewrite E2, IH2. destruct (tokens_of U s). reflexivity.
Qed.
Lemma glued_head_text : flat_map (fun t => token_text t ++ [32%N]) glued_head = lit "scilla_version 0 contract C ( x : List ".
Proof. reflexivity. Qed.
Lemma glued_text_tokens U k : tokens_of U (glued_text k) = (glued_tokens k, LEof).
Proof.
  unfold glued_text, glued_tokens. rewrite <- glued_head_text. destruct (spaced_before_reads U glued_head (glued (S k) ++ lit ")") eq_refl) as [_ ->].
  rewrite glued_run_tokens. reflexivity.
Qed.

(** For every [k] a text of [5 k + 45] characters is accepted on which the lexer
    makes at least [5 (k+1)^2 / 2] reads: *)
Theorem C60_not_linear : forall U debug k, exists text,
  List.length text = 5 * k + 45 /\
  from_str U debug text = RValue (mkContract (lit "C") [mkField (lit "x") (TyList ByStr)] [] []) /\
  5 * (k + 1) * (k + 1) <= 2 * lex_reads U text.
Proof.
  intros U debug k. exists (glued_text k). split; [|split].
  - unfold glued_text. rewrite !app_length, glued_length. cbn [List.length]. cbn. lia.
  - assert (Hw : written U (canonical (write Program (glued_program k))) (spaced (glued_tokens k))) by (rewrite glued_program_written; apply spaced_written, glued_wf).
    pose proof (C15_from_str_depends_on_tokens U debug (glued_text k) (spaced (glued_tokens k))) as E.
    rewrite glued_text_tokens, (written_tokens U _ _ (spaced_written U _ (glued_wf k))) in E. specialize (E eq_refl).
    rewrite (C36_any_layout U debug (spaced (glued_tokens k)) (glued_program k) (mkDescription (lit "C") [(lit "x", glued_says (S k))] [] [])
      (mkContract (lit "C") [mkField (lit "x") (TyList ByStr)] [] [])) in E.
    + destruct (from_str U debug (glued_text k)) as [c|[]| |]; try discriminate E. injection E as ->. reflexivity.
    + apply glued_writable.
    + split; [reflexivity|]. split; [|split; constructor]. constructor; [|constructor]. split; [reflexivity|]. apply glued_says_type.
    + split; [reflexivity|]. split; [|split; constructor]. constructor; [apply glued_denotes|constructor].
    + exact Hw.
  - pose proof (glued_run_reads U (S k)) as H. unfold glued_text. rewrite <- glued_head_text.
    destruct (spaced_before_reads U glued_head (glued (S k) ++ lit ")") eq_refl) as [H1 _]. replace (k + 1) with (S k) by lia. lia.
Qed.
(** so no multiple of the length suffices. *)
Theorem C60_linear_bound_refuted : forall U debug a, exists text c,
  from_str U debug text = RValue c /\ a * List.length text < lex_reads U text.
Proof.
  intros U debug a. destruct (C60_not_linear U debug (20 * a + 20)) as (text & Hl & Hf & Hr). exists text. eexists. split; [exact Hf|]. rewrite Hl. nia.
Qed.

(** ** Witnesses *)
Definition lc_src : str := lit "scilla_version 0 contract C (x : Pair ByStr20 ByStr)".
Example C60_witness : lex_reads U_none lc_src = 121 /\ List.length lc_src = 52.
Proof. split; vm_compute; reflexivity. Qed.
Example C60_witness_written : exists toks, written U_none toks (spaced toks) /\ List.length (spaced toks) = 55
  /\ lex_reads U_none (spaced toks) = 127 /\ List.length toks = 11.
Proof.
  exists (fst (tokens_of U_none lc_src)). split; [apply spaced_written, wf_tokensb; vm_compute; reflexivity|]. split; [|split]; vm_compute; reflexivity.
Qed.
Example C60_witness_glued : lex_reads U_none (glued_text 9) = 438 /\ List.length (glued_text 9) = 90.
Proof. split; vm_compute; reflexivity. Qed.
