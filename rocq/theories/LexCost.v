(** The lexer of Lexer.v once more, counting its reads: the calls of [next] and
    [peek] on a character iterator (a call [nth(k)] counts for the characters it
    consumes).  The regular expressions of lines 606-620 are not counted. *)
From Verif Require Import Chars Lexer LexSpec LexFacts LexerProofs LexStep LexSegment.
Local Open Scope nat_scope.

(** The cost of [self.chars.nth(k)]. *)
Definition nth_reads (k : nat) (l : lexer) : nat := Nat.min (S k) (List.length (lx_chars l)).

(** src/parser/lexer.rs:314-323: one [next] per iteration, a [peek] after a [*],
    and a [next] for the closing parenthesis. *)
Fixpoint comment_reads (s : str) : nat :=
  match s with
  | [] => 1
  | c :: r =>
      match r with
      | d :: _ => if (c =? 42)%N && (d =? 41)%N then 3
                  else (if (c =? 42)%N then 2 else 1) + comment_reads r
      | [] => (if (c =? 42)%N then 2 else 1) + comment_reads r
      end
  end.

Section WithUnicode.
Variable U : unicode.

(** src/parser/lexer.rs:387-394: the loop over [token_str.chars()]. *)
Fixpoint scan_reads (s : str) : nat :=
  match s with
  | [] => 1
  | c :: r => if is_alnum_under U c then S (scan_reads r) else 1
  end.

(** src/parser/lexer.rs:385-714 *)
Definition cword_step (sp : source_position) (start : N) (ch : char) (l : lexer) : step_result * nat :=
  let token_str := ch :: lx_chars l in
  let k := scan_reads token_str in
  match keyword_token U token_str with
  | None => (SPanic, k)
  | Some kw =>
      match assoc kw keywords with
      | Some t => (emit_tok sp t (start + byte_len kw) (chars_nth (List.length kw - 2) l), k + nth_reads (List.length kw - 2) l)
      | None =>
          match other_token token_str with
          | Some (t, m) =>
              let mat_end := byte_len m in
              if (1 <? mat_end)%N
              then (emit_tok sp t (start + mat_end) (chars_nth (N.to_nat mat_end - 2) l), k + nth_reads (N.to_nat mat_end - 2) l)
              else (emit_tok sp t (start + mat_end) l, k)
          | None => (emit_tok sp TUnknown start l, k)
          end
      end
  end.

(** src/parser/lexer.rs:251-721, one iteration: [next] and [peek] first. *)
Definition cstep (l0 : lexer) : step_result * nat :=
  match lx_chars l0 with
  | [] => (SEnd, 1)
  | ch :: rest =>
      let start := lx_pos l0 in
      let sp := mkpos start (lx_line l0) (lx_character l0) in
      let l1 := chars_next l0 in
      let look_ahead := hd_error rest in
      let la c := match look_ahead with Some d => (d =? c)%N | None => false end in
      let next_is_alpha_num_under :=
        match look_ahead with Some d => is_alnum_under U d | None => false end in
      let next_is_numeric :=
        match look_ahead with Some d => is_numeric U d | None => false end in
      if (start <? lx_last l0)%N then (SPanic, 2)
      else
      let l := mklx (lx_chars l1) (lx_pos l1) (lx_line l1)
                    (lx_character l1 + (start - lx_last l0)) start in
      if is_whitespace ch then
        if (ch =? 10)%N then (SSkip (mklx (lx_chars l) (lx_pos l) (lx_line l + 1) 0 (lx_last l)), 2)
        else (SSkip l, 2)
      else if (ch =? 61)%N && la 62%N then (emit_tok sp TDoubleArrow (start + 2 * len_utf8 ch) (chars_next l), 3)
      else if (ch =? 45)%N && la 62%N then (emit_tok sp TArrow (start + 2 * len_utf8 ch) (chars_next l), 3)
      else if (ch =? 45)%N && negb next_is_numeric then (emit_tok sp TMinus (start + len_utf8 ch) l, 2)
      else if (ch =? 60)%N && la 45%N then (emit_tok sp TLeftArrow (start + 2 * len_utf8 ch) (chars_next l), 3)
      else if (ch =? 58)%N && la 61%N then (emit_tok sp TColonEquals (start + 2 * len_utf8 ch) (chars_next l), 3)
      else if (ch =? 95)%N && negb next_is_alpha_num_under then (emit_tok sp TUnderscore (start + len_utf8 ch) l, 2)
      else if (ch =? 40)%N && la 42%N then
        let l' := chars_next l in
        let '(r, p) := skip_comment (lx_chars l') (lx_pos l') in
        (SSkip (mklx r p (lx_line l') (lx_character l') (lx_last l')), 3 + comment_reads (lx_chars l'))
      else match single_char_token ch with
           | Some t => (emit_tok sp t (start + len_utf8 ch) l, 2)
           | None => let '(r, k) := cword_step sp start ch l in (r, 2 + k)
           end
  end.

(** [Lexer::new(input)] iterated to the end (or to the panic): its items, how it
    ended, and the reads it made. *)
Fixpoint clex_run (fuel : nat) (l : lexer) : list item * lex_end * nat :=
  match fuel with
  | O => ([], LFuel, 0)
  | S f => let '(r, k) := cstep l in
           match r with
           | SEnd => ([], LEof, k)
           | SPanic => ([], LPanic, k)
           | SSkip l' => let '(is, e, n) := clex_run f l' in (is, e, k + n)
           | STok i l' => let '(is, e, n) := clex_run f l' in (i :: is, e, k + n)
           end
  end.
Definition clex (input : str) : list item * lex_end * nat := clex_run (S (List.length input)) (lexer_new input).
Definition lex_reads (input : str) : nat := snd (clex input).
End WithUnicode.

(** ** It is the same lexer *)
Ltac cases := repeat match goal with
  | |- context [if ?b then _ else _] => destruct b
  | |- context [match ?x with Some _ => _ | None => _ end] => destruct x
  | |- context [let '(_, _) := ?x in _] => destruct x end.
Lemma cstep_step U l : fst (cstep U l) = step U l.
Proof.
  unfold cstep, step. destruct (lx_chars l) as [|ch rest]; [reflexivity|]. cbv zeta.
  repeat match goal with
  | |- context [if ?b then _ else _] => match b with context [if _ then _ else _] => fail 1 | _ => destruct b; try reflexivity end
  end.
  - destruct (skip_comment _ _). reflexivity.
  - destruct (single_char_token ch); [reflexivity|]. unfold cword_step, word_step. cbv zeta. destruct (keyword_token U _); [|reflexivity].
    destruct (assoc _ _); [reflexivity|]. destruct (other_token _) as [[t m]|]; [|reflexivity]. destruct (1 <? byte_len m)%N; reflexivity.
Qed.

Lemma next_length l : List.length (lx_chars (chars_next l)) = List.length (lx_chars l) - 1.
Proof. destruct l as [[|c s] p ln ch la]; cbn; lia. Qed.
Lemma advance_length n : forall l, List.length (lx_chars (chars_advance n l)) = List.length (lx_chars l) - n.
Proof. induction n as [|n IH]; intro l; cbn [chars_advance]; [lia|]. rewrite IH, next_length. lia. Qed.
Lemma nth_length k l : List.length (lx_chars (chars_nth k l)) + nth_reads k l = List.length (lx_chars l).
Proof. unfold chars_nth, nth_reads. rewrite advance_length. lia. Qed.
Lemma comment_length s : forall p, List.length (fst (skip_comment s p)) <= List.length s /\
  comment_reads s <= 2 * (List.length s - List.length (fst (skip_comment s p))) + 1.
Proof.
  induction s as [|c s IH]; intro p; cbn [skip_comment comment_reads]; [cbn; lia|].
  destruct s as [|d s].
  - destruct (IH (p + len_utf8 c)%N) as [H1 H2]. cbn in *. destruct (c =? 42)%N; lia.
  - destruct ((c =? 42)%N && (d =? 41)%N); [cbn [fst List.length]; lia|].
    destruct (IH (p + len_utf8 c)%N) as [H1 H2]. set (q := fst _) in *. cbn [List.length] in *. destruct (c =? 42)%N; lia.
Qed.

Definition after (r : step_result) : option lexer := match r with SSkip l | STok _ l => Some l | _ => None end.
Lemma emit_after sp t e l l' : after (emit_tok sp t e l) = Some l' -> l' = l.
Proof. unfold emit_tok. destruct (with_end sp e); [intros [= <-]; reflexivity|discriminate]. Qed.
Lemma scan_bound U s : scan_reads U s <= List.length s + 1.
Proof. induction s as [|c s IH]; cbn [scan_reads List.length]; [lia|]. destruct (is_alnum_under U c); lia. Qed.

(** One iteration: it consumes something, and what it costs. *)
Definition affordable (n : nat) (r : step_result) (k : nat) : Prop :=
  match after r with
  | Some l' => List.length (lx_chars l') < n /\ k <= 3 + n + 2 * (n - List.length (lx_chars l'))
  | None => k <= 3 + 2 * n
  end.
Lemma cstep_cost U l r k : cstep U l = (r, k) -> affordable (List.length (lx_chars l)) r k.
Proof.
  unfold cstep. destruct l as [s pos ln chr la]. cbn [lx_chars lx_pos lx_line lx_character lx_last]. destruct s as [|ch rest].
  { intros [= <- <-]. cbn. lia. }
  cbv zeta. cbn [lx_chars lx_pos lx_line lx_character lx_last List.length].
  set (n1 := chars_next (mklx (ch :: rest) pos ln chr la)). assert (Hn1 : lx_chars n1 = rest) by reflexivity. clearbody n1.
  set (l := mklx (lx_chars n1) (lx_pos n1) (lx_line n1) (lx_character n1 + (pos - la))%N pos). assert (Hl : lx_chars l = rest) by exact Hn1. clearbody l.
  set (n := List.length rest).
  assert (Tok : forall sp t e l n', n' <= 3 -> List.length (lx_chars l) <= n -> (emit_tok sp t e l, n') = (r, k) -> affordable (S n) r k).
  { intros sp t e l1 n' Hn Hl1 [= <- <-]. unfold affordable. destruct (after _) as [l'|] eqn:E; [apply emit_after in E; subst|]; lia. }
  assert (H00 : List.length (lx_chars n1) = n) by (rewrite Hn1; reflexivity).
  assert (H0 : List.length (lx_chars l) = n) by (rewrite Hl; reflexivity).
  assert (Hnx : List.length (lx_chars (chars_next l)) = n - 1) by (rewrite next_length; lia).
  destruct (pos <? la)%N; [intros [= <- <-]; cbn; lia|].
  destruct (is_whitespace ch). { destruct (ch =? 10)%N; intros [= <- <-]; unfold affordable; cbn [after lx_chars]; lia. }
  repeat match goal with |- (if ?b then _ else _) = _ -> _ => destruct b end;
    try (apply Tok; lia).
  - pose proof (comment_length (lx_chars (chars_next l)) (lx_pos (chars_next l))) as [H1 H2]. destruct (skip_comment _ _) as [q p]. cbn [fst] in *.
    intros [= <- <-]. unfold affordable. cbn [after lx_chars]. lia.
  - destruct (single_char_token ch); [apply Tok; lia|].
    unfold cword_step. cbv zeta. rewrite Hl. pose proof (scan_bound U (ch :: rest)) as Hs. cbn [List.length] in Hs. fold n in Hs.
    set (sc := scan_reads U (ch :: rest)) in *. clearbody sc.
    assert (Word : forall sp t e l x, List.length (lx_chars l) + x = n -> (emit_tok sp t e l, 2 + (sc + x)) = (r, k) -> affordable (S n) r k).
    { intros sp t e l1 x Hl1 [= <- <-]. unfold affordable. destruct (after _) as [l'|] eqn:E; [apply emit_after in E; subst|]; lia. }
    pose proof (fun j => nth_length j l) as Hj. rewrite H0 in Hj.
    destruct (keyword_token U _) as [kw|]; [|intros [= <- <-]; unfold affordable; cbn [after]; lia].
    destruct (assoc _ _); [apply Word, Hj|]. destruct (other_token _) as [[t m]|].
    + destruct (1 <? byte_len m)%N; [apply Word, Hj|]. rewrite (plus_n_O sc). apply Word. lia.
    + rewrite (plus_n_O sc). apply Word. lia.
Qed.

Lemma step_shrinks U l l' : after (step U l) = Some l' -> List.length (lx_chars l') < List.length (lx_chars l).
Proof.
  intro H. destruct (cstep U l) as [r k] eqn:E. pose proof (cstep_cost U l r k E) as C. pose proof (cstep_step U l) as S. rewrite E in S. cbn [fst] in S. subst r.
  unfold affordable in C. rewrite H in C. lia.
Qed.

Lemma next_fuel_more U : forall g g' l, List.length (lx_chars l) < g -> g <= g' -> next_fuel U g l = next_fuel U g' l.
Proof.
  induction g as [|g IH]; intros g' l Hl Hg; [lia|]. destruct g' as [|g']; [lia|]. cbn [next_fuel].
  destruct (step U l) as [|l'|i l'|] eqn:E; try reflexivity. apply IH; [|lia].
  pose proof (step_shrinks U l l') as H. rewrite E in H. specialize (H eq_refl). lia.
Qed.
Lemma next_shrinks U : forall g l i l', next_fuel U g l = NItem i l' -> List.length (lx_chars l') < List.length (lx_chars l).
Proof.
  induction g as [|g IH]; intros l i l'; cbn [next_fuel]; [discriminate|]. pose proof (step_shrinks U l) as H.
  destruct (step U l) as [|l1|i1 l1|] eqn:E; try discriminate.
  - intro H1. apply IH in H1. specialize (H l1 eq_refl). lia.
  - intros [= <- <-]. apply H. reflexivity.
Qed.
Lemma clex_run_eq U : forall F f l, List.length (lx_chars l) < F -> List.length (lx_chars l) < f ->
  fst (clex_run U F l) = lex_run U f l.
Proof.
  induction F as [|F IH]; intros f l HF Hf; [lia|]. destruct f as [|f]; [lia|]. cbn [clex_run lex_run]. unfold next. cbn [next_fuel].
  pose proof (cstep_step U l) as S. pose proof (step_shrinks U l) as Sh. destruct (cstep U l) as [r k]. cbn [fst] in S. rewrite <- S in *.
  destruct r as [|l'|i l'|]; try reflexivity.
  - specialize (Sh l' eq_refl). specialize (IH (Datatypes.S f) l' ltac:(lia) ltac:(lia)). destruct (clex_run U F l') as [[is e] m]. cbn [fst] in *. rewrite IH.
    cbn [lex_run]. unfold next. rewrite (next_fuel_more U (Datatypes.S (List.length (lx_chars l'))) (List.length (lx_chars l)) l') by lia. reflexivity.
  - specialize (Sh l' eq_refl). specialize (IH f l' ltac:(lia) ltac:(lia)). destruct (clex_run U F l') as [[is e] m]. cbn [fst] in *. rewrite <- IH. reflexivity.
Qed.
(** Without the count it is the lexer. *)
Lemma clex_lex U input : fst (clex U input) = lex U input.
Proof. apply clex_run_eq; cbn; lia. Qed.

(** ** The reads depend on the characters only *)
Definition in_order (l : lexer) : Prop := (lx_last l <= lx_pos l)%N.
Lemma emit_tok_at p ln ch t e l : (p <= e)%N -> exists i, emit_tok (mkpos p ln ch) t e l = STok i l.
Proof. intro H. unfold emit_tok, with_end. cbn [position]. replace (e <? p)%N with false by lia. eauto. Qed.
Definition rest_of (r : step_result) : option str := match after r with Some l => Some (lx_chars l) | None => None end.
Lemma chars_next_chars l l' : lx_chars l = lx_chars l' -> lx_chars (chars_next l) = lx_chars (chars_next l').
Proof. destruct l as [s ? ? ? ?], l' as [s' ? ? ? ?]. cbn. intros ->. destruct s'; reflexivity. Qed.
Lemma chars_advance_chars n : forall l l', lx_chars l = lx_chars l' -> lx_chars (chars_advance n l) = lx_chars (chars_advance n l').
Proof. induction n as [|n IH]; intros l l' H; cbn [chars_advance]; [exact H|]. apply IH, chars_next_chars, H. Qed.
Lemma skip_comment_shift s : forall p p', fst (skip_comment s p) = fst (skip_comment s p').
Proof.
  induction s as [|c s IH]; intros p p'; [reflexivity|]. cbn [skip_comment]. destruct s as [|d s]; [apply IH|]. destruct ((c =? 42)%N && (d =? 41)%N); [reflexivity|apply IH].
Qed.
Lemma chars_next_order l : (lx_last l <= lx_pos l)%N -> (lx_last (chars_next l) <= lx_pos (chars_next l))%N.
Proof. destruct l as [[|c s] ? ? ? ?]; cbn; lia. Qed.
Lemma chars_advance_order n : forall l, (lx_last l <= lx_pos l)%N -> (lx_last (chars_advance n l) <= lx_pos (chars_advance n l))%N.
Proof. induction n as [|n IH]; intros l H; cbn [chars_advance]; [exact H|]. apply IH, chars_next_order, H. Qed.
Lemma skip_comment_pos s : forall p, (p <= snd (skip_comment s p))%N.
Proof.
  induction s as [|c s IH]; intro p; [cbn; lia|]. cbn [skip_comment]. destruct s as [|d s]; [specialize (IH (p + len_utf8 c)%N); lia|].
  destruct ((c =? 42)%N && (d =? 41)%N); [cbn [snd]; lia|]. specialize (IH (p + len_utf8 c)%N). lia.
Qed.

(** one iteration, seen through the characters *)
Definition same_step (x y : step_result * nat) : Prop :=
  snd x = snd y /\ rest_of (fst x) = rest_of (fst y)
  /\ (forall l, after (fst x) = Some l -> in_order l) /\ (forall l, after (fst y) = Some l -> in_order l).
Lemma cstep_shift U l l' : lx_chars l = lx_chars l' -> in_order l -> in_order l' -> same_step (cstep U l) (cstep U l').
Proof.
  destruct l as [s p ln ch la], l' as [s' p' ln' ch' la']. cbn [lx_chars]. intros <- Ho Ho'. unfold in_order in Ho, Ho'. cbn [lx_last lx_pos] in *.
  unfold cstep. cbn [lx_chars lx_pos lx_line lx_character lx_last]. destruct s as [|c rest]; [repeat split; cbn; discriminate|].
  cbv zeta. cbn [lx_chars lx_pos lx_line lx_character lx_last]. replace (p <? la)%N with false by lia. replace (p' <? la')%N with false by lia.
  cbn [chars_next lx_chars lx_pos lx_line lx_character lx_last].
  set (l := mklx rest (p + len_utf8 c) ln (ch + (p - la)) p). set (l' := mklx rest (p' + len_utf8 c) ln' (ch' + (p' - la')) p').
  assert (Hl : in_order l) by (unfold in_order; cbn; lia). assert (Hl' : in_order l') by (unfold in_order; cbn; lia). assert (Hc : lx_chars l = lx_chars l') by reflexivity.
  assert (Skip : forall k a b, lx_chars a = lx_chars b -> in_order a -> in_order b -> same_step (SSkip a, k) (SSkip b, k)).
  { intros k a b H1 H2 H3. unfold same_step, rest_of. cbn [fst snd after]. rewrite H1. repeat split; intros ? [= <-]; assumption. }
  assert (Tok : forall k t e e' a b, lx_chars a = lx_chars b -> in_order a -> in_order b ->
    same_step (emit_tok (mkpos p ln ch) t (p + e) a, k) (emit_tok (mkpos p' ln' ch') t (p' + e') b, k)).
  { intros k t e e' a b H1 H2 H3. destruct (emit_tok_at p ln ch t (p + e)%N a ltac:(lia)) as (i & ->). destruct (emit_tok_at p' ln' ch' t (p' + e')%N b ltac:(lia)) as (j & ->).
    unfold same_step, rest_of. cbn [fst snd after]. rewrite H1. repeat split; intros ? [= <-]; assumption. }
  pose proof (chars_next_chars l l' Hc) as Hn. pose proof (chars_next_order l Hl) as Hno. pose proof (chars_next_order l' Hl') as Hno'.
  destruct (is_whitespace c). { destruct (c =? 10)%N; apply Skip; auto. }
  repeat match goal with |- same_step (if ?b then _ else _) _ => destruct b end; try (apply Tok; assumption).
  - rewrite <- Hn.
    pose proof (skip_comment_shift (lx_chars (chars_next l)) (lx_pos (chars_next l)) (lx_pos (chars_next l'))) as Hs.
    pose proof (skip_comment_pos (lx_chars (chars_next l)) (lx_pos (chars_next l))) as H1. pose proof (skip_comment_pos (lx_chars (chars_next l)) (lx_pos (chars_next l'))) as H2.
    destruct (skip_comment _ _) as [q x]. destruct (skip_comment _ (lx_pos (chars_next l'))) as [q' x']. cbn [fst snd] in *. subst q'.
    apply Skip; [reflexivity| |]; unfold in_order in *; cbn [lx_last lx_pos]; lia.
  - destruct (single_char_token c); [apply Tok; assumption|]. unfold cword_step. cbv zeta. rewrite <- Hc.
    assert (Word : forall k t e e' n, same_step
      (let '(r, k) := (emit_tok (mkpos p ln ch) t (p + e) (chars_nth n l), k + nth_reads n l) in (r, 2 + k))
      (let '(r, k) := (emit_tok (mkpos p' ln' ch') t (p' + e') (chars_nth n l'), k + nth_reads n l') in (r, 2 + k))).
    { intros k t e e' n. replace (nth_reads n l') with (nth_reads n l) by reflexivity. apply Tok; [apply chars_advance_chars, Hc|apply chars_advance_order, Hl|apply chars_advance_order, Hl']. }
    destruct (keyword_token U _); [|repeat split; cbn; discriminate]. destruct (assoc _ _); [apply Word|].
    destruct (other_token _) as [[t m]|].
    + destruct (1 <? byte_len m)%N; [apply Word|apply Tok; assumption].
    + rewrite <- (N.add_0_r p) at 2. rewrite <- (N.add_0_r p') at 2. apply Tok; assumption.
Qed.
Lemma clex_run_shift U : forall F F' l l', lx_chars l = lx_chars l' -> in_order l -> in_order l' ->
  List.length (lx_chars l) < F -> List.length (lx_chars l) < F' -> snd (clex_run U F l) = snd (clex_run U F' l').
Proof.
  induction F as [|F IH]; intros F' l l' Hc Ho Ho' HF HF'; [lia|]. destruct F' as [|F']; [lia|]. cbn [clex_run].
  destruct (cstep_shift U l l' Hc Ho Ho') as (H1 & H2 & H3 & H4). pose proof (cstep_cost U l) as C. destruct (cstep U l) as [r k]. destruct (cstep U l') as [r' k']. cbn [fst snd] in *. subst k'.
  specialize (C r k eq_refl). unfold rest_of in H2. unfold affordable in C.
  destruct (after r) as [l1|] eqn:E; destruct (after r') as [l1'|] eqn:E'; try discriminate; cbn in H2.
  - injection H2 as H2. specialize (IH F' l1 l1' H2 (H3 _ eq_refl) (H4 _ eq_refl) ltac:(lia) ltac:(lia)).
    destruct r; try discriminate; destruct r'; try discriminate; injection E as ->; injection E' as ->;
      destruct (clex_run U F l1) as [[? ?] ?]; destruct (clex_run U F' l1') as [[? ?] ?]; cbn [snd] in *; lia.
  - destruct r; try discriminate; destruct r'; try discriminate; reflexivity.
Qed.
(** The reads from the characters [s]: those of one iteration and the rest. *)
Definition step_reads (U : unicode) (s : str) : nat := snd (cstep U (lexer_new s)).
Lemma reads_step U s : lex_reads U s = step_reads U s + match rest_of (step U (lexer_new s)) with Some r => lex_reads U r | None => 0 end.
Proof.
  unfold lex_reads at 1, clex, step_reads. cbn [clex_run]. pose proof (cstep_step U (lexer_new s)) as E. pose proof (cstep_cost U (lexer_new s)) as C.
  destruct (cstep_shift U (lexer_new s) (lexer_new s) eq_refl (N.le_refl _) (N.le_refl _)) as (_ & _ & H3 & _).
  destruct (cstep U (lexer_new s)) as [r k]. cbn [fst snd] in *. subst r. specialize (C _ k eq_refl). unfold rest_of, affordable in *. cbn [lexer_new lx_chars] in C.
  destruct (step U (lexer_new s)) as [|l'|i l'|]; cbn [after] in *; [cbn; lia| | |cbn; lia].
  all: assert (Eq : snd (clex_run U (List.length s) l') = lex_reads U (lx_chars l'))
    by (unfold lex_reads, clex; apply clex_run_shift; [reflexivity|apply H3; reflexivity|apply N.le_refl|lia|cbn; lia]);
    destruct (clex_run U (List.length s) l') as [[? ?] ?]; cbn [snd] in *; lia.
Qed.
