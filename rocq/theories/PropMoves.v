(** Property C75: tokens and errors move with the text. *)
From Coq Require Import PeanoNat Lia Wf_nat.
From Verif Require Import Chars Lexer LexSpec LexerProofs LexStep LexSegment LexFacts LexWritten Ast Types Grammar Cfg Parser GrammarLink
  Emitter Contract Local Erase EraseFacts EmitErase PropLexer PropParser PropParse2.

(** ** Specification *)
(** After such a text the lexer stands outside of comments and string literals:
    all of them are closed.  [x] are the characters that the lexer drops after a
    string literal (C04): one for each continuation byte in it, none if it is ASCII. *)
Inductive settled : str -> Prop :=
| st_end : settled []
| st_comment c s : ~ occurs close_comment c -> settled s -> settled (open_comment ++ c ++ close_comment ++ s)
| st_string b x s : string_body b -> byte_len b = N.of_nat (List.length b + List.length x) -> settled s -> settled (34 :: b ++ 34 :: x ++ s)
| st_char c s : c <> 34 -> (forall r, c :: s <> open_comment ++ r) -> settled s -> settled (c :: s).

(** [i'] is the item [i], moved by [k] bytes and [n] lines; its columns are the
    same, except on the line [l] and before. *)
Definition moved (k n l : N) (i i' : item) : Prop :=
  item_token i' = item_token i
  /\ position (item_start i') = position (item_start i) + k /\ position (item_end i') = position (item_end i) + k
  /\ line (item_start i') = line (item_start i) + n /\ line (item_end i') = line (item_end i) + n
  /\ (l < line (item_start i) -> column (item_start i') = column (item_start i) /\ column (item_end i') = column (item_end i)).
(** Items before the offset [p] stay, the others move. *)
Definition moved_from (p k n l : N) (i i' : item) : Prop :=
  if position (item_start i) <? p then i' = i else moved k n l i i'.

(** ** Moving a segmentation *)
Lemma segmented_move U k n l pos ln b pr s is e : segmented U pos ln b pr s is e ->
  forall b' pr', (ln <= l \/ (b' = b + k /\ pr' = pr + k)) ->
  exists is', segmented U (pos + k) (ln + n) b' pr' s is' e /\ Forall2 (moved k n l) is is'.
Proof.
  induction 1 as [pos ln b pr|pos ln b pr s is e H IH|pos ln b pr c s is e Hws H10 H IH|pos ln b pr c s is e Hc H IH
    |pos ln b pr c Hc|pos ln b pr t x s is e Hat Hnb Hl H IH|pos ln b pr c s is e Hws Hoc Hnt Hnb H IH|pos ln b pr s Hbad];
    intros b' pr' Hs.
  - exists []. split; constructor.
  - destruct (IH (pos + k) (pos + k)) as (is' & I1 & I2); [auto|]. exists is'. split; [|exact I2]. apply sg_newline.
    replace (pos + k + 1) with (pos + 1 + k) by lia. replace (ln + n + 1) with (ln + 1 + n) by lia. exact I1.
  - destruct (IH b' (pos + k)) as (is' & I1 & I2); [tauto|]. exists is'. split; [|exact I2]. apply sg_space; [assumption|assumption|].
    replace (pos + k + len_utf8 c) with (pos + len_utf8 c + k) by lia. exact I1.
  - destruct (IH b' (pos + k)) as (is' & I1 & I2); [tauto|]. exists is'. split; [|exact I2]. apply sg_comment; [assumption|].
    replace (pos + k + byte_len (open_comment ++ c ++ close_comment)) with (pos + byte_len (open_comment ++ c ++ close_comment) + k) by lia. exact I1.
  - exists []. split; [apply sg_open_comment; assumption|constructor].
  - destruct (IH b' (pos + k)) as (is' & I1 & I2); [tauto|]. eexists. split.
    + apply sg_token; [eassumption|eassumption|eassumption|]. replace (pos + k + byte_len (token_text t ++ x)) with (pos + byte_len (token_text t ++ x) + k) by lia. exact I1.
    + constructor; [|exact I2]. unfold moved, item_start, item_end, item_token. cbn [fst snd position line column].
      do 5 (split; [reflexivity || lia|]). intro Hl'. destruct Hs as [Hs|[-> ->]]; [lia|]. split; lia.
  - destruct (IH b' (pos + k)) as (is' & I1 & I2); [tauto|]. eexists. split.
    + apply sg_unknown; [eassumption|eassumption|eassumption|eassumption|]. replace (pos + k + len_utf8 c) with (pos + len_utf8 c + k) by lia. exact I1.
    + constructor; [|exact I2]. unfold moved, item_start, item_end, item_token. cbn [fst snd position line column].
      do 5 (split; [reflexivity || lia|]). intro Hl'. destruct Hs as [Hs|[-> ->]]; [lia|]. split; lia.
  - exists []. split; [apply sg_panic; assumption|constructor].
Qed.
Lemma layout_skip U g n : layout g n -> forall pos ln b pr, exists b' pr', forall s is e,
  segmented U (pos + byte_len g) (ln + n) b' pr' s is e -> segmented U pos ln b pr (g ++ s) is e.
Proof.
  induction 1 as [|c g n Hc Hg IH|c g n Hc Hg IH]; intros pos ln b pr.
  - exists b, pr. intros s is e H. change (byte_len []) with 0 in H. rewrite !N.add_0_r in H. exact H.
  - destruct (N.eqb_spec c 10) as [->|Hn].
    + destruct (IH (pos + 1) (ln + 1) pos pos) as (b' & pr' & H). exists b', pr'. intros s is e Hs. cbn [app]. apply sg_newline, H.
      cbn [byte_len] in Hs. change (len_utf8 10) with 1 in Hs. replace (pos + 1 + byte_len g) with (pos + (1 + byte_len g)) by lia. replace (ln + 1 + n) with (ln + (n + 1)) by lia. exact Hs.
    + destruct (IH (pos + len_utf8 c) ln b pos) as (b' & pr' & H). exists b', pr'. intros s is e Hs. cbn [app]. apply sg_space; [assumption|assumption|]. apply H.
      cbn [byte_len] in Hs. rewrite <- N.add_assoc. exact Hs.
  - destruct (IH (pos + byte_len (open_comment ++ c ++ close_comment)) ln b pos) as (b' & pr' & H). exists b', pr'. intros s is e Hs.
    rewrite <- !app_assoc. apply sg_comment; [assumption|]. apply H.
    replace (pos + byte_len (open_comment ++ c ++ close_comment) + byte_len g) with (pos + byte_len (open_comment ++ c ++ close_comment ++ g)) by (rewrite !byte_len_app; lia). exact Hs.
Qed.

(** ** Settled texts *)
Lemma st_tail a s : settled (a :: s) -> a <> 34 -> (forall r, a :: s <> open_comment ++ r) -> settled s.
Proof.
  intros H Ha Ho. inversion H; subst; try contradiction; try assumption. exfalso. exact (Ho _ eq_refl).
Qed.
Lemma st_after_comment d s : settled (open_comment ++ d ++ close_comment ++ s) -> ~ occurs close_comment d -> settled s.
Proof.
  intros H Hd. remember (open_comment ++ d ++ close_comment ++ s) as z eqn:E.
  destruct H as [|d' s' Hd' Hs|b x s' Hb Ha Hs|a s' Ha Ho Hs].
  - discriminate E.
  - apply app_inv_head in E. destruct (comment_split d' s' d s Hd' Hd E) as [_ <-]. exact Hs.
  - discriminate E.
  - exfalso. exact (Ho _ E).
Qed.
Lemma st_not_open d : settled (open_comment ++ d) -> ~ occurs close_comment d -> False.
Proof.
  intros H Hd. remember (open_comment ++ d) as z eqn:E. destruct H as [|d' s' Hd' Hs|b x s' Hb Ha Hs|a s' Ha Ho Hs]; try discriminate E.
  - apply app_inv_head in E. apply Hd. exists d', s'. symmetry. exact E.
  - exact (Ho _ E).
Qed.
Lemma st_string_inv s : settled (34 :: s) -> exists b x s', s = b ++ 34 :: x ++ s' /\ string_body b /\ byte_len b = N.of_nat (List.length b + List.length x) /\ settled s'.
Proof.
  intro H. inversion H as [E|d' s' Hd' Hs E|b x s' Hb Ha Hs E|a s' Ha Ho Hs E]; [|contradiction]. eauto 8.
Qed.
Lemma st_skip w : forall s, settled (w ++ s) -> Forall (fun x => x <> 34 /\ x <> 40) w -> settled s.
Proof.
  induction w as [|a w IH]; intros s H Hw; [exact H|]. inversion Hw as [|? ? [H1 H2] Hw']; subst. apply IH; [|assumption].
  cbn [app] in H. apply (st_tail a); [exact H|exact H1|]. intros r E. apply H2. change (open_comment ++ r) with (40 :: 42 :: r) in E. injection E as E _. exact E.
Qed.

(** The item starts before the offset [q] and does not end after it. *)
Definition before (q : N) (i : item) : Prop := position (item_start i) < q /\ position (item_end i) <= q.
Section Extend.
  Context (U : unicode) (c : char) (Hc : is_whitespace c = true).

  (** After a settled text the lexer stands at the white space, whatever follows;
      or it has panicked. *)
  Lemma seg_prefix : forall n p, (List.length p <= n)%nat -> settled p -> forall pos ln b pr,
    (exists is ln' b' pr', ln' <= ln + count_newlines p /\ Forall (before (pos + byte_len p)) is /\
       forall r is' e', segmented U (pos + byte_len p) ln' b' pr' (c :: r) is' e' -> segmented U pos ln b pr (p ++ c :: r) (is ++ is') e')
    \/ (exists is, Forall (before (pos + byte_len p)) is /\ forall r, segmented U pos ln b pr (p ++ c :: r) is LPanic).
  Proof.
    induction n as [n IH] using (well_founded_induction Wf_nat.lt_wf). intros p Hn Hq pos ln b pr.
    assert (Lem : forall q, (List.length q < List.length p)%nat -> settled q -> forall pos ln b pr,
      (exists is ln' b' pr', ln' <= ln + count_newlines q /\ Forall (before (pos + byte_len q)) is /\
       forall r is' e', segmented U (pos + byte_len q) ln' b' pr' (c :: r) is' e' -> segmented U pos ln b pr (q ++ c :: r) (is ++ is') e')
      \/ (exists is, Forall (before (pos + byte_len q)) is /\ forall r, segmented U pos ln b pr (q ++ c :: r) is LPanic)).
    { intros q Hl Hq'. apply (IH (List.length q)); [lia|lia|exact Hq']. }
    destruct p as [|a0 p0].
    { left. exists [], ln, b, pr. cbn [app]. split; [lia|]. split; [constructor|]. intros r is' e' H. change (byte_len []) with 0 in H. rewrite N.add_0_r in H. exact H. }
    assert (Hpos : forall z q, a0 :: p0 = z ++ q -> byte_len (a0 :: p0) = byte_len z + byte_len q) by (intros z q ->; apply byte_len_app).
    assert (Hcnt : forall z q, a0 :: p0 = z ++ q -> count_newlines q <= count_newlines (a0 :: p0)).
    { intros z q ->. unfold count_newlines. rewrite count_occ_app. lia. }
    (* [z] is the first piece, [i] its items *)
    assert (Step : forall z q i ln0 b0 pr0, a0 :: p0 = z ++ q -> z <> [] -> settled q -> ln0 <= ln + count_newlines z -> Forall (fun i => position (item_start i) = pos /\ position (item_end i) <= pos + byte_len z) i ->
      (forall r is' e', segmented U (pos + byte_len z) ln0 b0 pr0 (q ++ c :: r) is' e' -> segmented U pos ln b pr ((z ++ q) ++ c :: r) (i ++ is') e') ->
      (exists is ln' b' pr', ln' <= ln + count_newlines (a0 :: p0) /\ Forall (before (pos + byte_len (a0 :: p0))) is /\
       forall r is' e', segmented U (pos + byte_len (a0 :: p0)) ln' b' pr' (c :: r) is' e' -> segmented U pos ln b pr ((a0 :: p0) ++ c :: r) (is ++ is') e')
      \/ (exists is, Forall (before (pos + byte_len (a0 :: p0))) is /\ forall r, segmented U pos ln b pr ((a0 :: p0) ++ c :: r) is LPanic)).
    { intros z q i ln0 b0 pr0 Ez Nz Hq0 Hl0 Hi HS. assert (Hz : 0 < byte_len z) by (destruct z as [|d z]; [congruence|]; cbn [byte_len]; unfold len_utf8; repeat (destruct (_ <? _); try lia)).
      assert (Hc2 : count_newlines (a0 :: p0) = count_newlines z + count_newlines q) by (rewrite Ez; unfold count_newlines; rewrite count_occ_app; lia).
      assert (Hi2 : Forall (before (pos + byte_len (a0 :: p0))) i).
      { eapply Forall_impl; [|exact Hi]. cbv beta. intros x [H1 H2]. unfold before. rewrite (Hpos _ _ Ez). lia. }
      destruct (Lem q) with (pos := pos + byte_len z) (ln := ln0) (b := b0) (pr := pr0) as [(is & ln' & b' & pr' & L & F & H)|(is & F & H)]; [rewrite Ez, app_length; destruct z; [congruence|cbn; lia]|exact Hq0| |].
      - left. exists (i ++ is), ln', b', pr'. split; [lia|]. split.
        + apply Forall_app. split; [exact Hi2|]. eapply Forall_impl; [|exact F]. intros x [H1 H2]. unfold before. rewrite (Hpos _ _ Ez). lia.
        + intros r is' e' Hs. rewrite Ez, <- (app_assoc i). apply HS. apply H. rewrite (Hpos _ _ Ez) in Hs. rewrite <- N.add_assoc. exact Hs.
      - right. exists (i ++ is). split.
        + apply Forall_app. split; [exact Hi2|]. eapply Forall_impl; [|exact F]. intros x [H1 H2]. unfold before. rewrite (Hpos _ _ Ez). lia.
        + intro r. rewrite Ez. apply HS. apply H. }
    destruct (segmented_exists U ((a0 :: p0) ++ [c]) pos ln b pr) as (is & e & H & _). remember ((a0 :: p0) ++ [c]) as s eqn:E.
    destruct H as [pos ln b pr|pos ln b pr s is e H|pos ln b pr a s is e Hws H10 H|pos ln b pr d s is e Hd H
      |pos ln b pr d Hd|pos ln b pr t x s is e Hat Hnb Hl H|pos ln b pr a s is e Hws Hoc Hnt Hnb H|pos ln b pr s Hbad].
    - discriminate E.
    - injection E as <- ->. apply (Step [10] p0 [] (ln + 1) pos pos); [reflexivity|discriminate| |change (count_newlines [10]) with 1; lia|constructor|].
      { apply (st_tail 10); [exact Hq|discriminate|discriminate]. }
      intros r is' e' Hs. cbn [app]. apply sg_newline. exact Hs.
    - injection E as <- ->. apply (Step [a] p0 [] ln b pos); [reflexivity|discriminate| |lia|constructor|].
      { apply (st_tail a); [exact Hq| |intros z; exact (ws_not_open _ _ z Hws)]. intros ->. discriminate Hws. }
      intros r is' e' Hs. cbn [app]. apply sg_space; [assumption|assumption|]. cbn [byte_len] in Hs. rewrite N.add_0_r in Hs. exact Hs.
    - (* a closed comment *)
      assert (Ep : exists s', s = s' ++ [c] /\ a0 :: p0 = open_comment ++ d ++ close_comment ++ s').
      { destruct (exists_last (l := s)) as (s' & z & Es).
        - intros ->. rewrite app_nil_r in E. rewrite app_assoc in E.
          change close_comment with ([42] ++ [41]) in E. rewrite app_assoc in E. apply app_inj_tail in E. destruct E as [_ E].
          rewrite <- E in Hc. discriminate Hc.
        - subst s. exists s'. rewrite !app_assoc in E. apply app_inj_tail in E. destruct E as [<- ->]. rewrite <- !app_assoc. auto. }
      destruct Ep as (s' & -> & Ep). apply (Step (open_comment ++ d ++ close_comment) s' [] ln b pos); [rewrite Ep, <- !app_assoc; reflexivity|discriminate| |lia|constructor|].
      { rewrite Ep in Hq. exact (st_after_comment d s' Hq Hd). }
      intros r is' e' Hs. rewrite <- !app_assoc. apply sg_comment; assumption.
    - (* no open comment *)
      assert (Ep : exists d', d = d' ++ [c] /\ a0 :: p0 = open_comment ++ d').
      { destruct (exists_last (l := d)) as (d' & z & Ed).
        - intros ->. rewrite app_nil_r in E. change open_comment with ([40] ++ [42]) in E. apply app_inj_tail in E. destruct E as [_ E].
          rewrite <- E in Hc. discriminate Hc.
        - subst d. exists d'. rewrite app_assoc in E. apply app_inj_tail in E. destruct E as [<- ->]. auto. }
      destruct Ep as (d' & -> & Ep). rewrite Ep in Hq. exfalso. apply (st_not_open d' Hq). intros (u & v & ->). apply Hd. exists u, (v ++ [c]). rewrite <- !app_assoc. reflexivity.
    - (* a token *)
      destruct (token_at_prefix _ _ _ Hat) as (Hne & _).
      assert (Cases : not_string t \/ exists bb, t = TStringLiteral bb) by (destruct t; cbn; eauto).
      destruct Cases as [Hns|(bb & ->)].
      + assert (x = []) as -> by (destruct t; exact Hl || destruct Hns). cbn [app] in *.
        change (a0 :: p0 ++ [c]) with ((a0 :: p0) ++ [c]) in E.
        destruct (split_ws c Hc (token_text t) s (a0 :: p0) [] (token_solid _ _ _ Hat Hns) E) as (p' & Ep & ->).
        apply (Step (token_text t) p' [(mkpos pos ln (pr - b), t, mkpos (pos + byte_len (token_text (t))) ln (pr - b + byte_len (token_text (t))))] ln b pos); [exact Ep|exact Hne| |lia|constructor; [split; [reflexivity|cbn -[byte_len]; lia]|constructor]|].
        * rewrite Ep in Hq. destruct (token_eq_paren t) as [-> |Hnp].
          -- apply (st_tail 40); [exact Hq|discriminate|]. intros q Eq. apply (open_paren_follow U _ Hat Hnb (q ++ [c])).
             cbn [token_text app] in *. rewrite app_assoc, <- Eq. reflexivity.
          -- exact (st_skip _ _ Hq (token_calm _ _ _ Hat Hns Hnp)).
        * intros r is' e' Hs. rewrite <- app_assoc. cbn [app].
          apply (sg_token U pos ln b pr t [] (p' ++ c :: r)); [| |destruct t; try exact Hl; destruct Hns|rewrite app_nil_r; exact Hs]; cbn [app]; rewrite app_assoc in *.
          -- exact (token_at_ws U c Hc _ _ _ _ Hat Hns).
          -- intro Hb. apply Hnb. exact (bad_word_ws U c Hc _ _ _ Hb).
      + destruct (string_first _ _ _ Hat) as (q & Eq). rewrite Eq in E. cbn [app] in E. injection E as <- E.
        destruct (st_string_inv p0 Hq) as (b0 & x0 & s' & -> & Hb0 & Ha & Hq').
        assert (Hstr2 : forall z, token_at U (34 :: b0 ++ 34 :: z) (TStringLiteral (34 :: b0 ++ [34]))) by (intro; apply ta_string, Hb0).
        assert (Et : TStringLiteral bb = TStringLiteral (34 :: b0 ++ [34])).
        { apply (token_at_unique U _ _ _ Hat); [|exact Hnb]. rewrite Eq, E, <- app_assoc. apply Hstr2. }
        injection Et as ->.
        apply (Step (34 :: b0 ++ 34 :: x0) s' [(mkpos pos ln (pr - b), TStringLiteral (34 :: b0 ++ [34]), mkpos (pos + byte_len (token_text (TStringLiteral (34 :: b0 ++ [34])))) ln (pr - b + byte_len (token_text (TStringLiteral (34 :: b0 ++ [34])))))] ln b pos);
          [cbn [app]; rewrite <- app_assoc; reflexivity|discriminate|exact Hq'|lia| |].
        { constructor; [|constructor]. split; [reflexivity|]. cbn [item_end fst snd position token_text].
          replace (34 :: b0 ++ 34 :: x0) with ((34 :: b0 ++ [34]) ++ x0) by (cbn [app]; rewrite <- app_assoc; reflexivity). rewrite byte_len_app. lia. }
        intros r is' e' Hs.
        pose proof (sg_token U pos ln b pr (TStringLiteral (34 :: b0 ++ [34])) x0 (s' ++ c :: r) is' e') as Sg. cbn [token_text app] in Sg |- *. rewrite <- !app_assoc in Sg |- *. cbn [app] in Sg |- *.
        apply Sg; [apply Hstr2|apply not_bad_nonword; reflexivity| |exact Hs].
        left. cbn [List.length byte_len]. rewrite app_length, byte_len_app. cbn [List.length byte_len]. change (len_utf8 34) with 1. lia.
    - (* an unknown character *)
      cbn [app] in E. injection E as <- ->.
      assert (Ha : a <> 34).
      { intros ->. destruct (st_string_inv p0 Hq) as (b0 & x0 & s' & -> & Hb0 & _). apply (Hnt (TStringLiteral (34 :: b0 ++ [34]))).
        rewrite <- app_assoc. apply ta_string, Hb0. }
      apply (Step [a] p0 [(mkpos pos ln (pr - b), TUnknown, mkpos pos ln (pr - b))] ln b pos); [reflexivity|discriminate| |lia|constructor; [split; [reflexivity|cbn -[byte_len]; lia]|constructor]|].
      { apply (st_tail a); [exact Hq|exact Ha|]. intros r' E. apply (Hoc (r' ++ [c])). rewrite app_assoc, <- E. reflexivity. }
      intros r is' e' Hs. cbn [app]. apply sg_unknown; [exact Hws| | | |cbn [byte_len] in Hs; rewrite N.add_0_r in Hs; exact Hs].
      + intros r' E. change (open_comment ++ r') with (40 :: 42 :: r') in E. injection E as -> E.
        destruct p0 as [|z p]; cbn [app] in E; injection E as E1 E; [rewrite E1 in Hc; discriminate Hc|]. subst z.
        apply (Hoc (p ++ [c])). reflexivity.
      + intros t Ht. assert (Cases : not_string t \/ exists bb, t = TStringLiteral bb) by (destruct t; cbn; eauto).
        destruct Cases as [Hns|(bb & ->)].
        * apply (Hnt t). exact (token_at_ws U c Hc (a :: p0) r [] t Ht Hns).
        * destruct (string_first _ _ _ Ht) as (q & Eq). injection Eq as -> _. congruence.
      + intro Hb. apply Hnb. exact (bad_word_ws U c Hc (a :: p0) r [] Hb).
    - (* a word at which the lexer panics *)
      subst s. right. exists []. split; [constructor|]. intro r. apply sg_panic. exact (bad_word_ws U c Hc (a0 :: p0) [] r Hbad).
  Qed.
End Extend.

Lemma segmented_from U pos ln b pr s is e : segmented U pos ln b pr s is e -> Forall (fun i => pos <= position (item_start i)) is.
Proof.
  induction 1 as [pos ln b pr|pos ln b pr s is e H IH|pos ln b pr c s is e Hws H10 H IH|pos ln b pr c s is e Hc H IH
    |pos ln b pr c Hc|pos ln b pr t x s is e Hat Hnb Hl H IH|pos ln b pr c s is e Hws Hoc Hnt Hnb H IH|pos ln b pr s Hbad];
    try (constructor; [unfold item_start; cbn; lia|]); try constructor; (eapply Forall_impl; [|exact IH]); cbv beta; intros i Hi; lia.
Qed.
Lemma Forall2_same {A} (P : A -> Prop) (R : A -> A -> Prop) l : Forall P l -> (forall x, P x -> R x x) -> Forall2 R l l.
Proof. induction 1; intro H'; constructor; auto. Qed.
Lemma Forall2_weak {A} (P : A -> Prop) (R R' : A -> A -> Prop) l l' : Forall P l -> Forall2 R l l' -> (forall x y, P x -> R x y -> R' x y) -> Forall2 R' l l'.
Proof. intros H H2 HR. revert H. induction H2; intro HF; inversion HF; subst; constructor; auto. Qed.
Lemma moved_tokens p k n l is is' : Forall2 (moved_from p k n l) is is' -> map item_token is = map item_token is'.
Proof.
  induction 1 as [|i i' is is' H _ IH]; [reflexivity|]. cbn [map]. rewrite IH. f_equal. unfold moved_from in H.
  destruct (_ <? _); [subst i'; reflexivity|]. destruct H as [H _]. symmetry. exact H.
Qed.

Lemma tokens_move U p c g n s is e : is_whitespace c = true -> settled p -> layout g n -> lex U (p ++ c :: s) = (is, e) ->
  exists is', lex U (p ++ c :: g ++ s) = (is', e)
    /\ Forall2 (fun i i' => (before (byte_len p) i /\ i' = i)
         \/ (byte_len p < position (item_start i) /\ moved (byte_len g) n (count_newlines (p ++ [c])) i i')) is is'.
Proof.
  intros Hc Hp Hg HL. apply lex_iff_segmented in HL. set (l := count_newlines (p ++ [c])).
  destruct (seg_prefix U c Hc _ p (le_n _) Hp 0 0 0 0) as [(is0 & ln' & b' & pr' & Hln & HF & HS)|(is0 & HF & HS)]; rewrite N.add_0_l in *.
  2: { destruct (segmented_unique U _ _ _ _ _ _ _ _ _ _ (le_n _) (N.le_refl 0) (N.le_refl 0) HL (HS s)) as [-> ->].
       exists is0. split; [apply lex_iff_segmented, HS|]. apply (Forall2_same _ _ _ HF). auto. }
  assert (Hstep : exists lnc bc, lnc <= l /\ forall r is' e', segmented U (byte_len p + len_utf8 c) lnc bc (byte_len p) r is' e' ->
      segmented U 0 0 0 0 (p ++ c :: r) (is0 ++ is') e').
  { unfold l, count_newlines in *. rewrite count_occ_app. cbn [count_occ]. destruct (N.eqb_spec c 10) as [->|Hn].
    - exists (ln' + 1), (byte_len p). split; [destruct (N.eq_dec 10 10); lia|]. intros r is' e' H. apply HS. apply sg_newline. exact H.
    - exists ln', b'. split; [lia|]. intros r is' e' H. apply HS. apply sg_space; assumption. }
  destruct Hstep as (lnc & bc & Hle & Hst). destruct (segmented_exists U s (byte_len p + len_utf8 c) lnc bc (byte_len p)) as (is1 & e1 & H1 & _).
  destruct (segmented_unique U _ _ _ _ _ _ _ _ _ _ (le_n _) (N.le_refl 0) (N.le_refl 0) HL (Hst _ _ _ H1)) as [-> ->].
  destruct (layout_skip U g n Hg (byte_len p + len_utf8 c) lnc bc (byte_len p)) as (b2 & pr2 & Hsk).
  destruct (segmented_move U (byte_len g) n l _ _ _ _ _ _ _ H1 b2 pr2 (or_introl Hle)) as (is1' & H1' & HM).
  exists (is0 ++ is1'). split; [apply lex_iff_segmented, Hst, Hsk, H1'|]. apply Forall2_app.
  - apply (Forall2_same _ _ _ HF). auto.
  - apply (Forall2_weak _ _ _ _ _ (segmented_from _ _ _ _ _ _ _ _ H1) HM). intros x y Hx Hm. right. split; [|exact Hm].
    pose proof (len_utf8_pos c). lia.
Qed.

(** ** C75 *)
(** Writing white space and comments after a white space character outside of
    comments and string literals: the tokens before stay where they are, the
    tokens after move by the length of the inserted text and its lines; the end
    of the token sequence is the same. *)
Theorem C75_tokens : forall U p c g n s is e,
  is_whitespace c = true -> settled p -> layout g n ->
  lex U (p ++ c :: s) = (is, e) ->
  exists is', lex U (p ++ c :: g ++ s) = (is', e)
    /\ Forall2 (moved_from (byte_len p) (byte_len g) n (count_newlines (p ++ [c]))) is is'.
Proof.
  intros U p c g n s is e Hc Hp Hg HL. destruct (tokens_move U p c g n s is e Hc Hp Hg HL) as (is' & HL' & HM). exists is'. split; [exact HL'|].
  clear -HM. induction HM as [|i i' is is' H _ IH]; constructor; [|exact IH]. unfold moved_from. destruct H as [[[H _] ->] |[H Hm]].
  - rewrite (proj2 (N.ltb_lt _ _) H). reflexivity.
  - rewrite (proj2 (N.ltb_ge _ _)); [exact Hm|lia].
Qed.
(** At the front of the text all tokens move. *)
Theorem C75_front : forall U g n s is e,
  layout g n -> lex U s = (is, e) ->
  exists is', lex U (g ++ s) = (is', e) /\ Forall2 (moved (byte_len g) n 0) is is'.
Proof.
  intros U g n s is e Hg HL. apply lex_iff_segmented in HL. destruct (layout_skip U g n Hg 0 0 0 0) as (b2 & pr2 & Hsk).
  destruct (segmented_move U (byte_len g) n 0 _ _ _ _ _ _ _ HL b2 pr2 (or_introl (N.le_refl 0))) as (is' & H' & HM).
  exists is'. split; [apply lex_iff_segmented, Hsk, H'|exact HM].
Qed.

(** What the API answers: the same but for the position of the error, which
    moves as the tokens do. *)
Definition moved_answer (R : item -> item -> Prop) (a a' : api contract) : Prop :=
  match a, a' with
  | RError (ParseErrorToken i), RError (ParseErrorToken i') => R i i'
  | RError (ParseErrorToken _), _ | _, RError (ParseErrorToken _) => False
  | _, _ => a' = a
  end.
Lemma Forall2_nth {A} (R : A -> A -> Prop) l l' n x x' : Forall2 R l l' -> nth_error l n = Some x -> nth_error l' n = Some x' -> R x x'.
Proof.
  intro H. revert n. induction H as [|a a' l l' Ha _ IH]; intros [|n] E E'; try discriminate; cbn in *.
  - congruence.
  - eauto.
Qed.
Lemma from_str_moved U debug text text' is is' e (R : item -> item -> Prop) :
  lex U text = (is, e) -> lex U text' = (is', e) -> map item_token is = map item_token is' -> Forall2 R is is' ->
  moved_answer R (from_str U debug text) (from_str U debug text').
Proof.
  intros H H' Ht HR. pose proof (C15_from_str_depends_on_tokens U debug text text') as Hsh.
  unfold tokens_of in Hsh. rewrite H, H', Ht in Hsh. specialize (Hsh eq_refl). revert Hsh.
  unfold from_str, parse_str. rewrite H, H'.
  pose proof (C15_positions_do_not_matter Program is is' e Ht) as Ho.
  destruct (parse Program is e) as [v|i| | |], (parse Program is' e) as [v'|i'| | |]; try contradiction; try reflexivity; cbn.
  - intro Hs. cbn in Ho. change (erase Program) with e_program in Ho.
    assert (E : emit_api debug v' = emit_api debug v).
    { unfold emit_api. rewrite <- (emit_erase debug v), <- (emit_erase debug v'), Ho. reflexivity. }
    rewrite E. unfold emit_api. destruct (emit_program debug v); reflexivity.
  - intros _. cbn in Ho. destruct Ho as (_ & m & E1 & E2). exact (Forall2_nth _ _ _ _ _ _ HR E1 E2).
Qed.
Theorem C75_answers : forall U debug p c g n s,
  is_whitespace c = true -> settled p -> layout g n ->
  moved_answer (moved_from (byte_len p) (byte_len g) n (count_newlines (p ++ [c])))
    (from_str U debug (p ++ c :: s)) (from_str U debug (p ++ c :: g ++ s)).
Proof.
  intros U debug p c g n s Hc Hp Hg. destruct (lex U (p ++ c :: s)) as [is e] eqn:HL.
  destruct (C75_tokens U p c g n s is e Hc Hp Hg HL) as (is' & HL' & HM).
  exact (from_str_moved U debug _ _ is is' e _ HL HL' (moved_tokens _ _ _ _ _ _ HM) HM).
Qed.
Theorem C75_answers_front : forall U debug g n s, layout g n ->
  moved_answer (moved (byte_len g) n 0) (from_str U debug s) (from_str U debug (g ++ s)).
Proof.
  intros U debug g n s Hg. destruct (lex U s) as [is e] eqn:HL.
  destruct (C75_front U g n s is e Hg HL) as (is' & HL' & HM).
  apply (from_str_moved U debug _ _ is is' e _ HL HL'); [|exact HM].
  clear -HM. induction HM as [|i i' is is' [H _] _ IH]; [reflexivity|]. cbn [map]. congruence.
Qed.

(** ** Witnesses *)
(** The text [scilla_version 0 ?], with an empty line and a comment put after the
    first space: the error moves from line 0 to line 1 and by 6 bytes. *)
Example C75_witness :
  let p := lit "scilla_version" in let g := [10] ++ lit "(*x*)" in let s := lit "0 ?" in
  settled p /\ layout g 1
  /\ (exists i, from_str U_none no_debug (p ++ 32 :: s) = RError (ParseErrorToken i) /\ position (item_start i) = 17 /\ line (item_start i) = 0)
  /\ (exists i, from_str U_none no_debug (p ++ 32 :: g ++ s) = RError (ParseErrorToken i) /\ position (item_start i) = 23 /\ line (item_start i) = 1).
Proof.
  cbv zeta. split; [|split; [|split]].
  - cbn. repeat (apply st_char; [discriminate|discriminate|]). apply st_end.
  - cbn. apply (lay_space 10 _ 0); [reflexivity|]. apply (lay_comment (lit "x") [] 0); [|constructor].
    intros (u & v & E). destruct u as [|? [|? ?]]; discriminate E.
  - eexists. split; [vm_compute; reflexivity|]. split; reflexivity.
  - eexists. split; [vm_compute; reflexivity|]. split; reflexivity.
Qed.
(** After an ASCII string literal nothing is dropped. *)
Lemma st_string_ascii b s : string_body b -> ascii_str b = true -> settled s -> settled (34 :: b ++ 34 :: s).
Proof.
  intros Hb Ha Hs. apply (st_string b [] s Hb); [|exact Hs]. rewrite (byte_len_ascii b Ha). cbn [List.length]. f_equal. lia.
Qed.
(** [event "é"  ] is settled - the lexer drops the first space after the literal -
    and so is it with the space that the lexer sees. *)
Example C75_settled_ex : settled (lit "a " ++ 34 :: [233] ++ 34 :: [32] ++ lit " ").
Proof.
  cbn. apply st_char; [discriminate|discriminate|]. apply st_char; [discriminate|discriminate|]. apply (st_string [233] [32] [32]).
  - apply sb_char; [discriminate|discriminate|constructor].
  - reflexivity.
  - apply st_char; [discriminate|discriminate|apply st_end].
Qed.
(** A quote in a comment opens no string literal, one after it does. *)
Example C75_settled : settled (lit "(* "" *) """) -> False.
Proof.
  intro H. apply (st_after_comment (lit " "" ") (lit " """)) in H; [|intros (u & v & E); do 5 (destruct u as [|? u]; try discriminate E)].
  apply st_tail in H; [|discriminate|discriminate]. destruct (st_string_inv _ H) as (b & x & s & E & _). destruct b; discriminate E.
Qed.
(** Inside a string literal the claim is false: the inserted comment is a part of the string. *)
Theorem C75_inside_refuted : exists p c g n s, is_whitespace c = true /\ layout g n /\
  ~ moved_answer (moved_from (byte_len p) (byte_len g) n (count_newlines (p ++ [c])))
      (from_str U_none no_debug (p ++ c :: s)) (from_str U_none no_debug (p ++ c :: g ++ s)).
Proof.
  exists (lit "scilla_version 0 """), 32, (lit "(*x*)"), 0, (lit """"). split; [reflexivity|]. split.
  - apply (lay_comment (lit "x") [] 0); [|constructor]. intros (u & v & E). destruct u as [|? [|? ?]]; discriminate E.
  - vm_compute. intro H. discriminate H.
Qed.
(** In the characters that the lexer drops after a literal that is not ASCII the
    claim is false as well: here it drops the space and the opening parenthesis. *)
Theorem C75_dropped_refuted : exists p c g n s, is_whitespace c = true /\ (exists b, p = 34 :: b ++ [34] /\ string_body b) /\ layout g n /\
  map item_token (fst (lex U_none (p ++ c :: g ++ s))) <> map item_token (fst (lex U_none (p ++ c :: s))).
Proof.
  exists (34 :: [233; 233] ++ [34]), 32, (lit "(*x*)"), 0, (lit "  "). split; [reflexivity|]. split; [|split].
  - exists [233; 233]. split; [reflexivity|]. apply sb_char; [discriminate|discriminate|]. apply sb_char; [discriminate|discriminate|constructor].
  - apply (lay_comment (lit "x") [] 0); [|constructor]. intros (u & v & E). destruct u as [|? [|? ?]]; discriminate E.
  - vm_compute. discriminate.
Qed.
(** On the line of the insertion columns are not moved by the length of the inserted text. *)
Theorem C75_columns_refuted : exists p c g s is is' i i', is_whitespace c = true /\ settled p /\ layout g 0
  /\ lex U_none (p ++ c :: s) = (is, LEof) /\ lex U_none (p ++ c :: g ++ s) = (is', LEof)
  /\ nth_error is 1 = Some i /\ nth_error is' 1 = Some i'
  /\ column (item_start i') <> column (item_start i) + byte_len g.
Proof.
  exists (lit "a"), 32, (lit "(*x*)"), (lit "b"). eexists. eexists. eexists. eexists. split; [reflexivity|]. split; [|split].
  - apply st_char; [discriminate|discriminate|apply st_end].
  - apply (lay_comment (lit "x") [] 0); [|constructor]. intros (u & v & E). destruct u as [|? [|? ?]]; discriminate E.
  - split; [vm_compute; reflexivity|]. split; [vm_compute; reflexivity|]. split; [reflexivity|]. split; [reflexivity|]. vm_compute. discriminate.
Qed.
