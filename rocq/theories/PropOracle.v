(** C43 (classes of characters) and C49: the answer depends on the text only. *)
From Verif Require Import Chars Lexer LexSpec LexerProofs Ast Grammar Parser Types Visitor Emitter Contract EmitOracle PropParse2.

Ltac cls := split;
  [let H := fresh in intro H; unfold is_digit, is_lower, is_upper, is_hex, is_word, is_whitespace, is_digit, is_lower, is_upper, in_range in H;
   repeat rewrite ?orb_true_iff, ?andb_true_iff, ?N.leb_le, ?N.eqb_eq in H; vm_compute; lia
  |let H := fresh in intro H; vm_compute in H; repeat (destruct H as [<- | H]; [reflexivity|]); contradiction].

(** ** C43: the character classes of the token rules, listed. *)
Theorem C43_character_classes (c : char) :
  (is_digit c = true <-> In c (lit "0123456789"))
  /\ (is_lower c = true <-> In c (lit "abcdefghijklmnopqrstuvwxyz"))
  /\ (is_upper c = true <-> In c (lit "ABCDEFGHIJKLMNOPQRSTUVWXYZ"))
  /\ (is_hex c = true <-> In c (lit "0123456789abcdefABCDEF"))
  /\ (is_word c = true <-> In c (lit "abcdefghijklmnopqrstuvwxyzABCDEFGHIJKLMNOPQRSTUVWXYZ0123456789_"))
  /\ (is_whitespace c = true <->
      In c [9; 10; 11; 12; 13; 32; 133; 160; 5760; 8192; 8193; 8194; 8195; 8196; 8197; 8198; 8199; 8200; 8201; 8202;
            8232; 8233; 8239; 8287; 12288]).
Proof.
  refine (conj _ (conj _ (conj _ (conj _ (conj _ _))))); cls.
Qed.

(** ** C49 *)
(** Two versions of the Unicode tables that agree on the characters of a text. *)
Definition agree_on (U U' : unicode) (s : str) : Prop := forall c, In c s -> 128 <= c ->
  uni_alphabetic U c = uni_alphabetic U' c /\ uni_numeric U c = uni_numeric U' c.

Lemma agree_char U U' s c : agree_on U U' s -> In c s ->
  is_alphanumeric U c = is_alphanumeric U' c /\ is_numeric U c = is_numeric U' c.
Proof.
  intros H Hc. unfold is_alphanumeric, is_alphabetic, is_numeric. destruct (c <? 128) eqn:Hl; [auto|].
  apply N.ltb_ge in Hl. destruct (H c Hc Hl) as [-> ->]. auto.
Qed.
Lemma agree_incl U U' s t : agree_on U U' s -> incl t s -> agree_on U U' t.
Proof. intros H Hi c Hc. apply H, Hi, Hc. Qed.
Lemma agree_alnum U U' s c : agree_on U U' s -> In c s -> is_alnum_under U c = is_alnum_under U' c.
Proof. intros H Hc. unfold is_alnum_under. now rewrite (proj1 (agree_char _ _ _ _ H Hc)). Qed.

Lemma word_index_agree U U' s : agree_on U U' s -> forall i, word_index_from U i s = word_index_from U' i s.
Proof.
  induction s as [|c s IH]; intros H i; [reflexivity|]. cbn [word_index_from].
  rewrite (agree_alnum _ _ _ c H (or_introl eq_refl)), IH; [reflexivity|]. eapply agree_incl; [exact H|apply incl_tl, incl_refl].
Qed.

Lemma next_incl l : incl (lx_chars (chars_next l)) (lx_chars l).
Proof. destruct l as [[|c r] p n k a]; [apply incl_refl|apply incl_tl, incl_refl]. Qed.
Lemma advance_incl n : forall l, incl (lx_chars (chars_advance n l)) (lx_chars l).
Proof. induction n as [|n IH]; intro l; [apply incl_refl|]. cbn [chars_advance]. eapply incl_tran; [apply IH|apply next_incl]. Qed.
Lemma skip_incl s : forall p, incl (fst (skip_comment s p)) s.
Proof.
  induction s as [|c s IH]; intro p; [apply incl_refl|]. cbn [skip_comment]. destruct s as [|d s]; [apply incl_nil_l|].
  destruct ((c =? 42) && (d =? 41)); [apply incl_tl, incl_tl, incl_refl|]. apply incl_tl, IH.
Qed.

Lemma step_agree U U' l : agree_on U U' (lx_chars l) -> step U l = step U' l.
Proof.
  intro H. destruct l as [s p n k a]. destruct s as [|c s]; [reflexivity|]. cbn [lx_chars] in H.
  unfold step. cbn [lx_chars lx_pos lx_line lx_character lx_last hd_error].
  assert (Hw : forall sp st l, lx_chars l = s -> word_step U sp st c l = word_step U' sp st c l).
  { intros sp st l Hl. unfold word_step, keyword_token, word_index. rewrite Hl.
    now rewrite (word_index_agree U U' (c :: s) H). }
  destruct s as [|d s]; cbn [hd_error].
  - rewrite Hw by reflexivity. reflexivity.
  - assert (Hd : In d (c :: d :: s)) by (right; left; reflexivity).
    rewrite (agree_alnum U U' _ d H Hd), (proj2 (agree_char U U' _ d H Hd)), Hw by reflexivity. reflexivity.
Qed.

Lemma word_step_incl U sp st c l : match word_step U sp st c l with
  | SSkip l' | STok _ l' => incl (lx_chars l') (lx_chars l) | _ => True end.
Proof.
  unfold word_step. destruct (keyword_token _ _); [|exact I].
  destruct (assoc _ _); [unfold emit_tok; destruct (with_end _ _); [apply advance_incl|exact I]|].
  destruct (other_token _) as [[t m]|]; unfold emit_tok; destruct (with_end _ _); try exact I; [|apply incl_refl].
  destruct (1 <? byte_len m); [apply advance_incl|apply incl_refl].
Qed.
Lemma step_incl U l : match step U l with
  | SSkip l' | STok _ l' => incl (lx_chars l') (lx_chars l) | _ => True end.
Proof.
  destruct l as [s p n k a]. destruct s as [|c s]; [exact I|]. unfold step.
  change (chars_next (mklx (c :: s) p n k a)) with (mklx s (p + len_utf8 c) n k a).
  cbn [lx_chars lx_pos lx_line lx_character lx_last].
  assert (Hs : incl s (c :: s)) by apply incl_tl, incl_refl.
  assert (He : forall sp t e l', incl (lx_chars l') (c :: s) -> match emit_tok sp t e l' with
    | SSkip l' | STok _ l' => incl (lx_chars l') (c :: s) | _ => True end).
  { intros sp t e l' Hl. unfold emit_tok. destruct (with_end sp e); [exact Hl|exact I]. }
  assert (Hn : forall q n' k' a', incl (lx_chars (chars_next (mklx s q n' k' a'))) (c :: s)).
  { intros. eapply incl_tran; [apply next_incl|exact Hs]. }
  repeat match goal with
  | |- match (if ?b then _ else _) with _ => _ end => destruct b
  | |- True => exact I
  | |- incl _ (c :: s) => exact Hs
  | |- match emit_tok _ _ _ _ with _ => _ end => apply He; first [exact Hs|apply Hn]
  end.
  - pose proof (skip_incl (lx_chars (chars_next (mklx s (p + len_utf8 c) n (k + (p - a)) p))) (lx_pos (chars_next (mklx s (p + len_utf8 c) n (k + (p - a)) p)))) as Hk.
    destruct (skip_comment _ _) as [r q]. cbn [fst lx_chars] in *. eapply incl_tran; [exact Hk|apply Hn].
  - destruct (single_char_token c); [apply He, Hs|].
    pose proof (word_step_incl U (mkpos p n k) p c (mklx s (p + len_utf8 c) n (k + (p - a)) p)) as Hw.
    destruct (word_step _ _ _ _ _); auto; eapply incl_tran; [exact Hw|exact Hs|exact Hw|exact Hs].
Qed.

Lemma next_agree U U' f : forall l, agree_on U U' (lx_chars l) -> next_fuel U f l = next_fuel U' f l /\
  match next_fuel U f l with NItem _ l' => incl (lx_chars l') (lx_chars l) | _ => True end.
Proof.
  induction f as [|f IH]; intros l H; [split; [reflexivity|exact I]|]. cbn [next_fuel]. rewrite <- (step_agree U U' l H).
  pose proof (step_incl U l) as Hi. destruct (step U l) as [|l'|i l'|]; try (split; [reflexivity|exact I]).
  - destruct (IH l' (agree_incl _ _ _ _ H Hi)) as [He Hm]. rewrite <- He. split; [reflexivity|].
    destruct (next_fuel U f l'); auto. eapply incl_tran; [exact Hm|exact Hi].
  - split; [reflexivity|exact Hi].
Qed.
Lemma run_agree U U' f : forall l, agree_on U U' (lx_chars l) -> lex_run U f l = lex_run U' f l.
Proof.
  induction f as [|f IH]; intros l H; [reflexivity|]. cbn [lex_run]. unfold next.
  destruct (next_agree U U' (S (List.length (lx_chars l))) l H) as [He Hm]. rewrite <- He.
  destruct (next_fuel U _ l); try reflexivity. rewrite IH; [reflexivity|]. eapply agree_incl; [exact H|exact Hm].
Qed.
Lemma lex_agree U U' s : agree_on U U' s -> lex U s = lex U' s.
Proof. intro H. unfold lex. apply run_agree. exact H. Qed.

(** The same text gives the same answer whatever the rest of the Unicode tables
    says and however the objects in messages are rendered: the same contract,
    the same syntax error, or a panic in both cases; an emitter error may differ
    in its message only. *)
Theorem C49_same_answer U U' debug debug' text : agree_on U U' text ->
  match from_str U debug text, from_str U' debug' text with
  | RValue c, RValue c' => c = c'
  | RError (ParseErrorEmit _), RError (ParseErrorEmit _) => True
  | RError e, RError e' => e = e'
  | RPanic, RPanic => True
  | _, _ => False
  end.
Proof.
  intro H. pose proof (C37_total U debug text) as Ht. revert Ht. unfold from_str, parse_str. rewrite <- (lex_agree U U' text H).
  destruct (lex U text) as [items e]. destruct (parse Program items e) as [p|i| | |]; try (intros; exact I || reflexivity); [|congruence].
  unfold emit_api. pose proof (emit_oracle debug debug' p) as Hp.
  destruct (emit_program debug p), (emit_program debug' p); try contradiction; auto.
Qed.

(** On ASCII text the Unicode tables do not matter at all. *)
Theorem C49_ascii U U' debug text : ascii_str text = true -> from_str U debug text = from_str U' debug text.
Proof.
  intro H. unfold from_str, parse_str. rewrite (lex_agree U U' text); [reflexivity|].
  intros c Hc Hb. unfold ascii_str in H. rewrite forallb_forall in H. specialize (H c Hc). unfold is_ascii in H.
  apply N.ltb_lt in H. lia.
Qed.

(** The tables that matter are those of the characters of the text. *)
Theorem C49_unicode U U' debug text : agree_on U U' text -> from_str U debug text = from_str U' debug text.
Proof. intro H. unfold from_str, parse_str. now rewrite (lex_agree U U' text). Qed.

(** The same for the lexer and every entry point of the parser. *)
Theorem C49_lexer_and_parser U U' A text : agree_on U U' text -> lex U text = lex U' text /\ parse_str U A text = parse_str U' A text.
Proof. intro H. unfold parse_str. now rewrite (lex_agree U U' text H). Qed.

(** They do matter: é is a letter or not. *)
Theorem C49_tables_matter : exists text, from_str U_none (fun _ => []) text <> from_str U_latin (fun _ => []) text.
Proof.
  exists [95; 233]. assert (H : forall a b, (match a with RError (ParseErrorToken (_, t, _)) => t | _ => TEnd end
    <> match b with RError (ParseErrorToken (_, t, _)) => t | _ => TEnd end) -> a <> b :> api contract) by (intros a b Hn ->; now apply Hn).
  apply H. vm_compute. discriminate.
Qed.

(** Examples: a contract whose comment has characters that are neither ASCII nor
    known to the tables; an emitter error with two renderings. *)
Definition comment_text : str := lit "scilla_version 0 (* " ++ [233; 960] ++ lit " *) contract C () field f : Bool = True".
Example C49_witness : agree_on U_none {| uni_alphabetic := fun c => c =? 12354; uni_numeric := fun _ => false |} comment_text
  /\ from_str U_none (fun _ => []) comment_text = RValue (mkContract (lit "C") [] [mkField (lit "f") TyBool] [])
  /\ from_str U_none (fun _ => lit "x") (lit "scilla_version 0 contract C () field f : Map (ByStr20 with contract field a : Uint32 end) Bool = True")
     <> from_str U_none (fun _ => lit "y") (lit "scilla_version 0 contract C () field f : Map (ByStr20 with contract field a : Uint32 end) Bool = True").
Proof.
  split; [|split].
  - intros c Hc _. cbn in Hc. repeat (destruct Hc as [<- | Hc]; [now vm_compute|]). contradiction.
  - vm_compute. reflexivity.
  - assert (H : forall a b, (match a with RError (ParseErrorEmit m) => m | _ => [] end
      <> match b with RError (ParseErrorEmit m) => m | _ => [] end) -> a <> b :> api contract) by (intros a b Hn ->; now apply Hn).
    apply H. vm_compute. discriminate.
Qed.
