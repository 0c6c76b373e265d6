(** Every sequence of well-formed tokens can be written: separate them by
    spaces. *)
From Verif Require Import Chars Lexer LexSpec LexFacts LexWritten PropLexer.

Definition spaced (toks : list token) : str := flat_map (fun t => lit " " ++ token_text t) toks.

Lemma space_word U : word_char U 32 = false.
Proof. reflexivity. Qed.
Lemma spaced_next toks p : p 32 = false -> not_followed_by p (spaced toks).
Proof. intro H. destruct toks as [|t r]; [exact I|exact H]. Qed.

Theorem spaced_written : forall U toks, Forall wf_token toks -> written U toks (spaced toks).
Proof.
  intros U toks H. induction H as [|t toks Ht _ IH].
  - apply wr_end. exists [], 0. split; [constructor|left; reflexivity].
  - unfold spaced. cbn [flat_map]. fold (spaced toks). rewrite <- app_assoc.
    apply (wr_tok U (lit " ") 0 t toks (spaced toks)); [apply (lay_space 32 [] 0 eq_refl lay_nil)|exact Ht| |exact IH].
    destruct t; try exact I; apply spaced_next; reflexivity.
Qed.

(** A decision procedure for the tokens that occur in examples. *)
Definition in_list (w : str) (l : list str) : bool := existsb (str_eqb w) l.
Definition wf_tokenb (t : token) : bool :=
  match t with
  | TIdentifier (c :: s) => is_lower c && forallb is_word s && negb (in_list (c :: s) (map fst keyword_list))
  | TCustomIdentifier (c :: s) =>
      is_upper c && forallb is_word s && negb (in_list (c :: s) (map fst keyword_list)) && negb (starts_with (lit "ByStr") (c :: s))
  | TByStrWithSize s => str_eqb (firstn 5 s) (lit "ByStr") && negb (match skipn 5 s with [] => true | _ => false end) && forallb is_digit (skipn 5 s)
  | TNumber s => negb (match s with [] => true | _ => false end) && forallb is_digit s
  | TSpecialIdentifier (c :: s) => (c =? 95) && negb (match s with [] => true | _ => false end) && forallb is_word s
  | TTemplateIdentifier (q :: c :: s) => (q =? 39) && is_upper c && forallb is_word s
  | TIdentifier _ | TCustomIdentifier _ | THexNumber _ | TStringLiteral _ | TSpecialIdentifier _ | TTemplateIdentifier _ | TUnknown
  | TComment _ | TTypeName _ | TWhitespace => false
  | _ => true
  end.
Lemma forallb_all (p : char -> bool) s : forallb p s = true -> Forall (fun c => p c = true) s.
Proof. intro H. apply Forall_forall. apply forallb_forall. exact H. Qed.
Lemma in_list_spec w l : in_list w l = false -> ~ In w l.
Proof.
  unfold in_list. intros H Hi. assert (existsb (str_eqb w) l = true); [|congruence]. apply existsb_exists. exists w. split; [exact Hi|].
  apply LexerProofs.str_eqb_eq. reflexivity.
Qed.
Ltac in_kw := cbn -[lit]; repeat (first [left; reflexivity | right]).
Lemma wf_tokenb_sound t : wf_tokenb t = true -> wf_token t.
Proof.
  destruct t; cbn -[lit is_lower is_upper is_word is_digit in_list keyword_list starts_with firstn skipn]; intro H; try discriminate H;
    try (eapply wf_keyword; in_kw; fail); try (eapply wf_punct; in_kw; fail); try apply wf_bystr.
  - repeat (rewrite Bool.andb_true_iff in H; destruct H as [H ?]). apply LexerProofs.str_eqb_eq in H.
    rewrite <- (firstn_skipn 5 s), H. apply wf_bystr_size; [|apply forallb_all; assumption]. intro E. rewrite E in H1. discriminate.
  - repeat (rewrite Bool.andb_true_iff in H; destruct H as [H ?]). apply wf_number; [intro E; subst; discriminate|apply forallb_all; assumption].
  - destruct s; [discriminate|]. repeat (rewrite Bool.andb_true_iff in H; destruct H as [H ?]).
    apply wf_identifier; [assumption|apply forallb_all; assumption|apply in_list_spec; apply Bool.negb_true_iff; assumption].
  - destruct s as [|? [|]]; try discriminate. repeat (rewrite Bool.andb_true_iff in H; destruct H as [H ?]). apply N.eqb_eq in H. subst.
    apply wf_template; [assumption|apply forallb_all; assumption].
  - destruct s; [discriminate|]. repeat (rewrite Bool.andb_true_iff in H; destruct H as [H ?]).
    apply wf_custom; [assumption|apply forallb_all; assumption|apply in_list_spec; apply Bool.negb_true_iff; assumption|].
    intros r E. rewrite E in H0. apply Bool.negb_true_iff in H0. cbn in H0. discriminate.
  - destruct s; [discriminate|]. repeat (rewrite Bool.andb_true_iff in H; destruct H as [H ?]). apply N.eqb_eq in H. subst.
    apply wf_special; [intro E; subst; discriminate|apply forallb_all; assumption].
Qed.
Lemma wf_tokensb toks : forallb wf_tokenb toks = true -> Forall wf_token toks.
Proof. intro H. apply Forall_forall. intros t Ht. apply wf_tokenb_sound. rewrite forallb_forall in H. apply H, Ht. Qed.
