(** What the [{:?}] texts determine (DebugText.v): they are prefix codes. *)
From Coq Require Import Decimal DecimalN DecimalNat Hexadecimal HexadecimalN HexadecimalFacts.
From Verif Require Import Chars Lexer Types Emitter DebugText.

(** [r] does not continue a word of the characters [p]. *)
Definition ends_word (p : char -> bool) (r : str) : Prop :=
  match r with [] => True | c :: _ => p c = false end.

Lemma words_split (p : char -> bool) a b r s :
  Forall (fun c => p c = true) a -> Forall (fun c => p c = true) b -> ends_word p r -> ends_word p s ->
  a ++ r = b ++ s -> a = b /\ r = s.
Proof.
  intros Ha. revert b. induction Ha as [|c a Hc Ha IH]; intros b Hb Hr Hs E.
  - destruct b as [|d b]; [auto|]. exfalso. cbn in E. subst r. inversion Hb; subst. cbn in Hr. congruence.
  - destruct b as [|d b].
    + exfalso. cbn in E. subst s. cbn in Hs. congruence.
    + cbn in E. injection E as -> E. inversion Hb; subst. destruct (IH b) as [-> ->]; auto.
Qed.

Definition digit (c : char) : bool := in_range 48 57 c.
Definition hexdigit (c : char) : bool := in_range 48 57 c || in_range 97 102 c.

Lemma uint_chars_digits u : Forall (fun c => digit c = true) (uint_chars u).
Proof. induction u; cbn [uint_chars]; constructor; auto. Qed.
Lemma uint_chars_inj u : forall v, uint_chars u = uint_chars v -> u = v.
Proof.
  induction u as [|u IH|u IH|u IH|u IH|u IH|u IH|u IH|u IH|u IH|u IH]; intros v H; destruct v; cbn [uint_chars] in H;
    try discriminate; try reflexivity; injection H as H; f_equal; apply IH, H.
Qed.
Lemma dec_digits n : Forall (fun c => digit c = true) (dec n).
Proof. apply uint_chars_digits. Qed.
Lemma dec_inj n m : dec n = dec m -> n = m.
Proof. intro H. apply uint_chars_inj in H. apply DecimalN.Unsigned.to_uint_inj, H. Qed.
Lemma dec_code n m r s : ends_word digit r -> ends_word digit s -> dec n ++ r = dec m ++ s -> n = m /\ r = s.
Proof.
  intros Hr Hs E. destruct (words_split digit _ _ r s (dec_digits n) (dec_digits m) Hr Hs E) as [H ->].
  split; [apply dec_inj, H|reflexivity].
Qed.

Lemma hex_chars_digits u : Forall (fun c => hexdigit c = true) (hex_chars u).
Proof. induction u; cbn [hex_chars]; constructor; auto. Qed.
Lemma hex_chars_inj u : forall v, hex_chars u = hex_chars v -> u = v.
Proof.
  induction u as [|u IH|u IH|u IH|u IH|u IH|u IH|u IH|u IH|u IH|u IH|u IH|u IH|u IH|u IH|u IH|u IH]; intros v H; destruct v; cbn [hex_chars] in H;
    try discriminate; try reflexivity; injection H as H; f_equal; apply IH, H.
Qed.
Lemma hex_inj n m : hex n = hex m -> n = m.
Proof. intro H. apply hex_chars_inj in H. rewrite <- (HexadecimalN.Unsigned.of_to n), <- (HexadecimalN.Unsigned.of_to m), H. reflexivity. Qed.

Section Facts.
  Context (printable : char -> bool).
  Notation escape := (escape_char printable).
  Notation dstr := (debug_str printable).
  Notation dtoken := (debug_token printable).
  Notation ditem := (debug_item printable).

  (** The shape of an escape: the character itself, or a backslash and more. *)
  Lemma escape_cases c :
    (escape c = [c] /\ c <> 34 /\ c <> 92)
    \/ (exists x, escape c = [92; x] /\ In (c, x) [(0, 48); (9, 116); (13, 114); (10, 110); (34, 34); (92, 92)])
    \/ (escape c = [92; 117; 123] ++ hex c ++ [125]).
  Proof.
    unfold escape_char.
    destruct (N.eqb_spec c 0) as [->|]; [right; left; exists 48; cbn; tauto|].
    destruct (N.eqb_spec c 9) as [->|]; [right; left; exists 116; cbn; tauto|].
    destruct (N.eqb_spec c 13) as [->|]; [right; left; exists 114; cbn; tauto|].
    destruct (N.eqb_spec c 10) as [->|]; [right; left; exists 110; cbn; tauto|].
    destruct (N.eqb_spec c 34) as [->|]; [right; left; exists 34; cbn; tauto|].
    destruct (N.eqb_spec c 92) as [->|]; [right; left; exists 92; cbn; tauto|].
    destruct (if c <? 128 then in_range 32 126 c else printable c); [left; auto|right; right; reflexivity].
  Qed.

  Lemma hex_code n m r s : hex n ++ 125 :: r = hex m ++ 125 :: s -> n = m /\ r = s.
  Proof.
    intro H. destruct (words_split hexdigit _ _ (125 :: r) (125 :: s) (hex_chars_digits _) (hex_chars_digits _) eq_refl eq_refl H) as [E1 E2].
    split; [apply hex_inj, E1|congruence].
  Qed.

  Lemma escape_code c d r s : escape c ++ r = escape d ++ s -> c = d /\ r = s.
  Proof.
    destruct (escape_cases c) as [(Ec & Hc1 & Hc2)|[(x & Ec & Hc)|Ec]], (escape_cases d) as [(Ed & Hd1 & Hd2)|[(y & Ed & Hd)|Ed]];
      rewrite Ec, Ed; cbn [app]; intro H.
    - injection H as -> ->. auto.
    - injection H as H _. congruence.
    - injection H as H _. congruence.
    - injection H as H _. congruence.
    - injection H as -> ->. split; [|reflexivity]. cbn in Hc, Hd.
      repeat match goal with H : _ \/ _ |- _ => destruct H | H : False |- _ => destruct H end;
        repeat match goal with H : (_, _) = (_, _) |- _ => injection H; clear H; intros; subst end;
        first [reflexivity|discriminate].
    - exfalso. injection H as -> H. cbn in Hc. repeat match goal with H : _ \/ _ |- _ => destruct H | H : False |- _ => destruct H end; discriminate.
    - injection H as H _. congruence.
    - exfalso. injection H as <- H. cbn in Hd. repeat match goal with H : _ \/ _ |- _ => destruct H | H : False |- _ => destruct H end; discriminate.
    - injection H as H. rewrite <- !app_assoc in H. cbn [app] in H. apply hex_code in H. exact H.
  Qed.

  Lemma escape_no_quote c r s : escape c ++ r <> 34 :: s.
  Proof.
    destruct (escape_cases c) as [(E & Hc & _)|[(x & E & _)|E]]; rewrite E; cbn [app]; intros [= H _]; congruence.
  Qed.

  Lemma chars_code a : forall b r s, flat_map escape a ++ 34 :: r = flat_map escape b ++ 34 :: s -> a = b /\ r = s.
  Proof.
    induction a as [|c a IH]; intros [|d b] r s H; cbn [flat_map app] in H.
    - injection H as ->. auto.
    - exfalso. rewrite <- app_assoc in H. symmetry in H. eapply escape_no_quote, H.
    - exfalso. rewrite <- app_assoc in H. eapply escape_no_quote, H.
    - rewrite <- !app_assoc in H. apply escape_code in H. destruct H as [-> H].
      destruct (IH _ _ _ H) as [-> ->]. auto.
  Qed.

  Lemma str_code a b r s : dstr a ++ r = dstr b ++ s -> a = b /\ r = s.
  Proof.
    unfold debug_str. rewrite <- !app_assoc. cbn [app]. intros [= H]. apply chars_code, H.
  Qed.

  Lemma position_code p q r s : debug_position p ++ r = debug_position q ++ s -> p = q /\ r = s.
  Proof.
    unfold debug_position. rewrite <- !app_assoc. intro H. apply app_inv_head in H.
    apply dec_code in H; [|reflexivity|reflexivity]. destruct H as [H1 H]. apply app_inv_head in H.
    apply dec_code in H; [|reflexivity|reflexivity]. destruct H as [H2 H]. apply app_inv_head in H.
    apply dec_code in H; [|reflexivity|reflexivity]. destruct H as [H3 H]. apply app_inv_head in H.
    split; [|exact H]. destruct p, q; cbn in *; congruence.
  Qed.

  Definition letter (c : char) : bool := in_range 65 90 c || in_range 97 122 c.
  Lemma name_letters t : Forall (fun c => letter c = true) (token_name t).
  Proof. apply Forall_forall. intros c Hc. destruct t; cbn in Hc; repeat (destruct Hc as [<-|Hc]; [reflexivity|]); destruct Hc. Qed.

  (** The token, from its name and text. *)
  Definition token_of_name (n : str) (x : str) : option token :=
    find (fun t => str_eqb (token_name t) n)
      [TPlus; TAsterisk; TSemicolon; TColon; TDot; TPipe; TOpenBracket; TCloseBracket; TOpenParen; TCloseParen;
       TOpenBrace; TCloseBrace; TComma; TDoubleArrow; TArrow; TEquals; TAmpersand; TLeftArrow; TColonEquals;
       TAt; TMinus; TUnderscore; TForall; TBuiltin; TLibrary; TImport; TLet; TIn; TMatch; TWith; TEnd;
       TFun; TTfun; TContract; TTransition; TSend; TField; TAccept; TExists; TDelete; TThrow; TMap;
       TScillaVersion; TType; TOf; TAs; TProcedure; TEmp; TEvent; TEventType; TByStr;
       TByStrWithSize x; TComment x; TNumber x; THexNumber x; TIdentifier x; TTemplateIdentifier x;
       TCustomIdentifier x; TSpecialIdentifier x; TTypeName x; TStringLiteral x; TWhitespace; TUnknown].
  Lemma token_of_name_ok t : token_of_name (token_name t) (match token_payload t with Some x => x | None => [] end) = Some t.
  Proof. destruct t; reflexivity. Qed.
  Lemma token_of_payload t t' : token_name t = token_name t' -> token_payload t = token_payload t' -> t = t'.
  Proof.
    intros Hn Hp. pose proof (token_of_name_ok t) as H. rewrite Hn, Hp, token_of_name_ok in H. congruence.
  Qed.

  Definition after_token (r : str) : Prop := match r with [] => True | c :: _ => letter c = false /\ c <> 40 end.
  Lemma token_code t t' r s : after_token r -> after_token s -> dtoken t ++ r = dtoken t' ++ s -> t = t' /\ r = s.
  Proof.
    intros Hr Hs H. unfold debug_token in H. rewrite <- !app_assoc in H.
    assert (Hw : forall t r, after_token r ->
      ends_word letter (match token_payload t with Some x => lit "(" ++ dstr x ++ lit ")" | None => [] end ++ r)).
    { clear. intros t r Hr. destruct (token_payload t); [reflexivity|]. cbn [app]. destruct r; cbn in *; tauto. }
    destruct (words_split letter _ _ _ _ (name_letters t) (name_letters t') (Hw t r Hr) (Hw t' s Hs) H) as [Hn Hrest].
    clear Hw H.
    - destruct (token_payload t) as [x|] eqn:Ex, (token_payload t') as [y|] eqn:Ey.
      + rewrite <- !app_assoc in Hrest. apply app_inv_head in Hrest. apply str_code in Hrest. destruct Hrest as [-> Hrest].
        apply app_inv_head in Hrest. split; [|exact Hrest]. apply token_of_payload; [exact Hn|congruence].
      + exfalso. cbn [app] in Hrest. subst s. destruct Hs as [_ Hs]. apply Hs. reflexivity.
      + exfalso. cbn [app] in Hrest. subst r. destruct Hr as [_ Hr]. apply Hr. reflexivity.
      + cbn [app] in Hrest. split; [|exact Hrest]. apply token_of_payload; [exact Hn|congruence].
  Qed.

  Lemma item_code i j r s : ditem i ++ r = ditem j ++ s -> i = j /\ r = s.
  Proof.
    destruct i as [[a t] b], j as [[a' t'] b']. unfold debug_item. cbn [item_start item_token item_end fst snd].
    rewrite <- !app_assoc. intro H. apply app_inv_head in H. apply position_code in H. destruct H as [-> H].
    apply app_inv_head in H. apply token_code in H; [|split; [reflexivity|discriminate]|split; [reflexivity|discriminate]].
    destruct H as [-> H]. apply app_inv_head in H. apply position_code in H. destruct H as [-> H].
    apply app_inv_head in H. auto.
  Qed.
End Facts.
