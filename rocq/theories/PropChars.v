(** Property C73: the characters of accepted texts. *)
From Verif Require Import Chars Lexer LexSpec LexerProofs LexStep LexFacts Ast Types Grammar GrammarLink Cfg Parser Contract PropErrors PropOracle PropParser PropParse2 PropEmit.
From Coq Require Import PeanoNat Lia.

(** ** Specification *)
(** The characters words and punctuation are written with ([+] and [*] are tokens,
    but no phrase contains them). *)
Definition allowed : str :=
  lit "abcdefghijklmnopqrstuvwxyzABCDEFGHIJKLMNOPQRSTUVWXYZ0123456789_';:.|[](){},=<>&@-".

(** White space, allowed characters, comments (the last of which need not be
    closed) and string literals, after which at most as many characters as it has
    bytes beyond its characters can be anything (C04). *)
Inductive made_of : str -> Prop :=
| mo_end : made_of []
| mo_space c s : is_whitespace c = true -> made_of s -> made_of (c :: s)
| mo_char c s : In c allowed -> made_of s -> made_of (c :: s)
| mo_comment c s : ~ occurs close_comment c -> made_of s -> made_of (open_comment ++ c ++ close_comment ++ s)
| mo_open_comment c : ~ occurs close_comment c -> made_of (open_comment ++ c)
| mo_string b x s : N.of_nat (List.length x) <= byte_len b - N.of_nat (List.length b) -> made_of s ->
    made_of ([34] ++ b ++ [34] ++ x ++ s).

(** ** Proof *)
Definition used (t : token) : Prop := exists k, kind_of t = Some k /\ k <> KPlus /\ k <> KAsterisk /\ k <> KMinus.
Definition known (l : list item) : Prop := Forall (fun i => used (item_token i)) l.
Definition atom_ok (a : atom) : Prop := match a with Tm k => k <> KPlus /\ k <> KAsterisk /\ k <> KMinus | Nt _ => True end.
Definition sym_atom (s : sym) : atom := match s with One a | Opt a | Star a | Plus a => a end.
Definition atom_okb (a : atom) : bool := match a with Tm KPlus | Tm KAsterisk | Tm KMinus => false | _ => true end.
Lemma prods_ok A p : In p (prods A) -> Forall (fun s => atom_ok (sym_atom s)) (p_rhs p).
Proof.
  intro H. assert (E : forallb (fun A => forallb (fun p => forallb (fun s => atom_okb (sym_atom s)) (p_rhs p)) (prods A)) all_nts = true) by (vm_compute; reflexivity).
  rewrite forallb_forall in E. specialize (E A (in_all_nts A)). rewrite forallb_forall in E. specialize (E p H). rewrite forallb_forall in E.
  apply Forall_forall. intros s Hs. specialize (E s Hs). destruct (sym_atom s) as [[]|]; cbn in *; try discriminate E; repeat split; discriminate.
Qed.
Lemma derives_known A items v : derives A items v -> known items.
Proof.
  assert (G : (forall a toks v, der_atom a toks v -> atom_ok a -> known toks) /\ (forall s toks v, der_sym s toks v -> atom_ok (sym_atom s) -> known toks)
    /\ (forall a toks v, der_list a toks v -> atom_ok a -> known toks)
    /\ (forall l toks v, der_rhs l toks v -> Forall (fun s => atom_ok (sym_atom s)) l -> known toks)).
  { apply der_mutind; unfold known; cbn [sym_atom].
    - intros k i Hk Ha. constructor; [exists k; auto|constructor].
    - intros A0 p toks vs Hp _ IH _. apply IH, prods_ok, Hp.
    - auto.
    - auto.
    - auto.
    - auto.
    - auto.
    - auto.
    - intros a t1 v1 t2 vs _ H1 _ H2 Ha. apply Forall_app. auto.
    - auto.
    - intros s l t1 v1 t2 vs _ H1 _ H2 Ha. inversion Ha; subst. apply Forall_app. auto. }
  intros H. exact (proj1 G _ _ _ H I).
Qed.

Lemma in_allowed l c : forallb (fun d => existsb (N.eqb d) allowed) l = true -> In c l -> In c allowed.
Proof.
  intros H Hc. rewrite forallb_forall in H. specialize (H c Hc). apply existsb_exists in H. destruct H as (d & Hd & E).
  apply N.eqb_eq in E. subst. exact Hd.
Qed.
Lemma word_allowed c : is_word c = true -> In c allowed.
Proof. destruct (C43_character_classes c) as (_ & _ & _ & _ & H & _). intro Hc. apply H in Hc. revert Hc. apply in_allowed. vm_compute. reflexivity. Qed.
Lemma digit_allowed c : is_digit c = true -> In c allowed.
Proof. destruct (C43_character_classes c) as (H & _). intro Hc. apply H in Hc. revert Hc. apply in_allowed. vm_compute. reflexivity. Qed.
Lemma lower_allowed c : is_lower c = true -> In c allowed.
Proof. destruct (C43_character_classes c) as (_ & H & _). intro Hc. apply H in Hc. revert Hc. apply in_allowed. vm_compute. reflexivity. Qed.
Lemma upper_allowed c : is_upper c = true -> In c allowed.
Proof. destruct (C43_character_classes c) as (_ & _ & H & _). intro Hc. apply H in Hc. revert Hc. apply in_allowed. vm_compute. reflexivity. Qed.
Lemma hex_allowed c : is_hex c = true -> In c allowed.
Proof. destruct (C43_character_classes c) as (_ & _ & _ & H & _). intro Hc. apply H in Hc. revert Hc. apply in_allowed. vm_compute. reflexivity. Qed.
Lemma lit_allowed l : forallb (fun d => existsb (N.eqb d) allowed) l = true -> Forall (fun c => In c allowed) l.
Proof. intro H. apply Forall_forall. intros c. apply in_allowed, H. Qed.
Lemma hexes_allowed l : hex_digits l -> Forall (fun c => In c allowed) l.
Proof. induction 1; [constructor|]. constructor; [auto using hex_allowed|]. constructor; auto using hex_allowed. Qed.
Lemma all_listed (l : list (str * token)) : forallb (fun p => forallb (fun d => existsb (N.eqb d) allowed) (token_text (snd p))) l = true ->
  forall w t, In (w, t) l -> Forall (fun c => In c allowed) (token_text t).
Proof. intros H w t Hi. rewrite forallb_forall in H. apply lit_allowed. exact (H _ Hi). Qed.
Lemma token_allowed U s t : token_at U s t -> used t -> (forall b, t <> TStringLiteral b) -> Forall (fun c => In c allowed) (token_text t).
Proof.
  intros H Hu Hs. destruct H as [w t r Hi _|s w t Hi _|ds r _ Hd _|r _|x hs r Hx Hh _|ds r _ Hd _ _|ds r _ Hd _|b r _|b r _ _|c w r Hc Hw _ _|c w r Hc Hw _|c w r Hc Hw _ _ _|w r Hw _ _];
    try (exfalso; eapply Hs; reflexivity).
  - eapply (all_listed (filter (fun p => match kind_of (snd p) with Some KPlus | Some KAsterisk | Some KMinus => false | _ => true end) punctuation));
      [vm_compute; reflexivity|]. apply filter_In. split; [exact Hi|]. cbn [snd]. destruct Hu as (k & Hk & H1 & H2 & H3). rewrite Hk. destruct k; congruence.
  - eapply all_listed; [|exact Hi]. vm_compute. reflexivity.
  - cbn [token_text]. apply Forall_app. split; [apply lit_allowed; vm_compute; reflexivity|]. eapply Forall_impl; [|exact Hd]. exact digit_allowed.
  - apply lit_allowed. vm_compute. reflexivity.
  - cbn [token_text]. constructor; [apply (in_allowed [48]); [vm_compute; reflexivity|left; reflexivity]|].
    constructor; [|apply hexes_allowed, Hh]. apply (in_allowed [120; 88]); [vm_compute; reflexivity|]. destruct Hx as [-> | ->]; cbn; auto.
  - cbn [token_text]. eapply Forall_impl; [|exact Hd]. exact digit_allowed.
  - cbn [token_text]. constructor; [apply (in_allowed [45]); [vm_compute; reflexivity|left; reflexivity]|]. eapply Forall_impl; [|exact Hd]. exact digit_allowed.
  - cbn [token_text]. constructor; [apply lower_allowed, Hc|]. eapply Forall_impl; [|exact Hw]. exact word_allowed.
  - cbn [token_text]. constructor; [apply (in_allowed [39]); [vm_compute; reflexivity|left; reflexivity]|].
    constructor; [apply upper_allowed, Hc|]. eapply Forall_impl; [|exact Hw]. exact word_allowed.
  - cbn [token_text]. constructor; [apply upper_allowed, Hc|]. eapply Forall_impl; [|exact Hw]. exact word_allowed.
  - cbn [token_text]. constructor; [apply (in_allowed [95]); [vm_compute; reflexivity|left; reflexivity]|]. eapply Forall_impl; [|exact Hw]. exact word_allowed.
Qed.
Lemma string_quoted U s b : token_at U s (TStringLiteral b) -> exists x, b = [34] ++ x ++ [34].
Proof.
  intro H. inversion H; subst; try (eexists; reflexivity); exfalso;
    match goal with Hi : In (_, TStringLiteral _) ?l |- _ => cbn in Hi; repeat (destruct Hi as [Hi|Hi]; [discriminate Hi|]); exact Hi end.
Qed.
Lemma made_app a s : Forall (fun c => In c allowed) a -> made_of s -> made_of (a ++ s).
Proof. induction 1 as [|c a Hc _ IH]; intro H; [exact H|]. apply mo_char; [exact Hc|apply IH, H]. Qed.

Lemma segmented_made U pos line base prev s is e : segmented U pos line base prev s is e -> e = LEof -> known is -> made_of s.
Proof.
  induction 1 as [pos line base prev|pos line base prev s is e H IH|pos line base prev c s is e Hw Hn H IH|pos line base prev c s is e Hc H IH
    |pos line base prev c Hc|pos line base prev t x s is e Ht Hb Hl H IH|pos line base prev c s is e Hw Ho Hn Hb H IH|]; intros He Hk.
  - constructor.
  - apply mo_space; [reflexivity|auto].
  - apply mo_space; auto.
  - apply mo_comment; auto.
  - apply mo_open_comment. exact Hc.
  - inversion Hk as [|? ? Hu Hk']; subst. specialize (IH eq_refl Hk').
    assert (D : (exists b, t = TStringLiteral b) \/ forall b, t <> TStringLiteral b) by (destruct t; try (right; discriminate); left; eauto).
    destruct D as [[b ->]|D].
    + destruct (string_quoted _ _ _ Ht) as (y & ->). cbn [token_text]. rewrite <- !app_assoc. apply mo_string; [|exact IH].
      cbn [lost] in Hl. cbv zeta in Hl. rewrite !app_length in Hl.
      assert (E : byte_len ([34] ++ y ++ [34]) = byte_len y + 2). { rewrite !byte_len_app. change (byte_len [34]) with 1. lia. }
      rewrite E in Hl. cbn [List.length] in Hl. lia.
    + assert (x = []) as -> by (destruct t; try exact Hl; exfalso; eapply D; reflexivity). apply made_app; [|exact IH]. eapply token_allowed; eauto.
  - inversion Hk as [|? ? Hu _]; subst. exfalso. destruct Hu as (k & Hu & _). discriminate Hu.
  - discriminate.
Qed.

(** ** Theorems *)
Theorem C73_accepted_is_made_of : forall U A text v, parse_str U A text = POk v -> made_of text.
Proof.
  intros U A text v H. destruct (C11_accepted_text_is_derived _ _ _ _ H) as (items & El & Hd).
  apply C43_lexer_is_segmentation in El. eapply segmented_made; [exact El|reflexivity|]. eapply derives_known, Hd.
Qed.

(** A text with a character that is neither white space nor allowed is not accepted,
    unless there is a quote or a comment before it. *)
Lemma made_prefix s : made_of s -> forall pre c post, s = pre ++ c :: post -> ~ In 34 (pre ++ [c]) -> ~ occurs open_comment (pre ++ [c]) ->
  is_whitespace c = true \/ In c allowed.
Proof.
  assert (Cut : forall (r x y : str) c, open_comment ++ x = r ++ c :: y -> ~ In c allowed -> ~ occurs open_comment (r ++ [c]) -> False).
  { intros r x y c E Hc Ho. destruct r as [|a [|b r]]; cbn in E.
    - injection E as <- _. apply Hc. apply (in_allowed [40]); [vm_compute; reflexivity|left; reflexivity].
    - injection E as <- <- _. apply Ho. exists [], []. reflexivity.
    - injection E as <- <- _. apply Ho. exists [], (r ++ [c]). reflexivity. }
  assert (Skip : forall a (l : str), ~ In 34 (a :: l) -> ~ In 34 l) by (intros a l H Hi; apply H; right; exact Hi).
  assert (Skip2 : forall a l, ~ occurs open_comment (a :: l) -> ~ occurs open_comment l).
  { intros a l H (p & q & ->). apply H. exists (a :: p), q. reflexivity. }
  assert (Dec : forall c, In c allowed \/ ~ In c allowed) by (intro c; destruct (in_dec N.eq_dec c allowed); auto).
  induction 1 as [|c s Hc H IH|c s Hc H IH|k s Hk H IH|k Hk|b x s Hx H IH]; intros pre d post E Hq Ho.
  - destruct pre; discriminate.
  - destruct pre as [|a pre]; cbn in E; injection E as -> ->; [left; exact Hc|]. cbn in Hq, Ho. eapply IH; eauto.
  - destruct pre as [|a pre]; cbn in E; injection E as -> ->; [right; exact Hc|]. cbn in Hq, Ho. eapply IH; eauto.
  - destruct (Dec d) as [Hd|Hd]; [right; exact Hd|]. destruct (Cut _ _ _ _ E Hd Ho).
  - destruct (Dec d) as [Hd|Hd]; [right; exact Hd|]. destruct (Cut _ _ _ _ E Hd Ho).
  - destruct pre as [|a pre]; cbn in E; injection E as <- _; exfalso; apply Hq; left; reflexivity.
Qed.
Theorem C73_refused : forall U debug text pre c post, text = pre ++ [c] ++ post ->
  ~ In 34 (pre ++ [c]) -> ~ occurs open_comment (pre ++ [c]) -> is_whitespace c = false -> ~ In c allowed ->
  (forall A v, parse_str U A text <> POk v) /\ forall k, from_str U debug text <> RValue k.
Proof.
  intros U debug text pre c post -> Hq Ho Hw Ha.
  assert (P : forall A v, parse_str U A (pre ++ [c] ++ post) <> POk v).
  { intros A v H. apply C73_accepted_is_made_of in H. destruct (made_prefix _ H pre c post eq_refl Hq Ho) as [E|E]; [congruence|exact (Ha E)]. }
  split; [exact P|]. intros k H. apply ok_parts in H. destruct H as (items & p & _ & _ & _ & Hp & _). exact (P _ _ Hp).
Qed.
Theorem C73_plain : forall U A text v, parse_str U A text = POk v -> ~ In 34 text -> ~ occurs open_comment text ->
  Forall (fun c => is_whitespace c = true \/ In c allowed) text.
Proof.
  intros U A text v H Hq Ho. apply C73_accepted_is_made_of in H. apply Forall_forall. intros c Hc. apply in_split in Hc.
  destruct Hc as (pre & post & ->). apply (made_prefix _ H pre c post eq_refl).
  - intro Hi. apply Hq. apply in_app_iff in Hi. apply in_app_iff. destruct Hi as [Hi|[Hi|[]]]; [left; exact Hi|right; left; exact Hi].
  - intros (p & q & E). apply Ho. exists p, (q ++ post). rewrite !app_assoc, <- (app_assoc p), <- E, <- app_assoc. reflexivity.
Qed.
(** Every allowed character is used: a text without quotes and comments contains them all. *)
Definition all_characters : string := "scilla_version 0 library L let f = tfun 'QuickBrownFoxJumpsOverLazyDGXYZ => fun (x : Map Pair ByStr20 with contract field a : C, field b : D end) => @f A
  let g : HIKMRTUVWEN -> S = match a with | S b => { x : Uint32 0123456789 ; y : z } | _ => t end
  contract C() transition T() a <- &b.c; hijklmnopqrstuvwxyzabcdefg[k] := x end".
Theorem C73_all_used : exists p, parse_str U_none Program (lit all_characters) = POk p
  /\ ~ In 34 (lit all_characters) /\ ~ occurs open_comment (lit all_characters) /\ forall c, In c allowed -> In c (lit all_characters).
Proof.
  eexists. split; [vm_compute; reflexivity|]. split; [|split].
  - intro H. vm_compute in H. repeat (destruct H as [H|H]; [discriminate H|]). exact H.
  - intros (p & q & E). apply (f_equal (fun s => existsb (fun n => str_eqb (firstn 2 (skipn n s)) open_comment) (seq 0 (List.length s)))) in E.
    assert (G : existsb (fun n => str_eqb (firstn 2 (skipn n (p ++ open_comment ++ q))) open_comment) (seq 0 (List.length (p ++ open_comment ++ q))) = true).
    { apply existsb_exists. exists (List.length p). split; [apply in_seq; rewrite !app_length; cbn; lia|].
      rewrite skipn_app, skipn_all, Nat.sub_diag. reflexivity. }
    rewrite G in E. vm_compute in E. discriminate E.
  - assert (E : forallb (fun c => existsb (N.eqb c) (lit all_characters)) allowed = true) by (vm_compute; reflexivity).
    rewrite forallb_forall in E. intros c Hc. specialize (E c Hc). apply existsb_exists in E. destruct E as (d & Hd & Ed).
    apply N.eqb_eq in Ed. subst. exact Hd.
Qed.

(** ** Witnesses *)
Definition hello : str := lit "scilla_version 0 contract C() ".
(** A byte order mark, a letter outside ASCII and a plus sign. *)
Example C73_witness : exists m,
  from_str U_none no_debug (65279 :: hello) = RError m
  /\ ~ In 34 ([] ++ [65279]) /\ ~ occurs open_comment ([] ++ [65279]) /\ is_whitespace 65279 = false /\ ~ In 65279 allowed
  /\ is_whitespace 233 = false /\ ~ In 233 allowed /\ is_whitespace 43 = false /\ ~ In 43 allowed /\ ~ In 42 allowed
  /\ exists k, from_str U_none no_debug (lit "(*" ++ [65279; 233] ++ lit "*)" ++ [160] ++ hello ++ lit "(* + ") = RValue k.
Proof.
  eexists. split; [vm_compute; reflexivity|]. split; [cbn; intros [H|[]]; discriminate|]. split.
  { intros ([|a [|b p]] & q & E); cbn in E; discriminate. }
  repeat (split; [first [reflexivity | let H := fresh in intro H; vm_compute in H; repeat (destruct H as [H|H]; [discriminate H|]); exact H]|]).
  eexists. vm_compute. reflexivity.
Qed.
