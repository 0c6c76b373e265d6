(** Property C80: a text that is wrong at a token is right up to it. *)
From Coq Require Import PeanoNat Lia.
From Verif Require Import Chars Lexer LexSpec LexerProofs LexStep LexSegment LexFacts LexWritten Ast Types Grammar Cfg Parser GrammarLink
  Emitter Contract Local Spaced PropLexer PropParser PropParse2 PropLocal PropMoves PropBetween.

(** ** Proof *)
Lemma viable_cut A u w : phrase_prefix A (u ++ w) -> phrase_prefix A u.
Proof. intros (x & v & H). exists (w ++ x), v. rewrite app_assoc. exact H. Qed.
Lemma viable_known A u : phrase_prefix A u -> Exists is_unknown u -> False.
Proof.
  intros (w & v & H) Hx. pose proof (proj1 der_kinds (Nt A) _ _ H) as Hf. apply Forall_app in Hf. destruct Hf as [Hf _].
  apply Exists_exists in Hx. destruct Hx as (i & Hi & E). rewrite Forall_forall in Hf. apply (Hf i Hi). unfold is_unknown in E. rewrite E. reflexivity.
Qed.
(** If no error is found before [p] ends, the tokens before are the beginning of a phrase. *)
Lemma viable_before A is0 is1 e p : (forall j, In j is0 -> before p j) ->
  (forall i, parse A (is0 ++ is1) e = PErrToken i -> p <= position (item_start i)) -> phrase_prefix A is0.
Proof.
  intros Hb Hi. destruct (parse A (is0 ++ is1) e) as [v|i| | |] eqn:E.
  - apply parse_sound in E. destruct E as [E _]. exists is1, v. exact E.
  - specialize (Hi i eq_refl). apply parse_error_token_iff in E. destruct E as (u & q & E & Hu & _).
    apply app_eq_app in E. destruct E as (l & [[-> El]|[-> _]]); [|exact (viable_cut _ _ _ Hu)].
    destruct l as [|i' l]; cbn in El; [rewrite app_nil_r; exact Hu|]. injection El as <- _. exfalso.
    destruct (Hb i) as [Hb1 _]; [apply in_or_app; right; left; reflexivity|]. lia.
  - apply parse_error_eof_iff in E. destruct E as (_ & E & _). exact (viable_cut _ _ _ E).
  - apply parse_panic_iff in E. destruct E as (_ & E). exact (viable_cut _ _ _ E).
  - exfalso. exact (parse_not_internal _ _ _ E).
Qed.

(** *** String literals can be replaced by hexadecimal ones *)
Definition string_atom (a : atom) : bool := match a with Tm KStringLiteral | Nt StringLiteral => true | _ => false end.
Definition string_sym (s : sym) : bool := match s with One a | Opt a | Star a | Plus a => string_atom a end.
Definition plain_rhs (l : list sym) : bool := forallb (fun s => negb (string_sym s)) l.
Definition string_or_hex (i : item) : Prop := kind_of (item_token i) = Some KStringLiteral \/ kind_of (item_token i) = Some KHexNumber.
Definition like (i i' : item) : Prop := kind_of (item_token i') = kind_of (item_token i) \/ (kind_of (item_token i) = Some KStringLiteral /\ kind_of (item_token i') = Some KHexNumber).
Definition literal_rhs (A : nt) (l : list sym) : bool :=
  match A, l with
  | StringLiteral, [One (Tm KStringLiteral)] => true
  | ValueLiteral, [One (Nt StringLiteral)] => true
  | _, _ => false
  end.
Lemma strings_only_literals :
  forallb (fun A => forallb (fun p => plain_rhs (p_rhs p) || literal_rhs A (p_rhs p)) (prods A)) all_nts = true.
Proof. vm_compute. reflexivity. Qed.
Definition swap_atom (a : atom) (toks : list item) : Prop := forall toks', Forall2 like toks toks' ->
  if string_atom a then exists i', toks' = [i'] /\ string_or_hex i' else exists v', der_atom a toks' v'.
Lemma der_like_swaps :
  (forall a toks v, der_atom a toks v -> swap_atom a toks) /\
  (forall s toks v, der_sym s toks v -> (forall a, s = One a -> swap_atom a toks)
     /\ (string_sym s = false -> forall toks', Forall2 like toks toks' -> exists v', der_sym s toks' v')) /\
  (forall a toks vs, der_list a toks vs -> string_atom a = false -> forall toks', Forall2 like toks toks' -> exists vs', der_list a toks' vs' /\ (vs <> [] -> vs' <> [])) /\
  (forall l toks vs, der_rhs l toks vs -> (forall a, l = [One a] -> swap_atom a toks)
     /\ (plain_rhs l = true -> forall toks', Forall2 like toks toks' -> exists vs', der_rhs l toks' vs')).
Proof.
  apply (der_mutind
    (fun a toks v _ => swap_atom a toks)
    (fun s toks v _ => (forall a, s = One a -> swap_atom a toks)
       /\ (string_sym s = false -> forall toks', Forall2 like toks toks' -> exists v', der_sym s toks' v'))
    (fun a toks vs _ => string_atom a = false -> forall toks', Forall2 like toks toks' -> exists vs', der_list a toks' vs' /\ (vs <> [] -> vs' <> []))
    (fun l toks vs _ => (forall a, l = [One a] -> swap_atom a toks)
       /\ (plain_rhs l = true -> forall toks', Forall2 like toks toks' -> exists vs', der_rhs l toks' vs'))).
  - intros k i Hk toks' H. inversion H as [|? i' ? l' Hi H']; subst. inversion H'; subst.
    destruct (string_atom (Tm k)) eqn:E.
    + exists i'. split; [reflexivity|]. destruct k; try discriminate E. unfold string_or_hex. destruct Hi as [Hi|[_ Hi]]; [left; congruence|right; exact Hi].
    + exists i'. constructor. destruct Hi as [Hi|[Hi _]]; [congruence|]. rewrite Hk in Hi. injection Hi as ->. discriminate E.
  - intros A p toks vs Hin Hd [IH1 IH2] toks' H.
    assert (Hs : A = StringLiteral \/ string_atom (Nt A) = false) by (destruct A; (left; reflexivity) || (right; reflexivity)).
    destruct Hs as [-> |Hs].
    + cbn in Hin. destruct Hin as [<-|[]]. exact (IH1 (Tm KStringLiteral) eq_refl toks' H).
    + rewrite Hs. pose proof strings_only_literals as C. rewrite forallb_forall in C. specialize (C A (in_all_nts A)). rewrite forallb_forall in C. specialize (C p Hin).
      apply orb_true_iff in C. destruct C as [C|C].
      * destruct (IH2 C toks' H) as (vs' & H'). eexists. apply der_Nt; eassumption.
      * assert (A = ValueLiteral) as -> by (destruct A; try discriminate C; try discriminate Hs; reflexivity).
        assert (E : p_rhs p = [One (Nt StringLiteral)]).
        { clear -C. destruct (p_rhs p) as [|[a|a|a|a] [|? ?]]; try discriminate C; destruct a as [k|B]; try discriminate C; destruct B; try discriminate C; reflexivity. }
        destruct (IH1 _ E toks' H) as (i' & -> & Hi'). destruct Hi' as [Hi'|Hi'].
        -- eexists. eapply der_Nt; [right; right; left; reflexivity|].
           eapply (der_rhs_cons (One (Nt StringLiteral)) [] [i'] _ [] tt); [|constructor]. constructor.
           eapply der_Nt; [left; reflexivity|].
           apply (der_rhs_cons (One (Tm KStringLiteral)) [] [i'] i' [] tt); [|constructor]. constructor. constructor. exact Hi'.
        -- eexists. eapply der_Nt; [right; left; reflexivity|].
           eapply (der_rhs_cons (One (Nt HexNumber)) [] [i'] _ [] tt); [|constructor]. constructor.
           eapply der_Nt; [left; reflexivity|].
           apply (der_rhs_cons (One (Tm KHexNumber)) [] [i'] i' [] tt); [|constructor]. constructor. constructor. exact Hi'.
  - intros a toks v _ IH. split; [intros a' E; injection E as <-; exact IH|]. intros E toks' H. cbn in E. specialize (IH toks' H). rewrite E in IH.
    destruct IH as (v' & Hd). eexists. apply der_One, Hd.
  - intros a. split; [discriminate|]. intros _ toks' H. inversion H; subst. eexists. apply der_None.
  - intros a toks v _ IH. split; [discriminate|]. intros E toks' H. cbn in E. specialize (IH toks' H). rewrite E in IH.
    destruct IH as (v' & Hd). eexists. apply der_Some, Hd.
  - intros a toks vs _ IH. split; [discriminate|]. intros E toks' H. destruct (IH E toks' H) as (v' & Hd & _). eexists. apply der_Star, Hd.
  - intros a toks vs _ IH Hne. split; [discriminate|]. intros E toks' H. destruct (IH E toks' H) as (v' & Hd & Hn). eexists. apply der_Plus; [exact Hd|]. apply Hn, Hne.
  - intros a _ toks' H. inversion H; subst. exists []. split; [constructor|auto].
  - intros a t1 v t2 vs _ IH1 _ IH2 E toks' H. apply Forall2_app_inv_l in H. destruct H as (a' & b' & Ha & Hb & ->).
    specialize (IH1 _ Ha). rewrite E in IH1. destruct IH1 as (v' & H1), (IH2 E _ Hb) as (vs' & H2 & _). exists (v' :: vs'). split; [constructor; assumption|discriminate].
  - split; [discriminate|]. intros _ toks' H. inversion H; subst. exists tt. constructor.
  - intros s l t1 v t2 vs _ [IH1 IH1'] H2' [IH2 IH2']. split.
    + intros a E. injection E as -> ->. inversion H2'; subst. rewrite app_nil_r. apply IH1. reflexivity.
    + intros E toks' H. cbn [plain_rhs forallb] in E. apply andb_true_iff in E. destruct E as [E1 E2]. apply Forall2_app_inv_l in H. destruct H as (a' & b' & Ha & Hb & ->).
      destruct (IH1' (proj1 (negb_true_iff _) E1) _ Ha) as (v' & H1), (IH2' E2 _ Hb) as (vs' & H2). eexists. constructor; eassumption.
Qed.

(** A completion without quotes. *)
Definition quiet_sample (k : tk) : token := match k with KStringLiteral => THexNumber (lit "0x") | k => sample k end.
Lemma quiet_sample_wf k : wf_token (quiet_sample k).
Proof. destruct k; try exact (sample_wf _); exact (sample_wf KHexNumber). Qed.
Lemma quiet_sample_quotes k : ~ In 34 (token_text (quiet_sample k)).
Proof. destruct k; cbn; intro H; repeat (destruct H as [H|H]; [discriminate H|]); exact H. Qed.
Lemma spaced_quotes l : Forall (fun t => ~ In 34 (token_text t)) l -> ~ In 34 (spaced l).
Proof.
  induction 1 as [|t l Ht _ IH]; [auto|]. unfold spaced. cbn [flat_map]. intro H. apply in_app_or in H. destruct H as [H|H]; [|exact (IH H)].
  destruct H as [H|H]; [discriminate H|exact (Ht H)].
Qed.
Lemma completed A u : A <> StringLiteral -> phrase_prefix A u -> exists ks, forall w, map (fun i => kind_of (item_token i)) w = map (fun k => kind_of (quiet_sample k)) ks -> exists v, derives A (u ++ w) v.
Proof.
  intros HA (w & v & Hd).
  assert (Hk : exists ks, kinds w = map Some ks).
  { pose proof (proj1 der_kinds (Nt A) _ _ Hd) as Hf. rewrite Forall_app in Hf. destruct Hf as [_ Hf]. clear -Hf.
    induction Hf as [|x l Hx _ (ks & IH)]; [exists []; reflexivity|]. unfold kinds in *. cbn. rewrite IH.
    destruct (kind_of (item_token x)) as [k|]; [|congruence]. exists (k :: ks). reflexivity. }
  destruct Hk as (ks & Hk). exists ks. intros w' Hw. pose proof (proj1 der_like_swaps (Nt A) _ _ Hd (u ++ w')) as S.
  assert (E : string_atom (Nt A) = false) by (destruct A; try reflexivity; congruence). rewrite E in S. apply S. apply Forall2_app.
  - clear. induction u as [|x u IH]; constructor; [left; reflexivity|exact IH].
  - clear -Hk Hw. unfold kinds in Hk. revert w w' Hk Hw. induction ks as [|k ks IH]; intros [|x w] [|x' w'] Hk Hw; try discriminate; constructor.
    + injection Hk as Hk _. injection Hw as Hw _. unfold like. destruct k; try (left; rewrite Hw, Hk; reflexivity). right. split; [exact Hk|exact Hw].
    + injection Hk as _ Hk. injection Hw as _ Hw. exact (IH _ _ Hk Hw).
Qed.

Section Cut.
  Context (U : unicode) (A : nt) (p s : str) (is : list item) (e : lex_end) (i : item).
  Context (HL : lex U (p ++ s) = (is, e)) (Hi : In i is) (Hp : position (item_start i) = byte_len p).
  Context (Hn : no_word_across U p s).
  Context (Hok : forall j, parse_str U A (p ++ s) = PErrToken j -> byte_len p <= position (item_start j)).

  Lemma cut_tokens : exists is0 is1, is = is0 ++ is1 /\ Forall (before (byte_len p)) is0 /\ phrase_prefix A is0
    /\ forall c r, is_whitespace c = true -> (In 34 r -> In 34 s) ->
         exists is', lex U (p ++ c :: r) = (is0 ++ is', snd (lex U (p ++ c :: r))) /\ tokens_of U (c :: r) = (map item_token is', snd (lex U (p ++ c :: r))) /\ (r = [] -> is' = [] /\ snd (lex U (p ++ c :: r)) = LEof).
  Proof.
    destruct (lex_item_at _ _ _ _ _ HL Hi) as (p1 & s1 & ln & b & pr & Hv & _ & (c1 & s2 & Es & _) & _ & Hst).
    assert (Est : item_start i = mkpos (byte_len p1) ln (pr - b)) by (destruct Hst as [(t & x & r & _ & _ & _ & ->)|(_ & ->)]; reflexivity). clear Hst.
    rewrite Est in Hp. cbn [position] in Hp. pose proof (visited_input _ _ _ _ _ _ _ Hv) as Ev.
    assert (p1 = p) as -> by (symmetry; exact (prefix_same_bytes _ _ _ _ Ev (eq_sym Hp))). apply app_inv_head in Ev. rewrite <- Ev in *. clear s1 Ev.
    assert (HI : forall c r, is_whitespace c = true -> (In 34 r -> In 34 s) -> exists is0, Forall (before (byte_len p)) is0
      /\ (forall is e, segmented U (byte_len p) ln b pr s is e -> segmented U 0 0 0 0 (p ++ s) (is0 ++ is) e)
      /\ (Exists is_unknown is0 \/ forall is e, segmented U (byte_len p) ln b pr (c :: r) is e -> segmented U 0 0 0 0 (p ++ c :: r) (is0 ++ is) e)).
    { intros c r Hc Hr. destruct (visited_ins U (c :: r) s) with (input := p ++ s) (p0 := p) (s0 := s) (ln := ln) (b := b) (pr := pr) (q := @nil char) as (is0 & F & S1 & S2);
        [right; left; exact Hc|intros [H|H]; [subst c; discriminate Hc|exact (Hr H)]|rewrite Es; discriminate|exact Hv|reflexivity|rewrite app_nil_r; exact Hn|].
      exists is0. cbn [app] in *. auto. }
    destruct (segmented_exists U s (byte_len p) ln b pr) as (is1 & e1 & H1 & _). pose proof HL as HL'. apply lex_iff_segmented in HL'.
    assert (HU : forall is0, (forall is e, segmented U (byte_len p) ln b pr s is e -> segmented U 0 0 0 0 (p ++ s) (is0 ++ is) e) -> is = is0 ++ is1).
    { intros is0 S1. destruct (segmented_unique U _ _ _ _ _ _ _ _ _ _ (le_n _) (N.le_refl 0) (N.le_refl 0) HL' (S1 _ _ H1)) as [E _]. exact E. }
    destruct (HI 32 [] eq_refl (fun H => False_ind _ H)) as (is0 & F & S1 & _). pose proof (HU is0 S1) as E0.
    assert (Hv0 : phrase_prefix A is0).
    { apply (viable_before A is0 is1 e (byte_len p)); [apply Forall_forall, F|]. intros j Hj. apply Hok. unfold parse_str. rewrite HL, E0. exact Hj. }
    exists is0, is1. split; [exact E0|]. split; [exact F|]. split; [exact Hv0|]. intros c r Hc Hr.
    destruct (HI c r Hc Hr) as (is0' & F' & S1' & S2). pose proof (HU is0' S1') as E0'. rewrite E0 in E0'. apply app_inv_tail in E0'. subst is0'.
    destruct S2 as [S2|S2]; [exfalso; exact (viable_known _ _ Hv0 S2)|].
    destruct (segmented_exists U (c :: r) (byte_len p) ln b pr) as (is' & e' & H' & _). pose proof (S2 _ _ H') as S3. apply lex_iff_segmented in S3. rewrite S3. cbn [snd].
    exists is'. split; [reflexivity|]. split; [exact (segmented_tokens _ _ _ _ _ _ _ _ H')|]. intros ->. destruct (layout_skip U [c] _ (lay_space c [] 0 Hc lay_nil) (byte_len p) ln b pr) as (b2 & pr2 & Hsk).
    specialize (S2 _ _ (Hsk [] [] LEof (sg_end _ _ _ _ _))). apply lex_iff_segmented in S2. cbn [app] in S2. rewrite S3 in S2. injection S2 as E1 E2.
    split; [|exact E2]. rewrite app_nil_r in E1. rewrite <- (app_nil_r is0) in E1 at 2. apply app_inv_head in E1. exact E1.
  Qed.

  Lemma cut_answer c : is_whitespace c = true -> parse_str U A (p ++ [c]) = PErrEof \/ exists v, parse_str U A (p ++ [c]) = POk v.
  Proof.
    intro Hc. destruct cut_tokens as (is0 & is1 & _ & _ & Hv & H). destruct (H c [] Hc (fun H => False_ind _ H)) as (is' & E & _ & Er). destruct (Er eq_refl) as [-> Ee].
    rewrite Ee, app_nil_r in E. unfold parse_str. rewrite E. destruct (parse A is0 LEof) as [v|j| | |] eqn:P.
    - right. eauto.
    - exfalso. apply parse_error_token_iff in P. destruct P as (u & q & -> & _ & Hno). apply Hno. apply (viable_cut A _ q). rewrite <- app_assoc. exact Hv.
    - left. reflexivity.
    - exfalso. apply parse_panic_iff in P. destruct P as [P _]. congruence.
    - exfalso. exact (parse_not_internal _ _ _ P).
  Qed.

  Lemma cut_completed c : A <> StringLiteral -> is_whitespace c = true -> exists r v, ~ In 34 r /\ parse_str U A (p ++ c :: r) = POk v.
  Proof.
    intros HA Hc. destruct cut_tokens as (is0 & is1 & _ & _ & Hv & H). destruct (completed A is0 HA Hv) as (ks & Hk).
    set (text := spaced (map quiet_sample ks)).
    assert (Hq : ~ In 34 text).
    { apply spaced_quotes. apply Forall_forall. intros t Ht. apply in_map_iff in Ht. destruct Ht as (k & <- & _). apply quiet_sample_quotes. }
    assert (Ht : tokens_of U text = (map quiet_sample ks, LEof)).
    { apply written_tokens, spaced_written, Forall_forall. intros t Ht. apply in_map_iff in Ht. destruct Ht as (k & <- & _). apply quiet_sample_wf. }
    destruct (H c text Hc) as (is' & E & Et & _); [intro Hx; contradiction|].
    assert (Ec : tokens_of U (c :: text) = (map quiet_sample ks, LEof)).
    { rewrite <- Ht. exact (tokens_layout U [c] _ text (lay_space c [] 0 Hc lay_nil)). }
    rewrite Ec in Et. injection Et as Et Ee. rewrite <- Ee in E. destruct (Hk is') as (v & Hd).
    - rewrite <- (map_map quiet_sample kind_of), Et, map_map. reflexivity.
    - exists text, v. split; [exact Hq|]. unfold parse_str. rewrite E. apply parse_complete, Hd.
  Qed.
End Cut.

(** ** C80 *)
(** Let a token [i] start right after the prefix [p] of a text (not in the middle of a
    word).  If no error is found before [i], then the text cut there, with a white space
    instead of the rest, is a phrase, or ends too early ... *)
Theorem C80_right_up_to_the_error : forall U A p s is e i c,
  lex U (p ++ s) = (is, e) -> In i is -> position (item_start i) = byte_len p -> no_word_across U p s ->
  (forall j, parse_str U A (p ++ s) = PErrToken j -> byte_len p <= position (item_start j)) ->
  is_whitespace c = true ->
  parse_str U A (p ++ [c]) = PErrEof \/ exists v, parse_str U A (p ++ [c]) = POk v.
Proof. intros U A p s is e i c HL Hi Hp Hn Hok Hc. exact (cut_answer U A p s is e i HL Hi Hp Hn Hok c Hc). Qed.
(** ... and can be continued to a phrase (without quotes): what is wrong is the rest. *)
Theorem C80_can_be_continued : forall U A p s is e i c, A <> StringLiteral ->
  lex U (p ++ s) = (is, e) -> In i is -> position (item_start i) = byte_len p -> no_word_across U p s ->
  (forall j, parse_str U A (p ++ s) = PErrToken j -> byte_len p <= position (item_start j)) ->
  is_whitespace c = true ->
  exists r v, ~ In 34 r /\ parse_str U A (p ++ c :: r) = POk v.
Proof. intros U A p s is e i c HA HL Hi Hp Hn Hok Hc. exact (cut_completed U A p s is e i HL Hi Hp Hn Hok c HA Hc). Qed.
(** In particular for the token of a syntax error: [from_str] blames it, and nothing
    before it. *)
Theorem C80_blamed_token : forall U debug p s i c,
  from_str U debug (p ++ s) = RError (ParseErrorToken i) -> position (item_start i) = byte_len p -> no_word_across U p s ->
  is_whitespace c = true ->
  (forall j, from_str U debug (p ++ [c]) <> RError (ParseErrorToken j))
  /\ exists r v, parse_str U Program (p ++ c :: r) = POk v.
Proof.
  intros U debug p s i c H Hp Hn Hc.
  assert (P : parse_str U Program (p ++ s) = PErrToken i).
  { unfold from_str, emit_api in H. destruct (parse_str U Program (p ++ s)) as [v|j| | |]; try discriminate; [destruct (emit_program debug v); discriminate|congruence]. }
  destruct (lex U (p ++ s)) as [is e] eqn:HL.
  assert (Hi : In i is).
  { unfold parse_str in P. rewrite HL in P. apply parse_error_token_iff in P. destruct P as (u & r & -> & _). apply in_or_app. right. left. reflexivity. }
  assert (Hok : forall j, parse_str U Program (p ++ s) = PErrToken j -> byte_len p <= position (item_start j)).
  { intros j Hj. rewrite P in Hj. injection Hj as <-. lia. }
  split; [|destruct (C80_can_be_continued U Program p s is e i c ltac:(discriminate) HL Hi Hp Hn Hok Hc) as (r & v & _ & E); eauto].
  intros j Hj. unfold from_str, emit_api in Hj.
  destruct (C80_right_up_to_the_error U Program p s is e i c HL Hi Hp Hn Hok Hc) as [E|[v E]]; rewrite E in Hj; [discriminate|].
  destruct (emit_program debug v); discriminate.
Qed.

(** ** The hypotheses are met *)
Definition good_start : str := lit "scilla_version 0 contract C () transition T (a".
Example C80_witness : exists i, from_str U_none no_debug (good_start ++ lit ") end") = RError (ParseErrorToken i)
  /\ position (item_start i) = byte_len good_start /\ no_word_across U_none good_start (lit ") end")
  /\ from_str U_none no_debug (good_start ++ [32]) = RError ParseErrorEof
  /\ exists r v, parse_str U_none Program (good_start ++ 32 :: r) = POk v.
Proof.
  eexists. split; [vm_compute; reflexivity|]. split; [reflexivity|]. split.
  - intros a p' b s' _ E _ Hb. injection E as <- _. discriminate Hb.
  - split; [vm_compute; reflexivity|]. exists (lit ": Int32) end"). eexists. vm_compute. reflexivity.
Qed.
(** In the middle of a word it is not so: in [endé] the name [end] is read, and the
    error is the letter after it; cut there, the name is a keyword. *)
Theorem C80_inside_a_word_refuted : exists p s i j,
  parse_str U_latin Program (p ++ s) = PErrToken i /\ position (item_start i) = byte_len p
  /\ parse_str U_latin Program (p ++ [32]) = PErrToken j /\ position (item_start j) < byte_len p.
Proof.
  exists (lit "scilla_version 0 contract C (end"), [233]. do 2 eexists.
  split; [vm_compute; reflexivity|]. split; [reflexivity|]. split; [vm_compute; reflexivity|]. reflexivity.
Qed.
