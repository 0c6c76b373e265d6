(** Consequences of the segmentation theorem, in the form the properties use. *)
From Verif Require Import Chars Lexer LexSpec LexerProofs LexStep LexSegment.

(** *** Visited positions *)
Lemma visited_input U input p s ln b pr : visited U input p s ln b pr -> input = p ++ s.
Proof.
  induction 1; rewrite <- ?app_assoc; cbn [app]; auto.
Qed.

Lemma visited_bounds U input p s ln b pr : visited U input p s ln b pr -> b <= pr /\ pr <= byte_len p.
Proof.
  induction 1; rewrite ?byte_len_app; lia.
Qed.

(** Every item starts at a visited position, and its kind and positions are
    determined by the text there. *)
Definition item_at (U : unicode) (input : str) (i : item) : Prop :=
  exists p s ln b pr, visited U input p s ln b pr /\ ~ bad_word U s /\
    (exists c s', s = c :: s' /\ is_whitespace c = false) /\ (forall r, s <> open_comment ++ r) /\
    ((exists t x r, token_at U s t /\ s = token_text t ++ x ++ r /\ lost t x r /\
        i = (mkpos (byte_len p) ln (pr - b), t,
             mkpos (byte_len p + byte_len (token_text t)) ln (pr - b + byte_len (token_text t))))
     \/ ((forall t, ~ token_at U s t)
         /\ i = (mkpos (byte_len p) ln (pr - b), TUnknown, mkpos (byte_len p) ln (pr - b)))).

Lemma segmented_visited U input pos ln b pr s is e : segmented U pos ln b pr s is e ->
  forall p, visited U input p s ln b pr -> pos = byte_len p ->
  (forall i, In i is -> item_at U input i)
  /\ (e = LPanic -> exists p' s' ln' b' pr', visited U input p' s' ln' b' pr' /\ bad_word U s').
Proof.
  induction 1 as [pos ln b pr|pos ln b pr s is e H IH|pos ln b pr c s is e Hws H10 H IH|pos ln b pr c s is e Hc H IH
    |pos ln b pr c Hc|pos ln b pr t x s is e Hat Hnb Hl H IH|pos ln b pr c s is e Hws Hoc Hnt Hnb H IH|pos ln b pr s Hbad];
    intros p Hv ->.
  - split; [intros i []|discriminate].
  - apply (IH (p ++ [10])); [eapply vi_newline, Hv|]. rewrite byte_len_app. reflexivity.
  - apply (IH (p ++ [c])); [eapply vi_space; eassumption|]. rewrite byte_len_app. cbn [byte_len]. lia.
  - apply (IH (p ++ open_comment ++ c ++ close_comment)); [eapply vi_comment; eassumption|].
    rewrite (byte_len_app p). reflexivity.
  - split; [intros i []|discriminate].
  - destruct (token_at_first _ _ _ Hat Hnb) as (c & s' & Ec & Hws & Hoc).
    destruct (IH (p ++ token_text t ++ x)) as [I1 I2];
      [eapply vi_token; eassumption|rewrite (byte_len_app p); reflexivity|].
    split; [|exact I2]. intros i [<-|Hi]; [|exact (I1 i Hi)].
    exists p, (token_text t ++ x ++ s), ln, b, pr. split; [exact Hv|]. split; [exact Hnb|].
    split; [eauto|]. split; [exact Hoc|].
    left. exists t, x, s. repeat split; auto.
  - destruct (IH (p ++ [c])) as [I1 I2];
      [eapply vi_unknown; eassumption|rewrite byte_len_app; cbn [byte_len]; lia|].
    split; [|exact I2]. intros i [<-|Hi]; [|exact (I1 i Hi)].
    exists p, (c :: s), ln, b, pr. split; [exact Hv|]. split; [exact Hnb|].
    split; [eauto|]. split; [exact Hoc|]. right. split; [exact Hnt|reflexivity].
  - split; [intros i []|]. intros _. exists p, s, ln, b, pr. auto.
Qed.

Lemma lex_item_at U input items e i : lex U input = (items, e) -> In i items -> item_at U input i.
Proof.
  intros E Hi. apply lex_iff_segmented in E.
  eapply (proj1 (segmented_visited U input _ _ _ _ _ _ _ E [] (vi_start _ _) eq_refl)), Hi.
Qed.

Lemma lex_panic_visited U input items : lex U input = (items, LPanic) ->
  exists p s ln b pr, visited U input p s ln b pr /\ bad_word U s.
Proof.
  intros E. apply lex_iff_segmented in E.
  exact (proj2 (segmented_visited U input _ _ _ _ _ _ _ E [] (vi_start _ _) eq_refl) eq_refl).
Qed.

(** *** Tiling *)
Lemma layout_app g n g' n' : layout g n -> layout g' n' -> layout (g ++ g') (n + n').
Proof.
  intros H H'. induction H as [|c s n Hc H IH|c s n Hc H IH].
  - exact H'.
  - cbn [app]. replace ((if c =? 10 then n + 1 else n) + n') with (if c =? 10 then n + n' + 1 else n + n')
      by (destruct (c =? 10); lia). constructor; assumption.
  - rewrite <- !app_assoc. cbn [app]. apply lay_comment; assumption.
Qed.
Lemma layout_comment c : ~ occurs close_comment c -> layout (open_comment ++ c ++ close_comment) 0.
Proof.
  intro H. pose proof (lay_comment c [] 0 H lay_nil) as L. rewrite app_nil_r in L. exact L.
Qed.

Definition tile_end (U : unicode) (e : lex_end) (rest : str) : Prop :=
  (e = LEof /\ final_layout rest) \/ (e = LPanic /\ exists g n s, layout g n /\ rest = g ++ s /\ bad_word U s).

Lemma segmented_tiled U pos ln b pr s is e : segmented U pos ln b pr s is e ->
  forall g n pos0 ln0, layout g n -> pos = pos0 + byte_len g -> ln = ln0 + n ->
  exists rest, tiled pos0 ln0 is (g ++ s) rest /\ tile_end U e rest.
Proof.
  induction 1 as [pos ln b pr|pos ln b pr s is e H IH|pos ln b pr c s is e Hws H10 H IH|pos ln b pr c s is e Hc H IH
    |pos ln b pr c Hc|pos ln b pr t x s is e Hat Hnb Hl H IH|pos ln b pr c s is e Hws Hoc Hnt Hnb H IH|pos ln b pr s Hbad];
    intros g n pos0 ln0 Hg -> ->.
  - exists (g ++ []). split; [constructor|]. left. split; [reflexivity|].
    exists g, n. rewrite app_nil_r. auto.
  - destruct (IH (g ++ [10]) (n + 1) pos0 ln0) as (rest & I1 & I2).
    + apply layout_app; [exact Hg|]. apply (lay_space 10 [] 0); constructor.
    + rewrite byte_len_app. change (byte_len [10]) with 1. lia.
    + lia.
    + exists rest. split; [|exact I2]. rewrite <- app_assoc in I1. exact I1.
  - destruct (IH (g ++ [c]) (n + 0) pos0 ln0) as (rest & I1 & I2).
    + apply layout_app; [exact Hg|]. pose proof (lay_space c [] 0 Hws lay_nil) as L.
      rewrite (proj2 (N.eqb_neq _ _) H10) in L. exact L.
    + rewrite byte_len_app. cbn [byte_len]. lia.
    + lia.
    + exists rest. split; [|exact I2]. rewrite <- app_assoc in I1. exact I1.
  - destruct (IH (g ++ open_comment ++ c ++ close_comment) (n + 0) pos0 ln0) as (rest & I1 & I2).
    + apply layout_app; [exact Hg|]. apply layout_comment, Hc.
    + rewrite (byte_len_app g). lia.
    + lia.
    + exists rest. split; [|exact I2]. rewrite <- !app_assoc in I1. exact I1.
  - eexists. split; [constructor|]. left. split; [reflexivity|].
    exists g, n. split; [exact Hg|]. right. exists c. auto.
  - destruct (IH [] 0 (pos0 + byte_len g + byte_len (token_text t ++ x)) (ln0 + n) lay_nil) as (rest & I1 & I2);
      [cbn [byte_len]; lia|lia|].
    exists rest. split; [|exact I2]. apply (ti_token _ _ g n); cbn [position line]; auto.
    + eapply token_at_not_unknown, Hat.
    + eapply token_at_prefix, Hat.
    + cbn [app] in I1. rewrite byte_len_app, N.add_assoc in I1. exact I1.
  - destruct (IH [] 0 (pos0 + byte_len g + len_utf8 c) (ln0 + n) lay_nil) as (rest & I1 & I2);
      [cbn [byte_len]; lia|lia|].
    exists rest. split; [|exact I2]. apply (ti_unknown _ _ g n); cbn [position line]; auto.
  - eexists. split; [constructor|]. right. split; [reflexivity|]. exists g, n, s. auto.
Qed.

Lemma lex_tiled U input items e : lex U input = (items, e) ->
  exists rest, tiled 0 0 items input rest /\ tile_end U e rest.
Proof.
  intro E. apply lex_iff_segmented in E.
  exact (segmented_tiled _ _ _ _ _ _ _ _ E [] 0 0 0 lay_nil eq_refl eq_refl).
Qed.

(** *** Order of the items *)
Lemma byte_len_pos s : s <> [] -> 0 < byte_len s.
Proof. destruct s as [|c s]; [congruence|]. intros _. cbn [byte_len]. pose proof (len_utf8_pos c). lia. Qed.

Lemma tiled_item pos ln items s rest : tiled pos ln items s rest -> forall n a,
  nth_error items n = Some a -> pos <= position (item_start a)
  /\ position (item_start a) <= position (item_end a)
  /\ position (item_end a) <= pos + byte_len s
  /\ position (item_start a) < pos + byte_len s
  /\ line (item_end a) = line (item_start a) /\ ln <= line (item_start a).
Proof.
  induction 1 as [pos ln s|pos ln g k a t b x items s rest Hg Ht Hne Ha Hla Hb Hlb Hl H IH
    |pos ln g k a c items s rest Hg Hws Ha Hla H IH]; intros n i Hn.
  - destruct n; discriminate.
  - rewrite !byte_len_app. pose proof (byte_len_pos _ Hne). destruct n as [|n].
    + injection Hn as <-. unfold item_start, item_end. cbn [fst snd]. lia.
    + specialize (IH n i Hn). lia.
  - rewrite !byte_len_app. cbn [byte_len]. pose proof (len_utf8_pos c). destruct n as [|n].
    + injection Hn as <-. unfold item_start, item_end. cbn [fst snd]. lia.
    + specialize (IH n i Hn). lia.
Qed.

Lemma tiled_order pos ln items s rest : tiled pos ln items s rest -> forall n m a b,
  nth_error items n = Some a -> nth_error items m = Some b -> (n < m)%nat ->
  position (item_end a) <= position (item_start b)
  /\ position (item_start a) < position (item_start b)
  /\ line (item_start a) <= line (item_start b).
Proof.
  induction 1 as [pos ln s|pos ln g k a t b x items s rest Hg Ht Hne Ha Hla Hb Hlb Hl H IH
    |pos ln g k a c items s rest Hg Hws Ha Hla H IH]; intros n m i j Hn Hm Hlt.
  - destruct n; discriminate.
  - destruct m as [|m]; [lia|]. destruct n as [|n].
    + injection Hn as <-. pose proof (tiled_item _ _ _ _ _ H m j Hm) as P.
      pose proof (byte_len_pos _ Hne). unfold item_start at 1 2 3, item_end. cbn [fst snd]. unfold item_start in *.
      cbn [fst snd] in *. lia.
    + apply (IH n m i j Hn Hm). lia.
  - destruct m as [|m]; [lia|]. pose proof (len_utf8_pos c). destruct n as [|n].
    + injection Hn as <-. pose proof (tiled_item _ _ _ _ _ H m j Hm) as P.
      unfold item_start, item_end in *. cbn [fst snd] in *. lia.
    + apply (IH n m i j Hn Hm). lia.
Qed.

Lemma tiled_count pos ln items s rest : tiled pos ln items s rest ->
  (List.length items + List.length rest <= List.length s)%nat.
Proof.
  induction 1 as [pos ln s|pos ln g k a t b x items s rest Hg Ht Hne Ha Hla Hb Hlb Hl H IH
    |pos ln g k a c items s rest Hg Hws Ha Hla H IH]; cbn [List.length]; rewrite ?len_app; cbn [List.length]; try lia.
  destruct (token_text t); [congruence|]. cbn [List.length]. lia.
Qed.

(** *** Token sequences do not depend on where the text stands *)
Lemma segmented_shift U pos ln b pr s is e : segmented U pos ln b pr s is e ->
  forall pos' ln' b' pr', exists is', segmented U pos' ln' b' pr' s is' e
    /\ map item_token is' = map item_token is.
Proof.
  induction 1 as [pos ln b pr|pos ln b pr s is e H IH|pos ln b pr c s is e Hws H10 H IH|pos ln b pr c s is e Hc H IH
    |pos ln b pr c Hc|pos ln b pr t x s is e Hat Hnb Hl H IH|pos ln b pr c s is e Hws Hoc Hnt Hnb H IH|pos ln b pr s Hbad];
    intros pos' ln' b' pr'.
  - exists []. split; [constructor|reflexivity].
  - destruct (IH (pos' + 1) (ln' + 1) pos' pos') as (is' & I1 & I2). exists is'. split; [constructor|]; assumption.
  - edestruct IH as (is' & I1 & I2). exists is'. split; [apply sg_space; eassumption|assumption].
  - edestruct IH as (is' & I1 & I2). exists is'. split; [apply sg_comment; eassumption|assumption].
  - exists []. split; [constructor; assumption|reflexivity].
  - edestruct IH as (is' & I1 & I2). eexists. split; [apply sg_token; eassumption|]. cbn. f_equal. exact I2.
  - edestruct IH as (is' & I1 & I2). eexists. split; [apply sg_unknown; eassumption|]. cbn. f_equal. exact I2.
  - exists []. split; [constructor; assumption|reflexivity].
Qed.

(** The tokens of a text, and how the lexing ends. *)
Definition tokens_of (U : unicode) (s : str) : list token * lex_end :=
  let '(items, e) := lex U s in (map item_token items, e).

Lemma segmented_tokens U pos ln b pr s is e : segmented U pos ln b pr s is e ->
  tokens_of U s = (map item_token is, e).
Proof.
  intro H. destruct (segmented_shift _ _ _ _ _ _ _ _ H 0 0 0 0) as (is' & H' & E).
  apply lex_iff_segmented in H'. unfold tokens_of. rewrite H', E. reflexivity.
Qed.

Lemma segmented_exists U s pos ln b pr : exists is e, segmented U pos ln b pr s is e
   /\ tokens_of U s = (map item_token is, e).
Proof.
  pose proof (lex_segmented U s) as H. destruct (lex U s) as [is e].
  destruct (segmented_shift _ _ _ _ _ _ _ _ H pos ln b pr) as (is' & H' & E).
  exists is', e. split; [exact H'|]. eapply segmented_tokens, H'.
Qed.

Lemma seg_tokens_layout U g n s : layout g n -> forall ts e,
  tokens_of U s = (ts, e) -> forall pos ln b pr,
  exists is, segmented U pos ln b pr (g ++ s) is e /\ map item_token is = ts.
Proof.
  intros Hg ts e E. induction Hg as [|c g n Hc Hg IH|c g n Hc Hg IH]; intros pos ln b pr.
  - destruct (segmented_exists U s pos ln b pr) as (is & e' & H & E'). rewrite E in E'.
    injection E' as -> ->. exists is. auto.
  - cbn [app]. destruct (N.eq_dec c 10) as [->|Hn].
    + edestruct IH as (is & H & Em). exists is. split; [apply sg_newline; eassumption|exact Em].
    + edestruct IH as (is & H & Em). exists is. split; [apply sg_space; eassumption|exact Em].
  - rewrite <- !app_assoc. edestruct IH as (is & H & Em). exists is.
    split; [apply sg_comment; eassumption|exact Em].
Qed.

Lemma tokens_layout U g n s : layout g n -> tokens_of U (g ++ s) = tokens_of U s.
Proof.
  intro Hg. destruct (tokens_of U s) as [ts e] eqn:E.
  destruct (seg_tokens_layout U g n s Hg ts e E 0 0 0 0) as (is & H & <-).
  eapply segmented_tokens, H.
Qed.

Lemma tokens_final U g : final_layout g -> tokens_of U g = ([], LEof).
Proof.
  intros (g' & n & Hg & [->|(c & Hc & ->)]).
  - rewrite <- (app_nil_r g'). rewrite (tokens_layout U g' n [] Hg). reflexivity.
  - rewrite (tokens_layout U g' n _ Hg). apply (segmented_tokens U 0 0 0 0 _ []). apply sg_open_comment, Hc.
Qed.

Lemma tokens_token U t x s : token_at U (token_text t ++ x ++ s) t -> ~ bad_word U (token_text t ++ x ++ s) ->
  lost t x s ->
  tokens_of U (token_text t ++ x ++ s) = (let '(ts, e) := tokens_of U s in (t :: ts, e)).
Proof.
  intros H1 H2 H3.
  destruct (segmented_exists U s (0 + byte_len (token_text t ++ x)) 0 0 0) as (is & e & H & ->).
  rewrite (segmented_tokens U 0 0 0 0 _ _ _ (sg_token _ _ _ _ _ _ _ _ _ _ H1 H2 H3 H)). reflexivity.
Qed.
