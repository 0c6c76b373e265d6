(** Proofs about Lexer.v: the lexer computes the segmentation of LexSpec.v. *)
From Verif Require Import Chars Lexer LexSpec.
From Coq Require Import ZifyBool ZifyNat ZifyN.

(** ** Characters and strings *)
Lemma len_utf8_pos c : 1 <= len_utf8 c.
Proof. unfold len_utf8. destruct (c <? 128), (c <? 2048), (c <? 65536); lia. Qed.
Lemma len_utf8_ascii c : is_ascii c = true -> len_utf8 c = 1.
Proof. unfold len_utf8, is_ascii. intros ->. reflexivity. Qed.
Lemma byte_len_app a b : byte_len (a ++ b) = byte_len a + byte_len b.
Proof. induction a as [|c a IH]; cbn [app byte_len]; [reflexivity|]. rewrite IH. lia. Qed.
Lemma byte_len_ge s : N.of_nat (List.length s) <= byte_len s.
Proof.
  induction s as [|c s IH]; cbn [List.length byte_len]; [reflexivity|].
  pose proof (len_utf8_pos c). lia.
Qed.
Lemma byte_len_ascii s : ascii_str s = true -> byte_len s = N.of_nat (List.length s).
Proof.
  induction s as [|c s IH]; cbn [ascii_str forallb byte_len List.length]; [reflexivity|].
  rewrite andb_true_iff. intros [Hc Hs]. rewrite (len_utf8_ascii c Hc), (IH Hs). lia.
Qed.
Lemma ascii_app a b : ascii_str (a ++ b) = ascii_str a && ascii_str b.
Proof. apply forallb_app. Qed.

Lemma str_eqb_eq a b : str_eqb a b = true <-> a = b.
Proof.
  revert b. induction a as [|x a IH]; intros [|y b]; cbn [str_eqb]; split; intro H;
    try discriminate; try reflexivity.
  - rewrite andb_true_iff in H. destruct H as [H1 H2]. apply N.eqb_eq in H1. apply IH in H2. congruence.
  - injection H as -> ->. rewrite N.eqb_refl. apply IH. reflexivity.
Qed.

Lemma starts_with_spec p s : starts_with p s = true <-> exists r, s = p ++ r.
Proof.
  revert s. induction p as [|x p IH]; intros s; cbn [starts_with].
  - split; [intros _; exists s; reflexivity|reflexivity].
  - destruct s as [|y s].
    + split; [discriminate|]. intros (r & H). discriminate.
    + rewrite andb_true_iff, IH, N.eqb_eq. split.
      * intros [-> (r & ->)]. exists r. reflexivity.
      * intros (r & H). injection H as -> ->. split; [reflexivity|]. exists r. reflexivity.
Qed.

Lemma is_word_ascii c : is_word c = true -> is_ascii c = true.
Proof. unfold is_word, is_lower, is_upper, is_digit, in_range, is_ascii. lia. Qed.
Lemma is_digit_word c : is_digit c = true -> is_word c = true.
Proof. unfold is_word. intros ->. rewrite !orb_true_r. reflexivity. Qed.
Lemma is_lower_word c : is_lower c = true -> is_word c = true.
Proof. unfold is_word. intros ->. reflexivity. Qed.
Lemma is_upper_word c : is_upper c = true -> is_word c = true.
Proof. unfold is_word. intros ->. rewrite orb_true_r. reflexivity. Qed.
Lemma is_hex_word c : is_hex c = true -> is_word c = true.
Proof. unfold is_hex, is_word, is_lower, is_upper, is_digit, in_range. lia. Qed.

Lemma word_char_ascii U c : is_ascii c = true -> word_char U c = is_word c.
Proof.
  unfold word_char, is_alphanumeric, is_alphabetic, is_numeric, is_ascii, is_word. intros ->.
  destruct (is_lower c), (is_upper c), (is_digit c), (c =? 95); reflexivity.
Qed.
Lemma is_word_char U c : is_word c = true -> word_char U c = true.
Proof. intro H. rewrite word_char_ascii; [exact H|apply is_word_ascii, H]. Qed.
Lemma is_alnum_under_eq U c : is_alnum_under U c = word_char U c.
Proof. reflexivity. Qed.
Lemma whitespace_not_word U c : is_whitespace c = true -> word_char U c = false.
Proof.
  intro H. unfold word_char, is_alphanumeric, is_alphabetic, is_numeric. rewrite H. cbn [negb andb].
  destruct (c <? 128) eqn:E.
  - revert H E. unfold is_whitespace, is_lower, is_upper, is_digit, in_range. lia.
  - apply N.ltb_ge in E. cbn. apply N.eqb_neq. lia.
Qed.
Lemma numeric_word U c : is_numeric U c = true -> word_char U c = true.
Proof. unfold word_char, is_alphanumeric. intros ->. rewrite orb_true_r. reflexivity. Qed.

(** [take_while] *)
Lemma take_while_spec p s : exists r, s = take_while p s ++ r
  /\ Forall (fun c => p c = true) (take_while p s) /\ not_followed_by p r.
Proof.
  induction s as [|c s (r & IH1 & IH2 & IH3)]; cbn [take_while].
  - exists []. repeat constructor.
  - destruct (p c) eqn:E.
    + exists r. split; [cbn [app]; congruence|]. split; [constructor; assumption|exact IH3].
    + exists (c :: s). split; [reflexivity|]. split; [constructor|exact E].
Qed.

Lemma maximal_unique p (w r w' r' : str) : w ++ r = w' ++ r' ->
  Forall (fun c => p c = true) w -> not_followed_by p r ->
  Forall (fun c => p c = true) w' -> not_followed_by p r' -> w = w' /\ r = r'.
Proof.
  intros E Hw Hr. revert w' E. induction Hw as [|c w Hc Hw IH]; intros w' E Hw' Hr'.
  - destruct w' as [|c' w']; [auto|]. cbn in E. subst r. cbn in Hr.
    inversion Hw'; subst. congruence.
  - destruct Hw' as [|c' w' Hc' Hw'].
    + cbn in E. subst r'. cbn in Hr'. congruence.
    + cbn in E. injection E as -> E. destruct (IH w' E Hw' Hr') as [-> ->]. auto.
Qed.

Lemma take_while_app p w r : Forall (fun c => p c = true) w -> not_followed_by p r ->
  take_while p (w ++ r) = w.
Proof.
  intros Hw Hr. induction Hw as [|c w Hc Hw IH]; cbn [app take_while].
  - destruct r as [|c r]; [reflexivity|]. cbn in Hr. cbn. rewrite Hr. reflexivity.
  - rewrite Hc, IH. reflexivity.
Qed.

(** [slice_to] *)
Lemma slice_to_some s : forall n t, slice_to s n = Some t -> exists r, s = t ++ r /\ byte_len t = n.
Proof.
  induction s as [|c s IH]; intros n t; cbn [slice_to]; destruct (n =? 0) eqn:E.
  - apply N.eqb_eq in E. intros [= <-]. subst. exists []. auto.
  - discriminate.
  - apply N.eqb_eq in E. intros [= <-]. subst. exists (c :: s). auto.
  - destruct (len_utf8 c <=? n) eqn:El; [|discriminate].
    destruct (slice_to s (n - len_utf8 c)) as [t'|] eqn:Et; [|discriminate].
    intros [= <-]. destruct (IH _ _ Et) as (r & -> & Hb). exists r. split; [reflexivity|].
    cbn [byte_len]. lia.
Qed.

Lemma slice_to_app t r : slice_to (t ++ r) (byte_len t) = Some t.
Proof.
  induction t as [|c t IH]; cbn [app byte_len].
  - destruct r; reflexivity.
  - pose proof (len_utf8_pos c). cbn [slice_to].
    replace (len_utf8 c + byte_len t =? 0) with false by lia.
    replace (len_utf8 c <=? len_utf8 c + byte_len t) with true by lia.
    replace (len_utf8 c + byte_len t - len_utf8 c) with (byte_len t) by lia.
    rewrite IH. reflexivity.
Qed.

Lemma prefix_same_bytes (a b r r' : str) : a ++ r = b ++ r' -> byte_len a = byte_len b -> a = b.
Proof.
  revert b. induction a as [|c a IH]; intros [|d b] E H; cbn [byte_len] in H.
  - reflexivity.
  - pose proof (len_utf8_pos d). lia.
  - pose proof (len_utf8_pos c). lia.
  - cbn in E. injection E as -> E. f_equal. apply IH; [exact E|lia].
Qed.

(** ** Words *)
Lemma word_index_from_spec U s : forall i, exists w r, s = w ++ r
  /\ Forall (fun c => word_char U c = true) w /\ not_followed_by (word_char U) r
  /\ word_index_from U i s = match r with [] => 0 | _ => i + N.of_nat (List.length w) end.
Proof.
  induction s as [|c s IH]; intro i; cbn [word_index_from].
  - exists [], []. repeat constructor.
  - rewrite is_alnum_under_eq. destruct (word_char U c) eqn:E.
    + destruct (IH (i + 1)) as (w & r & -> & Hw & Hr & Hi).
      exists (c :: w), r. split; [reflexivity|]. split; [constructor; assumption|]. split; [exact Hr|].
      rewrite Hi. destruct r; [reflexivity|]. cbn [List.length]. lia.
    + exists [], (c :: s). split; [reflexivity|]. split; [constructor|]. split; [exact E|].
      cbn [List.length]. lia.
Qed.

Lemma word_at_fun U s w w' : word_at U s w -> word_at U s w' -> w = w'.
Proof.
  intros (r & E & Hw & Hr) (r' & E' & Hw' & Hr'). rewrite E in E'.
  exact (proj1 (maximal_unique (word_char U) _ _ _ _ E' Hw Hr Hw' Hr')).
Qed.

Lemma word_at_exists U s : exists w, word_at U s w.
Proof.
  destruct (take_while_spec (word_char U) s) as (r & E & H & Hr).
  exists (take_while (word_char U) s), r. auto.
Qed.

(** The slice compared with the keywords: either a panic at a bad word, or a
    text that is the maximal word whenever it is an ASCII text starting with a
    word character. *)
Lemma keyword_token_spec U s :
  match keyword_token U s with
  | None => bad_word U s
  | Some kw => ~ bad_word U s /\
      exists w, word_at U s w /\
        ((kw = s /\ (w = s \/ w = [])) \/
         (w <> [] /\ w <> s /\ byte_len kw = N.of_nat (List.length w) /\ exists r, s = kw ++ r))
  end.
Proof.
  unfold keyword_token, word_index.
  destruct (word_index_from_spec U s 0) as (w & r & Es & Hw & Hr & Hi). rewrite Hi. clear Hi.
  assert (Hat : word_at U s w) by (exists r; auto).
  assert (Hfun : forall w' r', s = w' ++ r' -> word_at U s w' -> w' = w /\ r' = r).
  { intros w' r' E H. pose proof (word_at_fun U s _ _ H Hat) as ->. split; [reflexivity|].
    rewrite Es in E. apply app_inv_head in E. auto. }
  destruct r as [|c r].
  - change (0 <? 0) with false. cbn match.
    rewrite app_nil_r in Es. subst s. split.
    + intros (w' & r' & E & _ & Hr' & H & _). destruct (Hfun _ _ E H) as [_ ->]. congruence.
    + exists w. split; [exact Hat|]. left. auto.
  - destruct w as [|c' w].
    + cbn [List.length]. change (0 <? 0 + N.of_nat 0) with false. cbn match.
      split.
      * intros (w' & r' & E & Hne & _ & H & _). destruct (Hfun _ _ E H) as [-> _]. congruence.
      * exists []. split; [exact Hat|]. left. auto.
    + replace (0 <? 0 + N.of_nat (List.length (c' :: w))) with true by (cbn [List.length]; lia).
      destruct (slice_to s (0 + N.of_nat (List.length (c' :: w)))) as [kw|] eqn:Esl.
      * destruct (slice_to_some _ _ _ Esl) as (r' & Es' & Hb). split.
        -- intros (w' & r1 & E & _ & _ & H & Hbad). destruct (Hfun _ _ E H) as [-> ->].
           (* kw is a prefix of the word *)
           assert (exists q, c' :: w = kw ++ q) as (q & Hq).
           { assert (Hlen : (List.length kw <= List.length (c' :: w))%nat).
             { pose proof (byte_len_ge kw). lia. }
             rewrite Es in Es'. clear - Es' Hlen. revert Es' Hlen. generalize (c' :: w) as v. intro v.
             revert v. induction kw as [|k kw IH]; intros v E Hl; [exists v; reflexivity|].
             destruct v as [|x v]; [cbn in Hl; lia|]. cbn in E. injection E as -> E.
             destruct (IH v E) as (q & ->); [cbn in Hl; lia|]. exists q. reflexivity. }
           apply (Hbad kw q Hq). rewrite Hb. lia.
        -- exists (c' :: w). split; [exact Hat|]. right. split; [discriminate|]. split.
           ++ intro E. rewrite Es in E. rewrite <- (app_nil_r (c' :: w)) in E at 1.
              apply app_inv_head in E. discriminate.
           ++ split; [lia|]. exists r'. exact Es'.
      * exists (c' :: w), (c :: r). split; [exact Es|]. split; [discriminate|]. split; [discriminate|].
        split; [exact Hat|]. intros p q Hpq Hb. rewrite Es, Hpq, <- app_assoc in Esl.
        rewrite <- Hpq in Esl. replace (0 + N.of_nat (List.length (c' :: w))) with (byte_len p) in Esl by lia.
        rewrite slice_to_app in Esl. discriminate.
Qed.

Lemma keywords_eq : keywords = keyword_list.
Proof. reflexivity. Qed.

Lemma assoc_in k t : assoc k keywords = Some t -> In (k, t) keyword_list.
Proof.
  rewrite <- keywords_eq. generalize keywords as l.
  induction l as [|[k' t'] l IH]; cbn [assoc]; [discriminate|].
  destruct (str_eqb k k') eqn:E.
  - apply str_eqb_eq in E. intros [= ->]. subst. left; reflexivity.
  - intro H. right; auto.
Qed.

Definition kw_facts (kt : str * token) : bool :=
  let '(k, t) := kt in
  str_eqb (token_text t) k && forallb is_word k && (2 <=? N.of_nat (List.length k))
  && match k with c :: _ => is_lower c || is_upper c | [] => false end
  && negb (starts_with kw_bystr k)
  && match assoc k keywords with Some t' => str_eqb (token_text t') (token_text t) | None => false end.
Lemma kw_facts_ok : forallb kw_facts keyword_list = true.
Proof. vm_compute. reflexivity. Qed.

Lemma keyword_props k t : In (k, t) keyword_list ->
  token_text t = k /\ all_word k /\ (2 <= List.length k)%nat /\ starts_with kw_bystr k = false
  /\ (forall c r, k = c :: r -> is_lower c || is_upper c = true).
Proof.
  intro H. pose proof (proj1 (forallb_forall _ _) kw_facts_ok _ H) as F. unfold kw_facts in F.
  rewrite !andb_true_iff in F. destruct F as [[[[[F1 F2] F3] F4] F5] _].
  apply str_eqb_eq in F1. split; [exact F1|]. split.
  - apply Forall_forall. intros c Hc. apply (proj1 (forallb_forall _ _) F2 c Hc).
  - split; [lia|]. split; [apply negb_true_iff, F5|].
    intros c r ->. exact F4.
Qed.

Lemma assoc_keyword k t : In (k, t) keyword_list -> assoc k keywords = Some t.
Proof.
  intro H. repeat (destruct H as [H|H]; [injection H as <- <-; vm_compute; reflexivity|]). destruct H.
Qed.

Lemma assoc_none k : assoc k keywords = None -> ~ is_keyword k.
Proof.
  intros H Hk. unfold is_keyword in Hk. apply in_map_iff in Hk. destruct Hk as ([k' t] & Ek & Hin).
  cbn in Ek. subst. rewrite (assoc_keyword _ _ Hin) in H. discriminate.
Qed.

Lemma all_word_chars U w : all_word w -> Forall (fun c => word_char U c = true) w.
Proof. intro H. eapply Forall_impl; [|exact H]. intro c. apply is_word_char. Qed.
Lemma all_word_ascii w : all_word w -> ascii_str w = true.
Proof.
  intro H. apply forallb_forall. intros c Hc. unfold all_word in H. rewrite Forall_forall in H. apply is_word_ascii, H, Hc.
Qed.

(** ** The string regex *)
Lemma re_string_tail_cons c r : re_string_tail (c :: r) =
  if c =? 34 then Some [c]
  else if c =? 92 then
    match r with
    | d :: r' =>
        if d =? 10 then match re_string_tail r with Some t => Some (c :: t) | None => None end
        else match re_string_tail r' with
             | Some t => Some (c :: d :: t)
             | None => match re_string_tail r with Some t => Some (c :: t) | None => None end
             end
    | [] => None
    end
  else match re_string_tail r with Some t => Some (c :: t) | None => None end.
Proof. destruct r; reflexivity. Qed.

Lemma re_string_tail_spec : forall n s, (List.length s <= n)%nat ->
  match re_string_tail s with
  | None => ~ In 34 s
  | Some m => exists b r, m = b ++ [34] /\ s = b ++ 34 :: r /\
      (string_body b \/ ((forall b' r', string_body b' -> s <> b' ++ 34 :: r') /\ ~ In 34 r))
  end.
Proof.
  induction n as [|n IH]; intros s Hs.
  - destruct s; [|cbn in Hs; lia]. cbn. auto.
  - destruct s as [|c s]; [cbn; auto|]. rewrite ?re_string_tail_cons.
    destruct (c =? 34) eqn:E34.
    { apply N.eqb_eq in E34. subst c. exists [], s. cbn. repeat split. left. constructor. }
    apply N.eqb_neq in E34. cbn [List.length] in Hs.
    destruct (c =? 92) eqn:E92.
    + apply N.eqb_eq in E92. subst c. destruct s as [|d s'].
      { cbn. intros [H|[]]. lia. }
      destruct (d =? 10) eqn:E10.
      * pose proof (IH (d :: s') ltac:(cbn in *; lia)) as P.
        destruct (re_string_tail (d :: s')) as [m|]; apply N.eqb_eq in E10; subst d.
        -- destruct P as (b & r & -> & Hs' & Hb). exists (92 :: b), r. split; [reflexivity|].
           split; [cbn [app]; rewrite Hs'; reflexivity|]. destruct Hb as [Hb|[Hno Hr]].
           ++ left. destruct Hb as [|c b Hc1 Hc2 Hb|c b Hc Hb|b Hb]; cbn in Hs'; try discriminate.
              injection Hs' as <- _. apply sb_newline, Hb.
           ++ right. split; [|exact Hr]. intros b' r' Hb' E.
              destruct Hb' as [|c b' Hc1 Hc2 Hb'|c b' Hc Hb'|b' Hb']; cbn in E; try discriminate.
                ** injection E as E _. congruence.
              ** injection E as E _. congruence.
              ** injection E as E. apply (Hno (10 :: b') r'); [constructor; [lia|lia|exact Hb']|].
                 cbn. rewrite E. reflexivity.
        -- intros [H|H]; [lia|]. apply P, H.
      * apply N.eqb_neq in E10. pose proof (IH s' ltac:(cbn in *; lia)) as P.
        destruct (re_string_tail s') as [m|] eqn:Em.
        -- destruct P as (b & r & -> & Hs' & Hb). exists (92 :: d :: b), r. split; [reflexivity|].
           split; [cbn [app]; rewrite Hs'; reflexivity|]. destruct Hb as [Hb|[Hno Hr]].
           ++ left. apply sb_escape; assumption.
           ++ right. split; [|exact Hr]. intros b' r' Hb' E.
              destruct Hb' as [|c b' Hc1 Hc2 Hb'|c b' Hc Hb'|b' Hb']; cbn in E; try discriminate.
              ** injection E as E _. congruence.
              ** injection E as E1 E2. apply (Hno b' r' Hb'). exact E2.
              ** injection E as E1 _. congruence.
        -- rewrite re_string_tail_cons. destruct (d =? 34) eqn:Ed.
           ++ apply N.eqb_eq in Ed. subst d. exists [92], s'. split; [reflexivity|]. split; [reflexivity|].
              right. split; [|exact P]. intros b' r' Hb' E.
              destruct Hb' as [|c b' Hc1 Hc2 Hb'|c b' Hc Hb'|b' Hb']; cbn in E; try discriminate.
              ** injection E as E _. congruence.
              ** injection E as _ E. apply P. rewrite E, in_app_iff. right; left; reflexivity.
           ++ apply N.eqb_neq in Ed. pose proof (IH (d :: s') ltac:(cbn in *; lia)) as P2.
              rewrite re_string_tail_cons in P2. rewrite (proj2 (N.eqb_neq d 34) Ed) in P2.
              match type of P2 with match ?x with _ => _ end => set (y := x) in P2 |- * end.
              assert (y = None) as ->.
              { destruct y as [m|]; [|reflexivity]. exfalso. destruct P2 as (b & r & _ & E & _).
                apply P. destruct b as [|x b]; cbn in E; injection E as E1 E2; [congruence|].
                rewrite E2, in_app_iff. right; left; reflexivity. }
              intros [H|H]; [lia|]. apply P2, H.
    + apply N.eqb_neq in E92. pose proof (IH s ltac:(lia)) as P.
      destruct (re_string_tail s) as [m|].
      * destruct P as (b & r & -> & Hs' & Hb). exists (c :: b), r. split; [reflexivity|].
        split; [cbn [app]; rewrite Hs'; reflexivity|]. destruct Hb as [Hb|[Hno Hr]].
        -- left. apply sb_char; assumption.
        -- right. split; [|exact Hr]. intros b' r' Hb' E.
           destruct Hb' as [|c' b' Hc1 Hc2 Hb'|c' b' Hc Hb'|b' Hb']; cbn in E.
           ++ injection E as E _. congruence.
           ++ injection E as E1 E2. apply (Hno b' r' Hb'). exact E2.
           ++ injection E as E1 _. congruence.
           ++ injection E as E1 _. congruence.
      * intros [H|H]; [lia|]. apply P, H.
Qed.

Lemma re_string_tail_body b r : string_body b -> re_string_tail (b ++ 34 :: r) = Some (b ++ [34]).
Proof.
  intro H. induction H as [|c s H34 H92 H IH|c s H10 H IH|s H IH]; cbn [app].
  - reflexivity.
  - rewrite re_string_tail_cons. rewrite (proj2 (N.eqb_neq c 34) H34), (proj2 (N.eqb_neq c 92) H92), IH. reflexivity.
  - rewrite re_string_tail_cons. change (92 =? 34) with false. change (92 =? 92) with true. cbn match.
    rewrite (proj2 (N.eqb_neq c 10) H10), IH. reflexivity.
  - rewrite re_string_tail_cons. change (92 =? 34) with false. change (92 =? 92) with true.
    change (10 =? 10) with true. change (10 =? 34) with false. change (10 =? 92) with false.
    cbn match. rewrite re_string_tail_cons. change (10 =? 34) with false. change (10 =? 92) with false.
    cbn match. rewrite IH. reflexivity.
Qed.

Lemma last_quote_unique (b r b' r' : str) : b ++ 34 :: r = b' ++ 34 :: r' -> ~ In 34 r -> ~ In 34 r' ->
  b = b' /\ r = r'.
Proof.
  revert b'. induction b as [|c b IH]; intros [|c' b'] E Hr Hr'; cbn in E.
  - injection E as ->. auto.
  - injection E as _ ->. exfalso. apply Hr. rewrite in_app_iff. right; left; reflexivity.
  - injection E as _ <-. exfalso. apply Hr'. rewrite in_app_iff. right; left; reflexivity.
  - injection E as -> E. destruct (IH b' E Hr Hr') as [-> ->]. auto.
Qed.

Lemma string_body_unique b r b' r' : string_body b -> string_body b' ->
  b ++ 34 :: r = b' ++ 34 :: r' -> b = b' /\ r = r'.
Proof.
  intros H H' E. pose proof (re_string_tail_body b r H) as E1. rewrite E, (re_string_tail_body b' r' H') in E1.
  injection E1 as E1. apply app_inj_tail in E1. destruct E1 as [-> _]. split; [reflexivity|].
  apply app_inv_head in E. congruence.
Qed.

(** ** Hexadecimal *)
Lemma hex_pairs_spec : forall n s, (List.length s <= n)%nat -> exists r, s = hex_pairs s ++ r
  /\ hex_digits (hex_pairs s)
  /\ (forall a b r', r = a :: b :: r' -> is_hex a = true -> is_hex b = true -> False).
Proof.
  induction n as [|n IH]; intros s Hs.
  - destruct s; [|cbn in Hs; lia]. exists []. repeat split; [constructor|discriminate].
  - destruct s as [|a [|b s]]; cbn [hex_pairs].
    + exists []. repeat split; [constructor|discriminate].
    + exists [a]. repeat split; [constructor|discriminate].
    + destruct (is_hex a && is_hex b) eqn:E.
      * apply andb_true_iff in E. destruct E as [Ea Eb].
        destruct (IH s ltac:(cbn in Hs; lia)) as (r & E & Hd & Hr). exists r. split; [cbn; congruence|].
        split; [constructor; assumption|exact Hr].
      * exists (a :: b :: s). split; [reflexivity|]. split; [constructor|].
        intros a' b' r' [= <- <- <-] Ha Hb. rewrite Ha, Hb in E. discriminate.
Qed.

Lemma hex_pairs_app hs r : hex_digits hs ->
  (forall a b r', r = a :: b :: r' -> is_hex a = true -> is_hex b = true -> False) ->
  hex_pairs (hs ++ r) = hs.
Proof.
  intros H Hr. induction H as [|a b s Ha Hb H IH]; cbn [app hex_pairs].
  - destruct r as [|a [|b r]]; [reflexivity|reflexivity|]. cbn [hex_pairs].
    destruct (is_hex a) eqn:Ea, (is_hex b) eqn:Eb; cbn [andb]; try reflexivity.
    exfalso. eapply Hr; [reflexivity|assumption..].
  - rewrite Ha, Hb, IH. reflexivity.
Qed.

Lemma hex_digits_word hs : hex_digits hs -> all_word hs.
Proof. induction 1; repeat constructor; auto using is_hex_word. Qed.

(** ** The cascade of regular expressions *)
Lemma kw_slice_not_keyword U s kw : keyword_token U s = Some kw ->
  (forall k, word_at U s k -> ~ is_keyword k) -> assoc kw keywords = None.
Proof.
  intros Hk Hno. pose proof (keyword_token_spec U s) as P. rewrite Hk in P.
  destruct P as (_ & w & Hat & P). destruct (assoc kw keywords) as [t|] eqn:E; [|reflexivity].
  exfalso. apply assoc_in in E. pose proof (keyword_props _ _ E) as (_ & Hw & Hlen & _).
  assert (Hin : is_keyword kw) by (apply in_map_iff; exists (kw, t); auto).
  destruct P as [[-> [->| ->]]|(Hne & Hns & Hb & r & Hs)].
  - apply (Hno _ Hat Hin).
  - destruct Hat as (r & E1 & _ & Hr). cbn in E1. subst r. destruct s as [|c s]; [cbn in Hlen; lia|].
    cbn in Hr. inversion Hw as [|? ? Hc _]; subst. rewrite (is_word_char U c Hc) in Hr. discriminate.
  - rewrite (byte_len_ascii kw (all_word_ascii kw Hw)) in Hb.
    assert (kw = w) as ->; [|apply (Hno _ Hat Hin)].
    destruct Hat as (r' & E1 & _). rewrite E1 in Hs. clear - Hs Hb. revert kw Hs Hb.
    induction w as [|c w IH]; intros [|k kw] Hs Hb; cbn in Hb; try lia; [reflexivity|].
    cbn in Hs. injection Hs as -> Hs. f_equal. apply IH; [exact Hs|lia].
Qed.

Lemma kw_slice_keyword U s w t : In (w, t) keyword_list -> word_at U s w ->
  keyword_token U s = Some w.
Proof.
  intros Hin Hat. pose proof (keyword_props _ _ Hin) as (_ & Hw & Hlen & _).
  pose proof (keyword_token_spec U s) as P. destruct (keyword_token U s) as [kw|].
  - destruct P as (_ & w' & Hat' & P). pose proof (word_at_fun U s _ _ Hat Hat') as <-.
    destruct P as [[-> [->| ->]]|(Hne & Hns & Hb & r & Hs)]; [reflexivity|cbn in Hlen; lia|].
    f_equal. destruct Hat as (r' & E & _). rewrite E in Hs.
    symmetry. eapply prefix_same_bytes; [exact Hs|]. rewrite Hb. apply byte_len_ascii, all_word_ascii, Hw.
  - exfalso. destruct P as (w' & r & E & _ & _ & Hat' & Hbad).
    pose proof (word_at_fun U s _ _ Hat Hat') as <-.
    apply (Hbad w []); [rewrite app_nil_r; reflexivity|]. apply byte_len_ascii, all_word_ascii, Hw.
Qed.

Lemma keyword_first w t c r : In (w, t) keyword_list -> w = c :: r -> is_lower c || is_upper c = true.
Proof. intros H. apply (keyword_props _ _ H). Qed.

Lemma no_keyword_first U c s : is_lower c || is_upper c = false ->
  forall k, word_at U (c :: s) k -> ~ is_keyword k.
Proof.
  intros Hc k (r & E & _ & _) Hk. apply in_map_iff in Hk. destruct Hk as ([k' t] & Ek & Hin).
  cbn in Ek. subst k'. pose proof (keyword_props _ _ Hin) as (_ & _ & Hlen & _ & Hf).
  destruct k as [|c' k]; [cbn in Hlen; lia|]. cbn in E. injection E as <- _.
  rewrite (Hf c k eq_refl) in Hc. discriminate.
Qed.

Lemma no_keyword_bystr U r : forall k, word_at U (lit "ByStr" ++ r) k -> ~ is_keyword k.
Proof.
  intros k (r' & E & _ & Hr') Hk. apply in_map_iff in Hk. destruct Hk as ([k' t] & Ek & Hin).
  cbn in Ek. subst k'. pose proof (keyword_props _ _ Hin) as (_ & _ & _ & Hb & _).
  cbn [lit app N_of_ascii N_of_digits] in E.
  assert (Hlast : forall c x, r' = c :: x -> word_char U c = false) by (intros c x ->; exact Hr').
  assert (starts_with kw_bystr k = true); [|congruence].
  apply starts_with_spec.
  assert (G : forall (p a b q : list N), p ++ q = a ++ b -> all_word p -> (forall c x, b = c :: x -> word_char U c = false) ->
             exists x, a = p ++ x).
  { clear. induction p as [|c p IH]; intros a b q E Hp Hb; [exists a; reflexivity|].
    inversion Hp as [|? ? Hc Hp']; subst. destruct a as [|c' a].
    - cbn in E. symmetry in E. apply Hb in E. rewrite (is_word_char U c Hc) in E. discriminate.
    - cbn in E. injection E as <- E. destruct (IH a b q E Hp' Hb) as (x & ->). exists x. reflexivity. }
  apply (G (lit "ByStr") k r' r E); [|exact Hlast]. repeat constructor.
Qed.

Lemma re_bystr_some s m : re_bystr_with_size s = Some m ->
  exists ds r, ds <> [] /\ all_digits ds /\ not_followed_by is_digit r
    /\ m = lit "ByStr" ++ ds /\ s = lit "ByStr" ++ ds ++ r.
Proof.
  unfold re_bystr_with_size. destruct (starts_with kw_bystr s) eqn:E; [|discriminate].
  apply starts_with_spec in E. destruct E as (q & ->).
  change (skipn 5 (kw_bystr ++ q)) with q.
  destruct (take_while_spec is_digit q) as (r & Hq & Hd & Hr).
  destruct (take_while is_digit q) as [|d ds] eqn:Et; [discriminate|]. intros [= <-].
  exists (d :: ds), r. split; [discriminate|]. split; [exact Hd|]. split; [exact Hr|].
  split; [reflexivity|]. rewrite Hq. reflexivity.
Qed.

Lemma re_bystr_none s : re_bystr_with_size s = None ->
  forall r, s = lit "ByStr" ++ r -> not_followed_by is_digit r.
Proof.
  intros H r ->. unfold re_bystr_with_size in H.
  rewrite (proj2 (starts_with_spec kw_bystr (lit "ByStr" ++ r))) in H by (exists r; reflexivity).
  change (skipn 5 (lit "ByStr" ++ r)) with r in H. destruct r as [|c r]; [exact I|].
  cbn [take_while] in H. cbn. destruct (is_digit c); [discriminate|reflexivity].
Qed.

Lemma re_word_some p s m : re_word p s = Some m ->
  exists c w r, p c = true /\ all_word w /\ not_followed_by is_word r /\ m = c :: w /\ s = c :: w ++ r.
Proof.
  unfold re_word. destruct s as [|c s]; [discriminate|]. destruct (p c) eqn:E; [|discriminate].
  intros [= <-]. destruct (take_while_spec is_word s) as (r & Hs & Hw & Hr).
  exists c, (take_while is_word s), r. repeat split; auto. congruence.
Qed.

Lemma re_word_app p c w r : p c = true -> all_word w -> not_followed_by is_word r ->
  re_word p (c :: w ++ r) = Some (c :: w).
Proof. intros Hc Hw Hr. cbn [re_word]. rewrite Hc, take_while_app; auto. Qed.

Lemma re_int_digit s m : re_signed_integer s = Some m ->
  (forall r, s <> 43 :: r) ->
  exists ds r, ds <> [] /\ all_digits ds /\ not_followed_by is_digit r /\
    ((m = ds /\ s = ds ++ r) \/ (m = 45 :: ds /\ s = 45 :: ds ++ r)).
Proof.
  unfold re_signed_integer. destruct s as [|c s]; [discriminate|]. intros H Hp.
  destruct (c =? 43) eqn:E43.
  { apply N.eqb_eq in E43. subst c. exfalso. eapply Hp; reflexivity. }
  cbn [orb] in H. destruct (c =? 45) eqn:E45.
  - apply N.eqb_eq in E45. subst c. destruct (take_while_spec is_digit s) as (r & Hs & Hd & Hr).
    destruct (take_while is_digit s) as [|d ds]; [discriminate|]. injection H as <-.
    exists (d :: ds), r. split; [discriminate|]. split; [exact Hd|]. split; [exact Hr|].
    right. split; [reflexivity|]. rewrite Hs. reflexivity.
  - destruct (take_while_spec is_digit (c :: s)) as (r & Hs & Hd & Hr).
    destruct (take_while is_digit (c :: s)) as [|d ds]; [discriminate|]. injection H as <-.
    exists (d :: ds), r. split; [discriminate|]. split; [exact Hd|]. split; [exact Hr|].
    left. split; [reflexivity|]. exact Hs.
Qed.

Lemma all_digits_word ds : all_digits ds -> all_word ds.
Proof. intro H. eapply Forall_impl; [|exact H]. intro c. apply is_digit_word. Qed.

Lemma other_sound U s t m : other_token s = Some (t, m) ->
  (forall k, word_at U s k -> ~ is_keyword k) ->
  (forall r, s <> 43 :: r) ->
  (forall r, s = 95 :: r -> ~ not_followed_by (word_char U) r) ->
  token_at U s t /\ token_text t = m /\ (ascii_str m = true \/ exists x, t = TStringLiteral x).
Proof.
  intros H Hno Hplus Hund. unfold other_token in H.
  destruct (re_bystr_with_size s) as [m1|] eqn:E1.
  { injection H as <- <-. destruct (re_bystr_some _ _ E1) as (ds & r & Hne & Hd & Hr & -> & ->).
    split; [apply ta_bystr_size; assumption|]. split; [reflexivity|]. left.
    rewrite ascii_app, (all_word_ascii ds (all_digits_word ds Hd)). reflexivity. }
  destruct (starts_with kw_bystr s) eqn:E2.
  { injection H as <- <-. apply starts_with_spec in E2. destruct E2 as (r & ->).
    split; [apply ta_bystr, (re_bystr_none _ E1 r eq_refl)|]. split; [reflexivity|]. left. reflexivity. }
  destruct (re_hex_number s) as [m3|] eqn:E3.
  { injection H as <- <-. unfold re_hex_number in E3.
    destruct s as [|z [|x s]]; try discriminate.
    destruct ((z =? 48) && ((x =? 120) || (x =? 88))) eqn:E; [|discriminate]. injection E3 as <-.
    assert (z = 48 /\ (x = 120 \/ x = 88)) as [-> Hx] by lia.
    destruct (hex_pairs_spec (List.length s) s (le_n _)) as (r & Hs & Hh & Hr).
    split.
    - rewrite Hs at 1. apply ta_hex; assumption.
    - split; [reflexivity|]. left. cbn [ascii_str forallb].
      change (ascii_str (48 :: x :: hex_pairs s) = true).
      apply all_word_ascii. constructor; [reflexivity|].
      constructor; [destruct Hx as [-> | ->]; reflexivity|]. apply hex_digits_word, Hh. }
  destruct (re_signed_integer s) as [m4|] eqn:E4.
  { injection H as <- <-. destruct (re_int_digit _ _ E4 Hplus) as (ds & r & Hne & Hd & Hr & Hc).
    pose proof (all_word_ascii ds (all_digits_word ds Hd)) as Ha.
    destruct Hc as [[-> ->]|[-> ->]].
    - split.
      + apply ta_number; try assumption. intros ->. destruct r as [|x r]; [exact I|]. cbn.
        cbn [app re_hex_number] in E3. destruct ((x =? 120) || (x =? 88)); [discriminate|reflexivity].
      + split; [reflexivity|]. left. exact Ha.
    - split; [apply ta_negative; assumption|]. split; [reflexivity|]. left. exact Ha. }
  destruct (re_string_literal s) as [m5|] eqn:E5.
  { injection H as <- <-. unfold re_string_literal in E5. destruct s as [|c s]; [discriminate|].
    destruct (c =? 34) eqn:Ec; [|discriminate]. apply N.eqb_eq in Ec. subst c.
    pose proof (re_string_tail_spec (List.length s) s (le_n _)) as P.
    destruct (re_string_tail s) as [tl|]; [|discriminate]. injection E5 as <-.
    destruct P as (b & r & -> & Hs & Hb). split; [|split; [reflexivity|right; eauto]].
    subst s. destruct Hb as [Hb|[Hb Hr]]; [apply ta_string, Hb|apply ta_string_last_quote; assumption]. }
  destruct (re_regular_id s) as [m6|] eqn:E6.
  { injection H as <- <-. destruct (re_word_some _ _ _ E6) as (c & w & r & Hc & Hw & Hr & -> & ->).
    split; [apply ta_identifier; assumption|]. split; [reflexivity|]. left.
    apply all_word_ascii. constructor; [apply is_lower_word, Hc|exact Hw]. }
  destruct (re_template_type_id s) as [m7|] eqn:E7.
  { injection H as <- <-. unfold re_template_type_id in E7. destruct s as [|c s]; [discriminate|].
    destruct (c =? 39) eqn:Ec; [|discriminate]. apply N.eqb_eq in Ec. subst c.
    destruct (re_custom_type_id s) as [m'|] eqn:E; [|discriminate]. injection E7 as <-.
    destruct (re_word_some _ _ _ E) as (c & w & r & Hc & Hw & Hr & -> & ->).
    split; [apply ta_template; assumption|]. split; [reflexivity|]. left.
    change (is_ascii 39 && ascii_str (c :: w) = true). rewrite all_word_ascii; [reflexivity|].
    constructor; [apply is_upper_word, Hc|exact Hw]. }
  destruct (re_custom_type_id s) as [m8|] eqn:E8.
  { injection H as <- <-. destruct (re_word_some _ _ _ E8) as (c & w & r & Hc & Hw & Hr & -> & ->).
    split; [apply ta_custom; try assumption|].
    - intros k E. rewrite (proj2 (starts_with_spec kw_bystr _)) in E2; [discriminate|]. exists k. exact E.
    - split; [reflexivity|]. left. apply all_word_ascii. constructor; [apply is_upper_word, Hc|exact Hw]. }
  destruct (re_special_id s) as [m9|] eqn:E9; [|discriminate].
  injection H as <- <-. destruct (re_word_some _ _ _ E9) as (c & w & r & Hc & Hw & Hr & -> & ->).
  apply N.eqb_eq in Hc. subst c. split.
  - apply ta_special; auto.
  - split; [reflexivity|]. left. apply all_word_ascii. constructor; [reflexivity|exact Hw].
Qed.

(** *** Completeness of the cascade *)
Lemma starts_bystr_first c s : c <> 66 -> starts_with kw_bystr (c :: s) = false.
Proof.
  intro H. destruct (starts_with kw_bystr (c :: s)) eqn:E; [|reflexivity].
  apply starts_with_spec in E. destruct E as (r & E). exfalso. apply H. injection E as E _. exact E.
Qed.
Lemma re_bystr_first s : starts_with kw_bystr s = false -> re_bystr_with_size s = None.
Proof. unfold re_bystr_with_size. intros ->. reflexivity. Qed.
Lemma re_hex_first c s : c <> 48 -> re_hex_number (c :: s) = None.
Proof.
  intro H. cbn [re_hex_number]. destruct s; [reflexivity|].
  rewrite (proj2 (N.eqb_neq c 48) H). reflexivity.
Qed.
Lemma re_int_first c s : is_digit c = false -> c <> 43 -> c <> 45 -> re_signed_integer (c :: s) = None.
Proof.
  intros Hd H1 H2. cbn [re_signed_integer take_while].
  rewrite (proj2 (N.eqb_neq _ _) H1), (proj2 (N.eqb_neq _ _) H2), Hd. reflexivity.
Qed.
Lemma re_string_first c s : c <> 34 -> re_string_literal (c :: s) = None.
Proof. intro H. cbn [re_string_literal]. rewrite (proj2 (N.eqb_neq _ _) H). reflexivity. Qed.
Lemma re_word_first p c s : p c = false -> re_word p (c :: s) = None.
Proof. intro H. cbn [re_word]. rewrite H. reflexivity. Qed.
Lemma re_template_first c s : c <> 39 -> re_template_type_id (c :: s) = None.
Proof. intro H. cbn [re_template_type_id]. rewrite (proj2 (N.eqb_neq _ _) H). reflexivity. Qed.

Inductive plain_token : token -> Prop :=
| pl_bystr : plain_token TByStr
| pl_bystr_size s : plain_token (TByStrWithSize s)
| pl_number s : plain_token (TNumber s)
| pl_hex s : plain_token (THexNumber s)
| pl_string s : plain_token (TStringLiteral s)
| pl_identifier s : plain_token (TIdentifier s)
| pl_template s : plain_token (TTemplateIdentifier s)
| pl_custom s : plain_token (TCustomIdentifier s)
| pl_special s : plain_token (TSpecialIdentifier s).

Lemma digits_cons ds : ds <> [] -> all_digits ds -> exists d ds', ds = d :: ds' /\ is_digit d = true /\ all_digits ds'.
Proof. intros Hne H. destruct H as [|d ds Hd H]; [congruence|]. exists d, ds. auto. Qed.

Lemma punct_not_plain w t : In (w, t) punctuation -> ~ plain_token t.
Proof.
  intros H Hp. repeat (destruct H as [H|H]; [injection H as <- <-; inversion Hp|]). destruct H.
Qed.
Lemma keyword_not_plain w t : In (w, t) keyword_list -> ~ plain_token t.
Proof.
  intros H Hp. repeat (destruct H as [H|H]; [injection H as <- <-; inversion Hp|]). destruct H.
Qed.

Lemma other_complete U s t : token_at U s t -> plain_token t ->
  other_token s = Some (t, token_text t) /\ (forall k, word_at U s k -> ~ is_keyword k)
  /\ exists c s', s = c :: s' /\
       (is_word c = true \/ c = 34 \/ c = 39 \/ (c = 45 /\ exists d r, s' = d :: r /\ is_digit d = true))
       /\ (c = 95 -> ~ not_followed_by (word_char U) s').
Proof.
  intros H Hp. destruct H as [w t r Hin Hm|s w t Hin Hat|ds r Hne Hd Hr|r Hr|x hs r Hx Hh Hr
    |ds r Hne Hd Hr Hx|ds r Hne Hd Hr|b r Hb|b r Hb Hr|c w r Hc Hw Hr Hk|c w r Hc Hw Hr
    |c w r Hc Hw Hr Hk Hb|w r Hw Hr Hf].
  - exfalso. eapply punct_not_plain; eassumption.
  - exfalso. eapply keyword_not_plain; eassumption.
  - split; [|split].
    + unfold other_token, re_bystr_with_size.
      rewrite (proj2 (starts_with_spec kw_bystr (lit "ByStr" ++ ds ++ r))) by (eexists; reflexivity).
      change (skipn 5 (lit "ByStr" ++ ds ++ r)) with (ds ++ r). rewrite take_while_app by assumption.
      destruct ds; [congruence|]. reflexivity.
    + apply no_keyword_bystr.
    + eexists _, _. split; [reflexivity|]. split; [left; reflexivity|discriminate].
  - split; [|split].
    + unfold other_token, re_bystr_with_size.
      rewrite (proj2 (starts_with_spec kw_bystr (lit "ByStr" ++ r))) by (eexists; reflexivity).
      change (skipn 5 (lit "ByStr" ++ r)) with r. destruct r as [|c r]; [reflexivity|].
      cbn in Hr. cbn [take_while]. rewrite Hr. reflexivity.
    + apply no_keyword_bystr.
    + eexists _, _. split; [reflexivity|]. split; [left; reflexivity|discriminate].
  - split; [|split].
    + unfold other_token. rewrite re_bystr_first by (apply starts_bystr_first; lia).
      rewrite starts_bystr_first by lia. cbn [re_hex_number].
      replace ((48 =? 48) && ((x =? 120) || (x =? 88))) with true by lia.
      rewrite hex_pairs_app by assumption. reflexivity.
    + apply no_keyword_first. reflexivity.
    + eexists _, _. split; [reflexivity|]. split; [left; reflexivity|discriminate].
  - destruct (digits_cons ds Hne Hd) as (d & ds' & -> & Hd1 & Hd2).
    assert (Hrange : 48 <= d <= 57) by (revert Hd1; unfold is_digit, in_range; lia).
    split; [|split].
    + unfold other_token. cbn [app]. rewrite re_bystr_first by (apply starts_bystr_first; lia).
      rewrite starts_bystr_first by lia.
      assert (re_hex_number (d :: ds' ++ r) = None) as ->.
      { destruct (N.eq_dec d 48) as [->|Hn]; [|apply re_hex_first, Hn].
        destruct ds' as [|d2 ds'].
        - specialize (Hx eq_refl). destruct r as [|x r]; [reflexivity|]. cbn in Hx.
          cbn [app re_hex_number]. rewrite Hx. reflexivity.
        - cbn [app re_hex_number]. inversion Hd2 as [|? ? Hd3 _]; subst.
          replace ((48 =? 48) && ((d2 =? 120) || (d2 =? 88))) with false; [reflexivity|].
          revert Hd3. unfold is_digit, in_range. lia. }
      assert (re_signed_integer (d :: ds' ++ r) = Some (d :: ds')) as ->; [|reflexivity].
      cbn [re_signed_integer]. replace ((d =? 43) || (d =? 45)) with false by lia.
      change (d :: ds' ++ r) with ((d :: ds') ++ r). rewrite take_while_app by assumption. reflexivity.
    + apply no_keyword_first. revert Hd1. unfold is_digit, is_lower, is_upper, in_range. lia.
    + eexists _, _. split; [reflexivity|]. split; [left; apply is_digit_word, Hd1|lia].
  - destruct (digits_cons ds Hne Hd) as (d & ds' & -> & Hd1 & Hd2).
    split; [|split].
    + unfold other_token. rewrite re_bystr_first by (apply starts_bystr_first; lia).
      rewrite starts_bystr_first, re_hex_first by lia. cbn [re_signed_integer].
      change ((45 =? 43) || (45 =? 45)) with true. cbn match.
      rewrite take_while_app by assumption. reflexivity.
    + apply no_keyword_first. reflexivity.
    + eexists _, _. split; [reflexivity|]. split; [right; right; right; cbn; eauto|discriminate].
  - split; [|split].
    + unfold other_token. rewrite re_bystr_first by (apply starts_bystr_first; lia).
      rewrite starts_bystr_first, re_hex_first by lia. rewrite re_int_first by (reflexivity || lia).
      cbn [re_string_literal]. rewrite re_string_tail_body by exact Hb. reflexivity.
    + apply no_keyword_first. reflexivity.
    + eexists _, _. split; [reflexivity|]. split; [right; left; reflexivity|discriminate].
  - split; [|split].
    + unfold other_token. rewrite re_bystr_first by (apply starts_bystr_first; lia).
      rewrite starts_bystr_first, re_hex_first by lia. rewrite re_int_first by (reflexivity || lia).
      cbn [re_string_literal]. change (34 =? 34) with true. cbn match.
      pose proof (re_string_tail_spec _ (b ++ 34 :: r) (le_n _)) as P.
      destruct (re_string_tail (b ++ 34 :: r)) as [m|].
      * destruct P as (b' & r' & -> & E & [Hb'|[_ Hr']]).
        -- exfalso. eapply Hb; eassumption.
        -- destruct (last_quote_unique _ _ _ _ E Hr Hr') as [-> ->]. reflexivity.
      * exfalso. apply P. rewrite in_app_iff. right; left; reflexivity.
    + apply no_keyword_first. reflexivity.
    + eexists _, _. split; [reflexivity|]. split; [right; left; reflexivity|discriminate].
  - assert (Hrange : 97 <= c <= 122) by (revert Hc; unfold is_lower, in_range; lia).
    split; [|split].
    + unfold other_token. rewrite re_bystr_first by (apply starts_bystr_first; lia).
      rewrite starts_bystr_first, re_hex_first by lia.
      rewrite re_int_first by (try lia; unfold is_digit, in_range; lia).
      rewrite re_string_first by lia. unfold re_regular_id. rewrite re_word_app by assumption. reflexivity.
    + exact Hk.
    + eexists _, _. split; [reflexivity|]. split; [left; apply is_lower_word, Hc|lia].
  - split; [|split].
    + unfold other_token. rewrite re_bystr_first by (apply starts_bystr_first; lia).
      rewrite starts_bystr_first, re_hex_first by lia. rewrite re_int_first by (reflexivity || lia).
      rewrite re_string_first by lia. unfold re_regular_id. rewrite re_word_first by reflexivity.
      cbn [re_template_type_id]. unfold re_custom_type_id. rewrite re_word_app by assumption. reflexivity.
    + apply no_keyword_first. reflexivity.
    + eexists _, _. split; [reflexivity|]. split; [right; right; left; reflexivity|discriminate].
  - assert (Hrange : 65 <= c <= 90) by (revert Hc; unfold is_upper, in_range; lia).
    assert (Hbs : starts_with kw_bystr (c :: w ++ r) = false).
    { destruct (starts_with kw_bystr (c :: w ++ r)) eqn:E; [|reflexivity].
      apply starts_with_spec in E. destruct E as (k & E). exfalso. eapply Hb, E. }
    split; [|split].
    + unfold other_token. rewrite re_bystr_first by exact Hbs. rewrite Hbs.
      rewrite re_hex_first by lia.
      rewrite re_int_first by (try lia; unfold is_digit, in_range; lia).
      rewrite re_string_first by lia. unfold re_regular_id.
      rewrite re_word_first by (unfold is_lower, in_range; lia).
      rewrite re_template_first by lia. unfold re_custom_type_id. rewrite re_word_app by assumption. reflexivity.
    + exact Hk.
    + eexists _, _. split; [reflexivity|]. split; [left; apply is_upper_word, Hc|lia].
  - split; [|split].
    + unfold other_token. rewrite re_bystr_first by (apply starts_bystr_first; lia).
      rewrite starts_bystr_first, re_hex_first by lia. rewrite re_int_first by (reflexivity || lia).
      rewrite re_string_first by lia. unfold re_regular_id. rewrite re_word_first by reflexivity.
      rewrite re_template_first by lia. unfold re_custom_type_id. rewrite re_word_first by reflexivity.
      unfold re_special_id. rewrite re_word_app by (auto; reflexivity). reflexivity.
    + apply no_keyword_first. reflexivity.
    + eexists _, _. split; [reflexivity|]. split; [left; reflexivity|]. intros _. exact Hf.
Qed.

(** ** Advancing the character iterator *)
Lemma chars_advance_app n : forall p r pos ln ch la, List.length p = n ->
  chars_advance n (mklx (p ++ r) pos ln ch la) = mklx r (pos + byte_len p) ln ch la.
Proof.
  induction n as [|n IH]; intros p r pos ln ch la Hp.
  - destruct p; [|discriminate]. cbn. f_equal. lia.
  - destruct p as [|c p]; [discriminate|]. cbn [chars_advance chars_next app lx_chars lx_pos lx_line lx_character lx_last].
    rewrite IH by (cbn in Hp; lia). cbn [byte_len]. f_equal. lia.
Qed.

Lemma chars_advance_all n : forall s pos ln ch la, (List.length s <= n)%nat ->
  chars_advance n (mklx s pos ln ch la) = mklx [] (pos + byte_len s) ln ch la.
Proof.
  induction n as [|n IH]; intros s pos ln ch la Hs.
  - destruct s; [|cbn in Hs; lia]. cbn. f_equal. lia.
  - destruct s as [|c s].
    + cbn [chars_advance chars_next lx_chars]. rewrite IH by (cbn; lia). reflexivity.
    + cbn [chars_advance chars_next lx_chars lx_pos lx_line lx_character lx_last].
      rewrite IH by (cbn in Hs; lia). cbn [byte_len]. f_equal. lia.
Qed.

(** Consuming [m] (already matched) by counting its bytes as characters. *)
Lemma advance_match t m c s' pos ln ch la :
  c :: s' = m ++ skipn (List.length m) (c :: s') ->
  m <> [] -> token_text t = m -> (ascii_str m = true \/ exists x, t = TStringLiteral x) ->
  exists x r, c :: s' = m ++ x ++ r /\ lost t x r /\
    (if 1 <? byte_len m
     then chars_nth (N.to_nat (byte_len m) - 2) (mklx s' (pos + len_utf8 c) ln ch la)
     else mklx s' (pos + len_utf8 c) ln ch la)
    = mklx r (pos + byte_len (m ++ x)) ln ch la.
Proof.
  intros Hs Hne Ht Ha. destruct m as [|c0 m]; [congruence|]. set (q := skipn _ _) in Hs. clearbody q.
  cbn [app] in Hs. injection Hs as <- Hs. subst s'.
  assert (Hge := byte_len_ge m). pose proof (len_utf8_pos c) as Hc.
  destruct Ha as [Ha|(y & ->)].
  - assert (byte_len (c :: m) = N.of_nat (List.length (c :: m))) as Hb by (apply byte_len_ascii, Ha).
    exists [], q. split; [reflexivity|]. split.
    + destruct t; cbn in *; auto. left. subst s. cbn [byte_len List.length] in *. lia.
    + rewrite app_nil_r. cbn [byte_len List.length] in Hb.
      destruct (1 <? byte_len (c :: m)) eqn:E.
      * unfold chars_nth. rewrite chars_advance_app by (cbn [byte_len] in *; lia).
        cbn [byte_len]. f_equal. lia.
      * destruct m as [|d m]; [|cbn [byte_len List.length] in *; pose proof (len_utf8_pos d); lia].
        cbn [byte_len app]. f_equal. lia.
  - cbn in Ht. subst y. cbn [byte_len].
    destruct (1 <? len_utf8 c + byte_len m) eqn:E.
    + unfold chars_nth.
      set (total := S (N.to_nat (len_utf8 c + byte_len m) - 2)).
      assert (Htot : N.of_nat total = len_utf8 c + byte_len m - 1) by (unfold total; lia).
      destruct (Compare_dec.le_lt_dec total (List.length (m ++ q))) as [Hle|Hgt].
      * (* enough characters *)
        rewrite app_length in Hle.
        exists (firstn (total - List.length m) q), (skipn (total - List.length m) q).
        split; [cbn [app]; rewrite firstn_skipn; reflexivity|]. split.
        -- cbn [lost]. left. rewrite firstn_length. cbn [byte_len List.length]. lia.
        -- rewrite <- (firstn_skipn (total - List.length m) q) at 1. rewrite app_assoc.
           rewrite chars_advance_app by (rewrite app_length, firstn_length; lia).
           f_equal. cbn [app byte_len]. lia.
      * exists q, []. rewrite app_nil_r. split; [reflexivity|]. split.
        -- cbn [lost]. right. rewrite app_length in Hgt. cbn [byte_len List.length]. split; [lia|reflexivity].
        -- rewrite chars_advance_all by lia. f_equal. cbn [app byte_len]. lia.
    + exists [], q. split; [reflexivity|]. split.
      * cbn [lost]. left. cbn [byte_len List.length]. lia.
      * rewrite app_nil_r. destruct m as [|d m]; [|cbn [byte_len List.length] in *; pose proof (len_utf8_pos d); lia].
        cbn [byte_len app]. f_equal. lia.
Qed.
