(** Property C63: comparing source positions. *)
From Verif Require Import Chars Lexer LexerProofs LexSpec LexFacts LexWritten PropLexer Ast Grammar Cfg Parser GrammarLink DerInv Marks Spans
  PropParse2 PropSpans Position.

Definition before (a b : source_position) : Prop := pos_cmp a b = Lt.
Definition not_after (a b : source_position) : Prop := pos_cmp a b <> Gt.

(** ** The order *)
Lemma cmp_cases a b :
  (position a < position b /\ pos_cmp a b = Lt) \/ (position b < position a /\ pos_cmp a b = Gt) \/
  (position a = position b /\
   ((line a < line b /\ pos_cmp a b = Lt) \/ (line b < line a /\ pos_cmp a b = Gt) \/
    (line a = line b /\ pos_cmp a b = (column a ?= column b)))).
Proof.
  unfold pos_cmp. destruct (N.compare_spec (position a) (position b)); [|left; auto|right; left; auto].
  right; right. split; [assumption|]. destruct (N.compare_spec (line a) (line b)); [right; right|left|right; left]; auto.
Qed.

(** [<] on positions is a total order and agrees with [==]. *)
Theorem C63_total_order :
  (forall a b, pos_cmp a b = Eq <-> a = b)
  /\ (forall a b, pos_eqb a b = true <-> a = b)
  /\ (forall a b, pos_cmp b a = CompOpp (pos_cmp a b))
  /\ (forall a b c, before a b -> before b c -> before a c)
  /\ (forall a b, before a b \/ a = b \/ before b a).
Proof.
  assert (H1 : forall a b, pos_cmp a b = Eq <-> a = b).
  { intros [p l c] [p' l' c']. split.
    - unfold pos_cmp. cbn. destruct (N.compare_spec p p'); try discriminate. destruct (N.compare_spec l l'); try discriminate.
      destruct (N.compare_spec c c'); try discriminate. congruence.
    - intros [= <- <- <-]. unfold pos_cmp. cbn. rewrite !N.compare_refl. reflexivity. }
  assert (H3 : forall a b, pos_cmp b a = CompOpp (pos_cmp a b)).
  { intros a b. unfold pos_cmp. rewrite (N.compare_antisym (position a)), (N.compare_antisym (line a)), (N.compare_antisym (column a)).
    destruct (position a ?= position b); [|reflexivity..]. cbn [CompOpp]. destruct (line a ?= line b); reflexivity. }
  split; [exact H1|]. split; [|split; [exact H3|split]].
  - intros [p l c] [p' l' c']. unfold pos_eqb. cbn. rewrite !andb_true_iff, !N.eqb_eq. split; [intros [[-> ->] ->]; reflexivity|intros [= -> -> ->]; auto].
  - unfold before. intros a b c Hab Hbc.
    destruct (cmp_cases a b) as [(? & ?)|[(? & ?)|(? & [(? & ?)|[(? & ?)|(? & E1)]])]]; try congruence;
    destruct (cmp_cases b c) as [(? & ?)|[(? & ?)|(? & [(? & ?)|[(? & ?)|(? & E2)]])]]; try congruence;
    destruct (cmp_cases a c) as [(? & ?)|[(? & ?)|(? & [(? & ?)|[(? & ?)|(? & E3)]])]]; try congruence; try lia.
    rewrite E1 in Hab. rewrite E2 in Hbc. rewrite E3. rewrite N.compare_lt_iff in *. lia.
  - intros a b. unfold before. destruct (pos_cmp a b) eqn:E; [right; left; apply H1, E|left; reflexivity|]. right; right.
    rewrite H3, E. reflexivity.
Qed.

Lemma not_after_refl a : not_after a a.
Proof. unfold not_after. rewrite (proj2 (proj1 C63_total_order a a) eq_refl). discriminate. Qed.
Lemma before_not_after a b : before a b -> not_after a b.
Proof. unfold before, not_after. congruence. Qed.
Lemma not_after_cases a b : not_after a b -> a = b \/ before a b.
Proof.
  unfold not_after, before. destruct (pos_cmp a b) eqn:E; [left|right; reflexivity|congruence]. apply (proj1 C63_total_order), E.
Qed.
Lemma not_after_trans a b c : not_after a b -> not_after b c -> not_after a c.
Proof.
  intros H1 H2. destruct (not_after_cases _ _ H1) as [-> |H1']; [exact H2|]. destruct (not_after_cases _ _ H2) as [<- |H2']; [exact H1|].
  apply before_not_after. destruct C63_total_order as (_ & _ & _ & Ht & _). exact (Ht _ _ _ H1' H2').
Qed.
Lemma before_offset a b : position a < position b -> before a b.
Proof. intro H. unfold before, pos_cmp. apply N.compare_lt_iff in H. rewrite H. reflexivity. Qed.

(** [start_position()] is the least position, [invalid_position()] the greatest
    one of a 64 bit machine, and only the former is valid. *)
Theorem C63_extremes :
  (forall p, not_after start_position p)
  /\ (forall p, position p <= usize_max -> line p <= usize_max -> column p <= usize_max -> not_after p invalid_position)
  /\ is_valid start_position = true /\ is_valid invalid_position = false
  /\ (forall p q, not_after p q -> is_valid q = true -> is_valid p = true).
Proof.
  split; [|split; [|split; [reflexivity|split; [reflexivity|]]]].
  - intros [p l c]. unfold not_after, pos_cmp. cbn. destruct p, l, c; discriminate.
  - intros [p l c]. unfold not_after. cbn [position line column]. intros Hp Hl Hc Hg.
    destruct (cmp_cases (mkpos p l c) invalid_position) as [(? & E)|[(? & E)|(? & [(? & E)|[(? & E)|(? & E)]])]]; cbn [position line column] in *; try congruence.
    + unfold invalid_position in *. cbn [position] in *. lia.
    + unfold invalid_position in *. cbn [line] in *. lia.
    + rewrite E in Hg. unfold invalid_position in Hg. cbn [column] in Hg. apply N.compare_gt_iff in Hg. lia.
  - intros p q Hn. unfold is_valid. rewrite !N.ltb_lt. unfold not_after in Hn.
    destruct (cmp_cases p q) as [(? & E)|[(? & E)|(? & _)]]; [lia|congruence|lia].
Qed.

(** ** The positions the lexer reports *)
(** No coordinate exceeds the size of the text, so none overflows, and for every
    text of less than 2^63 - 1 bytes all are valid. *)
Theorem C63_fits : forall U text items e i, lex U text = (items, e) -> In i items ->
  (line (item_start i) <= position (item_start i) /\ column (item_start i) <= position (item_start i))
  /\ (line (item_end i) <= position (item_end i) /\ column (item_end i) <= position (item_end i))
  /\ position (item_end i) <= byte_len text
  /\ (byte_len text < 2 ^ 63 - 1 -> is_valid (item_start i) = true /\ is_valid (item_end i) = true).
Proof.
  intros U text items e i E Hi. destruct (C02_span_in_bounds _ _ _ _ _ E Hi) as (H1 & H2 & H3 & _ & _ & Hl).
  destruct (item_at_visited _ _ _ _ _ E Hi) as (p & s & ln & b & pr & Hv & Hs & _ & Hc).
  pose proof (visited_bounds _ _ _ _ _ _ _ Hv) as [B1 B2].
  assert (B3 : ln <= byte_len p).
  { clear -Hv. induction Hv; rewrite ?byte_len_app; try lia.
    change (byte_len [10]) with 1. lia. }
  rewrite Hs in *. cbn [position line column] in *. rewrite <- Hl.
  split; [lia|]. split; [lia|]. split; [exact H2|]. intro Hb. unfold is_valid.
  change (usize_max / 2) with (2 ^ 63 - 1). rewrite !N.ltb_lt. cbn [position]. lia.
Qed.

(** Comparing positions puts the tokens in the order of the text: by their
    starts, and by their ends. *)
Theorem C63_tokens : forall U text items e m n a b, lex U text = (items, e) ->
  nth_error items m = Some a -> nth_error items n = Some b -> (m < n)%nat ->
  before (item_start a) (item_start b)
  /\ (item_token b <> TUnknown -> before (item_end a) (item_end b))
  /\ (item_token a <> TUnknown -> before (item_start a) (item_end a))
  /\ (position (item_end a) <> position (item_start b) -> before (item_end a) (item_start b)).
Proof.
  intros U text items e m n a b E Ha Hb Hlt. destruct (C02_spans_ordered _ _ _ _ _ _ _ _ E Ha Hb Hlt) as [H1 H2].
  assert (Hpos : forall i, In i items -> item_token i <> TUnknown -> position (item_start i) < position (item_end i)).
  { intros i Hi Hn. destruct (lex_item_at _ _ _ _ _ E Hi) as (p & s & ln & b' & pr & Hv & _ & _ & _ & H).
    destruct H as [(t & x & r & Hat & Es & _ & ->)|(_ & ->)]; cbn [item_start item_end item_token fst snd position] in *; [|congruence].
    assert (0 < byte_len (token_text t)); [|lia]. apply byte_len_pos, (LexStep.token_at_prefix _ _ _ Hat). }
  split; [apply before_offset; lia|]. split; [|split].
  - intro Hn. apply before_offset. specialize (Hpos b (nth_error_In _ _ Hb) Hn). lia.
  - intro Hn. apply before_offset, Hpos; [exact (nth_error_In _ _ Ha)|exact Hn].
  - intro Hn. apply before_offset. lia.
Qed.

(** "A token ends before the next one starts" is refuted for tokens without
    anything between them, in both directions: the column of a token that
    follows another directly is that of an earlier place (see C10). *)
Theorem C63_end_before_next_start_refuted : exists items a b c,
  lex U_none (lit "abcdef+-") = (items, LEof)
  /\ nth_error items 0 = Some a /\ nth_error items 1 = Some b /\ nth_error items 2 = Some c
  /\ before (item_start b) (item_end a) /\ before (item_end b) (item_start c)
  /\ position (item_end a) = position (item_start b) /\ position (item_end b) = position (item_start c).
Proof.
  do 4 eexists. split; [vm_compute; reflexivity|]. repeat (split; [reflexivity|]). reflexivity.
Qed.

(** ** The positions in an AST *)
(** Every node starts before it ends and lies between [lo] and [hi], the nodes
    inside lie between its start and its end, and siblings are in order by their
    starts and by their ends. *)
Definition mark_start (m : mark) : source_position := let '(Mark s _ _ _) := m in s.
Definition mark_end (m : mark) : source_position := let '(Mark _ e _ _) := m in e.
Inductive arranged : source_position -> source_position -> list mark -> Prop :=
| ar_nil : forall lo hi, arranged lo hi []
| ar_node : forall lo hi s e phrase inner ms,
    not_after lo s -> before s e -> not_after e hi ->
    arranged s e inner -> arranged lo hi ms ->
    Forall (fun m => before s (mark_start m) /\ before e (mark_end m)) ms ->
    arranged lo hi (Mark s e phrase inner :: ms).

Lemma arranged_weaken lo hi ms lo' hi' : arranged lo hi ms -> not_after lo' lo -> not_after hi hi' -> arranged lo' hi' ms.
Proof.
  intro H. revert lo' hi'. induction H as [lo hi|lo hi s e ph inner ms H1 H2 H3 H4 _ H5 IH H6]; intros lo' hi' Hl Hh; constructor; auto.
  - exact (not_after_trans _ _ _ Hl H1).
  - exact (not_after_trans _ _ _ H3 Hh).
Qed.
Lemma ordered_app lo t1 : forall t2 hi, ordered lo (t1 ++ t2) hi -> exists mid, ordered lo t1 mid /\ ordered mid t2 hi.
Proof.
  revert lo. induction t1 as [|i t1 IH]; intros lo t2 hi H.
  - exists lo. split; [constructor; lia|exact H].
  - cbn [app] in H. inversion H as [|? ? ? ? H1 H2 H3]; subst. destruct (IH _ _ _ H3) as (mid & G1 & G2).
    exists mid. split; [constructor; assumption|exact G2].
Qed.
Lemma ordered_first lo toks hi : ordered lo toks hi -> toks <> [] -> lo <= position (first_start toks).
Proof. intros H Hn. destruct H; [congruence|]. cbn. assumption. Qed.
Lemma ordered_last lo toks hi : ordered lo toks hi -> toks <> [] -> position (last_end toks) <= hi.
Proof.
  induction 1 as [|lo hi i items H1 H2 H3 IH]; intro Hn; [congruence|]. destruct items as [|j items].
  - cbn. exact (ordered_le _ _ _ H3).
  - apply IH. discriminate.
Qed.
Lemma last_end_app t1 t2 : t2 <> [] -> last_end (t1 ++ t2) = last_end t2.
Proof.
  intro Hn. induction t1 as [|i t1 IH]; [reflexivity|]. cbn [app last_end].
  destruct (t1 ++ t2) eqn:E; [destruct t1, t2; try discriminate; congruence|]. exact IH.
Qed.
Lemma last_end_before lo t1 t2 hi : ordered lo (t1 ++ t2) hi -> t1 <> [] -> t2 <> [] -> before (last_end t1) (last_end t2).
Proof.
  intros H H1 H2. destruct (ordered_app _ _ _ _ H) as (mid & G1 & G2). apply before_offset.
  pose proof (ordered_last _ _ _ G1 H1). pose proof (ordered_first _ _ _ G2 H2).
  rewrite <- (app_nil_r t2) in G2. destruct (ordered_split _ _ _ _ G2 H2) as (_ & G3 & _). lia.
Qed.

Lemma spanned_inside toks ms : spanned toks ms -> ms <> [] -> toks <> [].
Proof.
  induction 1 as [t|i t ms _ IH|t r ph inner ms Hne _ _ _ _ _]; intro Hn; [congruence|discriminate|].
  intro E. apply app_eq_nil in E. tauto.
Qed.
Lemma spanned_bounds toks ms lo hi : spanned toks ms -> ordered lo toks hi ->
  Forall (fun m => lo <= position (mark_start m) /\ position (mark_end m) <= hi /\ position (mark_start m) < position (mark_end m)) ms.
Proof.
  intro H. revert lo. induction H as [t|i t ms _ IH|t r ph inner ms Hne Hp Hi _ Hr IHr]; intros lo Ho.
  - constructor.
  - inversion Ho as [|? ? ? ? H1 H2 H3]; subst. specialize (IH _ H3). eapply Forall_impl; [|exact IH]. cbn. intros m Hm. lia.
  - destruct (ordered_split lo t r hi Ho Hne) as (G1 & G2 & G3 & G4). constructor.
    + cbn [mark_start mark_end]. pose proof (ordered_le _ _ _ G4). lia.
    + specialize (IHr _ G4). eapply Forall_impl; [|exact IHr]. cbn. intros m Hm. lia.
Qed.
Lemma spanned_arranged toks ms : spanned toks ms -> forall lo hi, ordered lo toks hi -> arranged (first_start toks) (last_end toks) ms.
Proof.
  induction 1 as [t|i t ms Hs IH|t r ph inner ms Hne Hp Hi IHi Hr IHr]; intros lo hi Ho.
  - constructor.
  - destruct ms as [|m ms]; [constructor|]. pose proof (spanned_inside _ _ Hs ltac:(discriminate)) as Ht.
    inversion Ho as [|? ? ? ? H1 H2 H3]; subst. apply (arranged_weaken _ _ _ _ _ (IH _ _ H3)).
    + apply before_not_after, before_offset. cbn [first_start]. pose proof (ordered_first _ _ _ H3 Ht). lia.
    + change (i :: t) with ([i] ++ t). rewrite last_end_app by exact Ht. apply not_after_refl.
  - destruct (ordered_split lo t r hi Ho Hne) as (G1 & G2 & G3 & G4).
    assert (Ef : first_start (t ++ r) = first_start t) by (destruct t; [congruence|reflexivity]). rewrite Ef.
    assert (Hend : not_after (last_end t) (last_end (t ++ r))).
    { destruct r as [|j r]; [rewrite app_nil_r; apply not_after_refl|]. rewrite last_end_app by discriminate.
      apply before_not_after, (last_end_before lo t (j :: r) hi Ho Hne). discriminate. }
    constructor; [apply not_after_refl|apply before_offset, G2|exact Hend|exact (IHi _ _ G3)| |].
    + destruct ms as [|m ms]; [constructor|]. pose proof (spanned_inside _ _ Hr ltac:(discriminate)) as Hrn.
      apply (arranged_weaken _ _ _ _ _ (IHr _ _ G4)).
      * apply before_not_after, before_offset. pose proof (ordered_first _ _ _ G4 Hrn). lia.
      * rewrite last_end_app by exact Hrn. apply not_after_refl.
    + eapply Forall_impl; [|exact (spanned_bounds _ _ _ _ Hr G4)]. cbn. intros m Hm. split; apply before_offset; lia.
Qed.

Theorem C63_nodes : forall U A text v, parse_str U A text = POk v ->
  exists items, lex U text = (items, LEof) /\ arranged (first_start items) (last_end items) (marks A v).
Proof.
  intros U A text v H. unfold parse_str in H. destruct (lex U text) as [items e] eqn:El. apply parse_sound in H. destruct H as [H ->].
  exists items. split; [reflexivity|].
  destruct (C04_input_is_tokens_and_layout U text items El) as (rest & Ht & _).
  refine (spanned_arranged items _ (derives_spanned A items v H) 0 (0 + byte_len text) _). apply (tiled_ordered 0 0 items text rest Ht).
  intros i Hi E. pose proof (proj1 der_kinds (Nt A) items v H) as Hk. rewrite Forall_forall in Hk. apply (Hk i Hi). rewrite E. reflexivity.
Qed.

(** ** Witnesses *)
Example C63_witness_tokens : exists items a b, lex U_none (lit "a" ++ [10] ++ lit "b") = (items, LEof)
  /\ nth_error items 0 = Some a /\ nth_error items 1 = Some b /\ item_token a <> TUnknown /\ item_token b <> TUnknown
  /\ position (item_end a) <> position (item_start b)
  /\ column (item_start b) <= column (item_start a) /\ before (item_start a) (item_start b).
Proof.
  do 3 eexists. split; [vm_compute; reflexivity|]. split; [reflexivity|]. split; [reflexivity|].
  split; [discriminate|]. split; [discriminate|]. split; [discriminate|]. split; [vm_compute; discriminate|reflexivity].
Qed.
Example C63_witness_nodes : exists v, parse_str U_none Program (lit "scilla_version 0 contract C () field f : Map Int32 Int32 = x") = POk v
  /\ marks Program v <> [].
Proof. eexists. split; [vm_compute; reflexivity|]. vm_compute. discriminate. Qed.
