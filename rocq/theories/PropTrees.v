(** Property C76: syntax trees move with the text. *)
From Coq Require Import PeanoNat Lia.
From Verif Require Import Chars Lexer LexSpec LexFacts Ast Types Grammar Cfg Parser GrammarLink Marks Erase EraseFacts Remap RemapFacts
  Emitter Contract PropLexer PropParser PropParse2 PropSpans PropMoves.

(** ** Specification *)
(** [x'] is the position [x], moved by [k] bytes and [n] lines; the column is the
    same, except on the line [l] and before. *)
Definition shifted (k n l : N) (x x' : source_position) : Prop :=
  position x' = position x + k /\ line x' = line x + n /\ (l < line x -> column x' = column x).
(** Positions up to the offset [p] stay, the others move. *)
Definition shifted_from (p k n l : N) (x x' : source_position) : Prop :=
  if position x <=? p then x' = x else shifted k n l x x'.
(** The outcomes of two runs of a parser: the same tree with every start position
    replaced according to [Rs] and every end position according to [Re] ([remap],
    Remap.v, replaces the start and end positions of all nodes), or a syntax error
    at an item related by [I]. *)
Definition moved_outcome_by (A : nt) (Rs Re : source_position -> source_position -> Prop) (I : item -> item -> Prop) (r r' : presult (nt_type A)) : Prop :=
  match r with
  | POk v => exists fs fe, (forall x, Rs x (fs x)) /\ (forall x, Re x (fe x)) /\ r' = POk (remap fs fe A v)
  | PErrToken i => exists i', r' = PErrToken i' /\ I i i'
  | PErrEof => r' = PErrEof
  | PPanic => r' = PPanic
  | PInternal => False
  end.
Definition moved_outcome (A : nt) (R : source_position -> source_position -> Prop) := moved_outcome_by A R R.

(** ** Proof *)
Lemma pos_dec (x y : source_position) : {x = y} + {x <> y}.
Proof. decide equality; apply N.eq_dec. Qed.
Lemma function_exists (R : source_position -> source_position -> Prop) xs ys :
  (exists d, forall x, R x (d x)) -> NoDup xs -> Forall2 R xs ys -> exists f, (forall x, R x (f x)) /\ map f xs = ys.
Proof.
  intros (d & Hd) Hn H. induction H as [|x y xs ys Hxy H IH]; [exists d; auto|].
  inversion Hn as [|? ? Hx Hn']; subst. destruct (IH Hn') as (f & Hf & <-).
  exists (fun z => if pos_dec z x then y else f z). split.
  - intro z. destruct (pos_dec z x) as [->|]; auto.
  - cbn [map]. destruct (pos_dec x x) as [_|E]; [|congruence]. f_equal. apply map_ext_in. intros z Hz.
    destruct (pos_dec z x) as [->|]; [contradiction|reflexivity].
Qed.
Lemma ordered_starts lo items hi : ordered lo items hi -> NoDup (map item_start items) /\ Forall (fun x => lo <= position x) (map item_start items).
Proof.
  induction 1 as [|lo hi i items H1 H2 H [IH IF]]; [split; constructor|]. cbn [map]. split; constructor; try assumption.
  - intro Hin. rewrite Forall_forall in IF. specialize (IF _ Hin). cbv beta in IF. lia.
  - eapply Forall_impl; [|exact IF]. cbv beta. intros x Hx. lia.
Qed.
Lemma ordered_ends lo items hi : ordered lo items hi -> NoDup (map item_end items) /\ Forall (fun x => lo < position x) (map item_end items).
Proof.
  induction 1 as [|lo hi i items H1 H2 H [IH IF]]; [split; constructor|]. cbn [map]. split; constructor; try assumption.
  - intro Hin. rewrite Forall_forall in IF. specialize (IF _ Hin). cbv beta in IF. lia.
  - lia.
  - eapply Forall_impl; [|exact IF]. cbv beta. intros x Hx. lia.
Qed.
Lemma derived_ordered U A text items v : lex U text = (items, LEof) -> derives A items v -> ordered 0 items (byte_len text).
Proof.
  intros El H. destruct (C04_input_is_tokens_and_layout U text items El) as (rest & Ht & _). apply (tiled_ordered 0 0 items text rest Ht).
  intros i Hi E. pose proof (proj1 der_kinds (Nt A) items v H) as Hk. rewrite Forall_forall in Hk. apply (Hk i Hi). rewrite E. reflexivity.
Qed.
Lemma one_line U text items i : lex U text = (items, LEof) -> In i items -> line (item_end i) = line (item_start i).
Proof.
  intros El Hi. destruct (C04_input_is_tokens_and_layout U text items El) as (rest & Ht & _). apply In_nth_error in Hi. destruct Hi as [k Hk].
  exact (proj1 (proj2 (proj2 (proj2 (proj2 (tiled_item _ _ _ _ _ Ht k i Hk)))))).
Qed.

(** ** C76 *)
(** Other positions on the tokens give the same positions on the nodes, and
    change nothing else. *)
Theorem C76_any_positions : forall A items e v fs fe, parse A items e = POk v ->
  parse A (map (move fs fe) items) e = POk (remap fs fe A v) /\ erase A (remap fs fe A v) = erase A v.
Proof.
  intros A items e v fs fe H. apply parse_sound in H. destruct H as [H ->]. pose proof (derives_move fs fe A items v H) as H'.
  split; [exact (parse_complete _ _ _ H')|].
  apply (derives_unique A (map strip items)); [|apply derives_strip, H].
  replace (map strip items) with (map strip (map (move fs fe) items)) by (rewrite map_map; reflexivity). apply derives_strip, H'.
Qed.

Lemma items_moved (items items' : list item) fs fe : map item_token items = map item_token items' ->
  map fs (map item_start items) = map item_start items' -> map fe (map item_end items) = map item_end items' ->
  map (move fs fe) items = items'.
Proof.
  revert items'. induction items as [|i items IH]; intros [|i' items'] H1 H2 H3; try discriminate; [reflexivity|].
  cbn [map] in *. injection H1 as H1 H1'. injection H2 as H2 H2'. injection H3 as H3 H3'. f_equal; [|apply IH; assumption].
  destruct i' as [[s t] e]. unfold move. cbn [item_start item_token item_end fst snd] in *. congruence.
Qed.
Lemma outcome_moved U A text text' is is' e (Rs Re : source_position -> source_position -> Prop) (I : item -> item -> Prop) d d' :
  lex U text = (is, e) -> lex U text' = (is', e) -> (forall x, Rs x (d x)) -> (forall x, Re x (d' x)) -> Forall2 I is is' ->
  (forall i i', position (item_start i) < position (item_end i) -> line (item_end i) = line (item_start i) -> I i i' -> item_token i' = item_token i /\ Rs (item_start i) (item_start i') /\ Re (item_end i) (item_end i')) ->
  (forall i i', I i i' -> item_token i' = item_token i) ->
  moved_outcome_by A Rs Re I (parse_str U A text) (parse_str U A text').
Proof.
  intros H H' Hd Hd' HI HIR Htok. unfold parse_str. rewrite H, H'.
  assert (Ht : map item_token is = map item_token is').
  { clear -HI Htok. induction HI as [|i i' is is' Hi _ IH]; [reflexivity|]. cbn [map]. rewrite IH, (Htok _ _ Hi). reflexivity. }
  pose proof (C15_positions_do_not_matter A is is' e Ht) as Ho.
  destruct (parse A is e) as [v|i| | |] eqn:Ep; destruct (parse A is' e) as [v'|i'| | |] eqn:Ep'; try contradiction; try reflexivity.
  - pose proof (parse_sound _ _ _ _ Ep) as [Hv ->]. pose proof (derived_ordered U A text is v H Hv) as Hor.
    assert (HF : Forall (fun i => position (item_start i) < position (item_end i) /\ line (item_end i) = line (item_start i)) is).
    { apply Forall_forall. intros i Hi. split; [|exact (one_line U text is i H Hi)]. clear -Hor Hi. induction Hor; [destruct Hi|]. destruct Hi as [->|Hi]; auto. }
    assert (HS : Forall2 Rs (map item_start is) (map item_start is') /\ Forall2 Re (map item_end is) (map item_end is')).
    { clear -HI HF HIR. induction HI as [|i i' is is' Hi _ IH]; [split; constructor|]. inversion HF as [|? ? [F1 F2] F3]; subst.
      destruct (HIR i i') as (_ & G1 & G2); [assumption..|]. destruct IH as [IH1 IH2]; [assumption|]. split; constructor; assumption. }
    destruct HS as [HS HE].
    destruct (function_exists Rs _ _ (ex_intro _ d Hd) (proj1 (ordered_starts _ _ _ Hor)) HS) as (fs & F1 & F2).
    destruct (function_exists Re _ _ (ex_intro _ d' Hd') (proj1 (ordered_ends _ _ _ Hor)) HE) as (fe & G1 & G2).
    exists fs, fe. split; [exact F1|]. split; [exact G1|]. rewrite <- Ep'.
    rewrite <- (items_moved is is' fs fe Ht F2 G2). exact (proj1 (C76_any_positions A is LEof v fs fe Ep)).
  - cbn in Ho. destruct Ho as (_ & m & E1 & E2). exists i'. split; [reflexivity|]. exact (Forall2_nth _ _ _ _ _ _ HI E1 E2).
Qed.

(** Inserting layout into a text that is read with any entry point of the parser. *)
Theorem C76_trees_move : forall U A p c g n s,
  is_whitespace c = true -> settled p -> layout g n ->
  let l := count_newlines (p ++ [c]) in
  moved_outcome A (shifted_from (byte_len p) (byte_len g) n l) (moved_from (byte_len p) (byte_len g) n l)
    (parse_str U A (p ++ c :: s)) (parse_str U A (p ++ c :: g ++ s)).
Proof.
  intros U A p c g n s Hc Hp Hg l. destruct (lex U (p ++ c :: s)) as [is e] eqn:HL.
  destruct (tokens_move U p c g n s is e Hc Hp Hg HL) as (is' & HL' & HM). fold l in HM.
  set (I := fun i i' => _) in HM.
  assert (HI : forall i i', I i i' -> moved_from (byte_len p) (byte_len g) n l i i').
  { intros i i' Hi. unfold moved_from. destruct Hi as [[[H _] ->] |[H Hm]].
    - rewrite (proj2 (N.ltb_lt _ _) H). reflexivity.
    - rewrite (proj2 (N.ltb_ge _ _)); [exact Hm|lia]. }
  assert (M : moved_outcome A (shifted_from (byte_len p) (byte_len g) n l) I (parse_str U A (p ++ c :: s)) (parse_str U A (p ++ c :: g ++ s))).
  { set (d := fun x => if position x <=? byte_len p then x else mkpos (position x + byte_len g) (line x + n) (column x)).
    assert (Hd : forall x, shifted_from (byte_len p) (byte_len g) n l x (d x)).
    { intro x. unfold d, shifted_from, shifted. destruct (_ <=? _); [reflexivity|]. cbn. auto. }
    apply (outcome_moved U A _ _ is is' e _ _ I d d HL HL' Hd Hd).
    - exact HM.
    - intros i i' Hlt Hln [[[H1 H2] ->] |[H1 Hm]]; (split; [|unfold shifted_from]).
      + reflexivity.
      + rewrite !(proj2 (N.leb_le _ _)) by lia. auto.
      + exact (proj1 Hm).
      + rewrite !(proj2 (N.leb_gt _ _)) by lia. destruct Hm as (_ & P1 & P2 & L1 & L2 & C). unfold shifted. repeat split; try assumption; intro Hl.
        * exact (proj1 (C Hl)).
        * rewrite Hln in Hl. exact (proj2 (C Hl)).
    - intros i i' [[_ ->] |[_ [H _]]]; [reflexivity|exact H]. }
  revert M. unfold moved_outcome, moved_outcome_by. destruct (parse_str U A (p ++ c :: s)) as [v|i| | |]; auto. intros (i' & E & Hi). exists i'. split; [exact E|apply HI, Hi].
Qed.
(** Layout at the front of the text. *)
Theorem C76_trees_move_front : forall U A g n s, layout g n ->
  moved_outcome A (shifted (byte_len g) n 0) (moved (byte_len g) n 0) (parse_str U A s) (parse_str U A (g ++ s)).
Proof.
  intros U A g n s Hg. destruct (lex U s) as [is e] eqn:HL. destruct (C75_front U g n s is e Hg HL) as (is' & HL' & HM).
  assert (Hd : forall x, shifted (byte_len g) n 0 x (mkpos (position x + byte_len g) (line x + n) (column x))) by (intro x; unfold shifted; cbn; auto).
  apply (outcome_moved U A _ _ is is' e _ _ _ _ _ HL HL' Hd Hd).
  - exact HM.
  - intros i i' _ Hln (T & P1 & P2 & L1 & L2 & C). split; [exact T|]. split; (split; [assumption|]); (split; [assumption|]); intro Hl.
    + exact (proj1 (C Hl)).
    + rewrite Hln in Hl. exact (proj2 (C Hl)).
  - intros i i' [T _]. exact T.
Qed.

(** ** Witness *)
(** A type, and the same with an empty line in it: the node of the key and the one
    of the value of the map move to line 1. *)
Example C76_witness :
  let p := lit "Map" in let g := [10] in let s := lit "Int32 String" in
  settled p /\ layout g 1
  /\ (exists k v, parse_str U_none ScillaType (p ++ 32 :: s) = POk (mkwm (MapType k v) (mkpos 0 0 0) (mkpos 16 0 15)) /\ wm_start k = mkpos 4 0 3)
  /\ (exists k v, parse_str U_none ScillaType (p ++ 32 :: g ++ s) = POk (mkwm (MapType k v) (mkpos 0 0 0) (mkpos 17 1 12)) /\ wm_start k = mkpos 5 1 0).
Proof.
  cbv zeta. split; [|split; [|split]].
  - cbn. repeat (apply st_char; [discriminate|discriminate|]). apply st_end.
  - apply (lay_space 10 _ 0); [reflexivity|constructor].
  - eexists. eexists. split; [vm_compute; reflexivity|reflexivity].
  - eexists. eexists. split; [vm_compute; reflexivity|reflexivity].
Qed.
