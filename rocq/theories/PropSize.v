(** Property C78: a result is shown in linear space. *)
From Coq Require Import PeanoNat Lia DecimalFacts DecimalPos DecimalN.
From Verif Require Import Chars Lexer LexSpec LexFacts Ast Types Contract EmitSpec Origin OriginFacts PropOrigin PropTypes PropRange Range EmitRange DebugText PropParse2 PropEmit PropDisplay.
Local Open Scope nat_scope.
Notation len := (@List.length char).

(** ** Specification *)
(** All types shown by a user who goes through a result. *)
Definition fields_of (c : contract) : list field := c_init_params c ++ c_fields c ++ flat_map t_params (c_transitions c).
Definition total (l : list str) : nat := fold_right (fun w n => len w + n) 0 l.

(** ** Lemmas *)
Lemma total_app a b : total (a ++ b) = total a + total b.
Proof. induction a as [|w a IH]; [reflexivity|]. unfold total in *. cbn [app fold_right]. lia. Qed.
Lemma total_cons w l : total (w :: l) = len w + total l. Proof. reflexivity. Qed.
Lemma len_app (a b : str) : len (a ++ b) = len a + len b. Proof. apply app_length. Qed.
Lemma len_join sep l : len (join sep l) <= total l + len sep * List.length l.
Proof.
  induction l as [|w [|v r] IH]; [cbn; lia|unfold total; cbn [join fold_right List.length]; lia|].
  change (join sep (w :: v :: r)) with (w ++ sep ++ join sep (v :: r)).
  rewrite !len_app, (total_cons w). cbn [List.length] in *. rewrite (Nat.mul_succ_r _ (S (List.length r))). lia.
Qed.
Lemma fewer_total a : forall b, fewer a b -> total a <= total b.
Proof.
  induction a as [|x a IH]; intros b H; [apply le_0_n|].
  assert (Hi : In x b). { apply (count_occ_In word_dec). specialize (H x). rewrite occ_cons in H. unfold one in H. unfold occurrences in H at 2.
    destruct (word_dec x x); [lia|congruence]. }
  apply in_split in Hi. destruct Hi as (b1 & b2 & ->). rewrite total_app, !total_cons. assert (Hf : fewer a (b1 ++ b2)) by fewer.
  apply IH in Hf. rewrite total_app in Hf. lia.
Qed.
Lemma tiled_total pos ln items s rest : tiled pos ln items s rest -> total (map (fun i => token_text (item_token i)) items) <= len s.
Proof.
  induction 1; cbn [map item_token fst snd]; [apply le_0_n|..]; rewrite total_cons, ?len_app; cbn [token_text List.length] in *; try lia.
  change (len (lit "?")) with 1. lia.
Qed.

Lemma decimal_len ds : all_digits ds -> ds <> [] -> len (dec (decimal ds)) <= len ds.
Proof.
  intros H N. assert (U : exists u, ds = uint_chars u).
  { clear N. induction H as [|c ds Hc _ (u & ->)]; [exists Decimal.Nil; reflexivity|]. unfold is_digit, in_range in Hc. rewrite andb_true_iff, !N.leb_le in Hc.
    assert (Hc' : (c = 48 \/ c = 49 \/ c = 50 \/ c = 51 \/ c = 52 \/ c = 53 \/ c = 54 \/ c = 55 \/ c = 56 \/ c = 57)%N) by lia.
    destruct Hc' as [-> |[-> |[-> |[-> |[-> |[-> |[-> |[-> |[-> | ->]]]]]]]]];
      [exists (Decimal.D0 u)|exists (Decimal.D1 u)|exists (Decimal.D2 u)|exists (Decimal.D3 u)|exists (Decimal.D4 u)
      |exists (Decimal.D5 u)|exists (Decimal.D6 u)|exists (Decimal.D7 u)|exists (Decimal.D8 u)|exists (Decimal.D9 u)]; reflexivity. }
  destruct U as (u & ->). rewrite uint_chars_decimal. unfold dec. rewrite Unsigned.to_of.
  assert (L : forall v, len (uint_chars v) = Decimal.nb_digits v) by (induction v; cbn; congruence).
  rewrite !L. apply nb_digits_unorm. intros ->. apply N. reflexivity.
Qed.

(** ** Display *)
Lemma display_len : (forall t ws, spelt t ws -> len (ty_display t) <= total ws + 10 * List.length ws)
  /\ (forall fs ws, spelt_fields fs ws ->
       total (map (fun f => let '(mkField n ft) := f in lit "field " ++ n ++ lit ": " ++ ty_display ft) fs) + 2 * List.length fs <= total ws + 10 * List.length ws).
Proof.
  apply spelt_mutind.
  - intros n t []; cbn; lia.
  - cbn; lia.
  - intros n k (plus & ds & -> & _ & Nd & Hd & <- & _). cbn [ty_display]. pose proof (decimal_len ds Hd Nd). rewrite total_cons, !len_app. cbn. lia.
  - intros n. cbn. lia.
  - intros t ws _ IH. cbn [ty_display]. rewrite total_cons, !len_app. cbn [List.length]. unfold lit. cbn. lia.
  - intros t ws _ IH. cbn [ty_display]. rewrite total_cons, !len_app. cbn [List.length]. unfold lit. cbn. lia.
  - intros a b ws ws' _ IH _ IH'. cbn [ty_display]. rewrite total_cons, total_app, !len_app. cbn [List.length]. rewrite app_length. unfold lit. cbn. lia.
  - intros a b ws ws' _ IH _ IH'. cbn [ty_display]. rewrite total_cons, total_app, !len_app. cbn [List.length]. rewrite app_length. unfold lit. cbn. lia.
  - intros kind fs ws _ IH. cbn [ty_display]. match goal with |- context[join ?s ?l] => pose proof (len_join s l) as J end.
    rewrite map_length in J. rewrite total_cons, total_app, !len_app. cbn [List.length]. rewrite app_length. unfold lit in *. cbn in *.
    destruct kind; cbn [Origin.kind_words total fold_right List.length]; lia.
  - cbn. lia.
  - intros n t l ws ws' _ IH _ IH'. cbn [map]. rewrite !total_cons, total_app, !len_app. cbn [List.length]. rewrite app_length. unfold lit in *. cbn in *. lia.
Qed.

(** ** Debug *)
Section Shown.
  Context (printable : char -> bool).
  Lemma quote_len s : Forall (fun c => is_word c = true) s -> len (debug_str printable s) = len s + 2.
  Proof.
    intro H. unfold debug_str. rewrite !len_app. cbn [List.length]. enough (flat_map (escape_char printable) s = s) as -> by lia.
    induction H as [|c s Hc _ IH]; [reflexivity|]. cbn [flat_map]. rewrite IH. enough (escape_char printable c = [c]) as -> by reflexivity.
    unfold is_word, is_lower, is_upper, is_digit, in_range in Hc. rewrite !orb_true_iff, !andb_true_iff, !N.leb_le, N.eqb_eq in Hc.
    unfold escape_char. repeat match goal with |- context[(c =? ?k)%N] => destruct (N.eqb_spec c k); [lia|] end.
    destruct (N.ltb_spec c 128); [|lia]. unfold in_range. destruct (N.leb_spec 32 c); [|lia]. destruct (N.leb_spec c 126); [|lia]. reflexivity.
  Qed.
  Lemma head_words n : head_id n -> Forall (fun c => is_word c = true) n.
  Proof.
    intros [H|[(ds & _ & Hd & ->)| ->]]; [|apply Forall_app; split; [repeat constructor|]|repeat constructor].
    - inversion H as [w t Hk|w t Hk| | | | | | |c s Hl Hw _ _| | |]; subst.
      + exfalso. clear -Hk. cbn in Hk. repeat (destruct Hk as [Hk|Hk]; [discriminate Hk|]). exact Hk.
      + exfalso. clear -Hk. cbn in Hk. repeat (destruct Hk as [Hk|Hk]; [discriminate Hk|]). exact Hk.
      + constructor; [|exact Hw]. unfold is_word. rewrite Hl. destruct (is_lower c); reflexivity.
    - eapply Forall_impl; [|exact Hd]. intros c Hc. cbv beta in Hc. unfold is_word. rewrite Hc. destruct (is_lower c), (is_upper c); reflexivity.
  Qed.
  Lemma other_words s : producible_type (Other s) -> Forall (fun c => is_word c = true) s.
  Proof.
    intro H. inversion H as [t Hn| | | | |]; subst. destruct (name_words _ Hn) as (c & r & E & _ & Hw). cbn in E. subst. exact Hw.
  Qed.
  Lemma debug_len : (forall t ws, spelt t ws -> producible_type t -> len (debug_ty printable t) <= total ws + 50 * List.length ws)
    /\ (forall fs ws, spelt_fields fs ws -> producible_fields fs ->
         total (map (debug_field printable) fs) + 2 * List.length fs <= total ws + 50 * List.length ws).
  Proof.
    apply spelt_mutind.
    - intros n t [] _; cbn; lia.
    - cbn; lia.
    - intros n k (plus & ds & -> & _ & Nd & Hd & <- & _) _. cbn [debug_ty]. pose proof (decimal_len ds Hd Nd). rewrite total_cons, !len_app. cbn. lia.
    - intros n H. cbn [debug_ty]. rewrite !len_app, quote_len by exact (other_words n H). cbn. lia.
    - intros t ws _ IH H. cbn [debug_ty]. inversion H as [? Hn|? Ht| | | |]; subst; [inversion Hn as [? ? Hb| | | |]; inversion Hb|]. specialize (IH Ht).
      rewrite total_cons, !len_app. unfold lit. cbn. lia.
    - intros t ws _ IH H. cbn [debug_ty]. inversion H as [? Hn| |? Ht| | |]; subst; [inversion Hn as [? ? Hb| | | |]; inversion Hb|]. specialize (IH Ht).
      rewrite total_cons, !len_app. unfold lit. cbn. lia.
    - intros a b ws ws' _ IH _ IH' H. cbn [debug_ty]. inversion H as [? Hn| | |? ? Ha Hb| |]; subst; [inversion Hn as [? ? Hb| | | |]; inversion Hb|].
      specialize (IH Ha). specialize (IH' Hb). rewrite total_cons, total_app, !len_app. cbn [List.length]. rewrite app_length. unfold lit. cbn. lia.
    - intros a b ws ws' _ IH _ IH' H. cbn [debug_ty]. inversion H as [? Hn| | | |? ? Ha Hb|]; subst; [inversion Hn as [? ? Hb| | | |]; inversion Hb|].
      specialize (IH (pt_plain _ Ha)). specialize (IH' Hb). rewrite total_cons, total_app, !len_app. cbn [List.length]. rewrite app_length. unfold lit. cbn. lia.
    - intros kind fs ws _ IH H. inversion H as [? Hn| | | | |? ? Hk Hf]; subst; [inversion Hn as [? ? Hb| | | |]; inversion Hb|]. specialize (IH Hf).
      destruct (PropDisplay.kind_words _ _ Hk) as [Hw _]. cbn [debug_ty]. unfold debug_list.
      match goal with |- context[join ?s (map ?g fs)] => pose proof (len_join s (map g fs)) as J; assert (E : map g fs = map (debug_field printable) fs) by (apply map_ext; intros [m x]; reflexivity); rewrite E in * end.
      rewrite map_length in J. rewrite total_cons, total_app, !len_app, quote_len by exact Hw. cbn [List.length]. rewrite app_length. unfold lit in *. cbn in *.
      destruct kind; cbn [Origin.kind_words total fold_right List.length]; lia.
    - cbn. lia.
    - intros n t l ws ws' _ IH _ IH' H. inversion H as [|? ? ? Hn Ht Hl]; subst. specialize (IH Ht). specialize (IH' Hl).
      cbn [map debug_field]. rewrite !total_cons, total_app, !len_app, quote_len by exact (lower_words n Hn). cbn [List.length]. rewrite app_length. unfold lit in *. cbn in *. lia.
  Qed.
  Lemma field_list_len fs ws : spelt_fields fs ws -> producible_fields fs -> len (debug_field_list printable fs) <= total ws + 50 * List.length ws + 13.
  Proof.
    intros Hs Hp. pose proof (proj2 debug_len fs ws Hs Hp). unfold debug_field_list, debug_list. rewrite !len_app.
    pose proof (len_join (lit ", ") (map (debug_field printable) fs)) as J. rewrite map_length in J. unfold lit in *. cbn in *. lia.
  Qed.
End Shown.

(** ** C78 *)
Lemma words_of U debug text c toks : from_str U debug text = RValue c -> tokens_of U text = (toks, LEof) ->
  exists words, spelt_contract c words /\ total words <= 2 * len text /\ List.length words <= 2 * List.length toks.
Proof.
  intros H Ht. destruct (spelled_twice U debug text c toks H Ht) as (words & Hw & Hf). exists words. split; [exact Hw|].
  assert (F : fewer words (map token_text toks ++ map token_text toks)) by (intro w; specialize (Hf w); rewrite occ_app; lia).
  split.
  - apply fewer_total in F. rewrite total_app in F. unfold tokens_of in Ht. destruct (lex U text) as [items e] eqn:El. injection Ht as <- ->.
    destruct (PropLexer.C04_input_is_tokens_and_layout U text items El) as (rest & Htl & _). apply tiled_total in Htl. rewrite map_map in F. lia.
  - apply fewer_length in F. rewrite app_length, map_length in F. lia.
Qed.
Lemma shown_fields_len fs ws : spelt_fields fs ws -> total (map (fun f => ty_display (field_type f)) fs) <= total ws + 10 * List.length ws.
Proof.
  induction 1 as [|n t l ws ws' H _ IH]; [apply le_0_n|]. apply (proj1 display_len) in H. cbn [map field_type].
  rewrite !total_cons, total_app. cbn [List.length]. rewrite app_length. lia.
Qed.

(** The texts of all types in a result together are at most as long as the text
    it was read from, up to a constant factor. *)
Theorem C78_display_is_linear : forall U debug text c toks,
  from_str U debug text = RValue c -> tokens_of U text = (toks, LEof) ->
  total (map (fun f => ty_display (field_type f)) (fields_of c)) <= 2 * len text + 20 * List.length toks.
Proof.
  intros U debug text c toks H Ht. destruct (words_of U debug text c toks H Ht) as (words & Hw & T & N).
  destruct Hw as [n ps fs ts wp wf wt H1 H2 H3]. unfold fields_of. cbn [c_init_params c_fields c_transitions].
  rewrite !map_app, !total_app. apply shown_fields_len in H1, H2. rewrite total_cons, !total_app in T. cbn [List.length] in N. rewrite !app_length in N.
  enough (total (map (fun f => ty_display (field_type f)) (flat_map t_params ts)) <= total wt + 10 * List.length wt) by lia.
  clear -H3. induction H3 as [|tn tps l ws ws' Hp _ IH]; [apply le_0_n|]. apply shown_fields_len in Hp. cbn [flat_map t_params].
  rewrite map_app, total_app, total_cons, total_app. cbn [List.length]. rewrite app_length. lia.
Qed.

(** So is what [{:?}] shows of the result. *)
Theorem C78_debug_is_linear : forall printable U debug text c toks,
  from_str U debug text = RValue c -> tokens_of U text = (toks, LEof) ->
  len (debug_contract printable c) <= 2 * len text + 100 * List.length toks + 150.
Proof.
  intros printable U debug text c toks H Ht. destruct (words_of U debug text c toks H Ht) as (words & Hw & T & N).
  destruct (C50_only_producible U debug text c H) as (Pn & Pp & Pf & Pt).
  destruct Hw as [n ps fs ts wp wf wt H1 H2 H3]. cbn [c_name c_init_params c_fields c_transitions] in *.
  apply (field_list_len printable) in H1; [|exact Pp]. apply (field_list_len printable) in H2; [|exact Pf].
  rewrite total_cons, !total_app in T. cbn [List.length] in N. rewrite !app_length in N.
  assert (L : total (map (debug_transition printable) ts) + 2 * List.length ts <= total wt + 50 * List.length wt).
  { clear -H3 Pt. induction H3 as [|tn tps l ws ws' Hp _ IH]; [apply le_0_n|]. inversion Pt as [|? ? [Hn Hq] Pl]; subst. specialize (IH Pl).
    cbn [t_name t_params] in Hn, Hq. apply (field_list_len printable) in Hp; [|exact Hq]. cbn [map]. rewrite !total_cons, total_app. cbn [List.length].
    rewrite app_length.
    assert (Hw : Forall (fun c => is_word c = true) tn) by (destruct Hn as [Hn|Hn]; [exact (lower_words _ Hn)|exact (head_words _ Hn)]).
    assert (E : len (debug_transition printable (mkTransition tn tps)) = len tn + len (debug_field_list printable tps) + 33)
      by (unfold debug_transition; cbn [t_name t_params]; rewrite !len_app, (quote_len printable tn Hw); cbn; lia).
    lia. }
  unfold debug_contract, debug_list. cbn [c_name c_init_params c_fields c_transitions].
  pose proof (len_join (lit ", ") (map (debug_transition printable) ts)) as J. rewrite map_length in J.
  rewrite !len_app, (quote_len printable n (head_words n Pn)). unfold lit in *. cbn in *. lia.
Qed.

(** Both bounds in the length of the text alone. *)
Lemma toks_len U text toks : tokens_of U text = (toks, LEof) -> List.length toks <= len text.
Proof.
  intro Ht. unfold tokens_of in Ht. destruct (lex U text) as [items e] eqn:El. injection Ht as <- ->.
  destruct (PropLexer.C04_input_is_tokens_and_layout U text items El) as (rest & Htl & _). rewrite map_length. clear El. revert Htl. generalize 0%N at 1. generalize 0%N.
  intros a b Htl. induction Htl as [|pos ln g n x t y l items s rest _ _ Ne _ _ _ _ _ _ IH|pos ln g n x ch items s rest _ _ _ _ _ IH]; cbn [List.length]; [apply le_0_n|..].
  - rewrite !app_length. assert (len (token_text t) <> 0) by (destruct (token_text t); [congruence|discriminate]). lia.
  - rewrite app_length. cbn [List.length]. lia.
Qed.
Corollary C78_linear : forall printable U debug text c, from_str U debug text = RValue c ->
  total (map (fun f => ty_display (field_type f)) (fields_of c)) <= 22 * len text /\ len (debug_contract printable c) <= 102 * len text + 150.
Proof.
  intros printable U debug text c H. destruct (tokens_of U text) as [toks e] eqn:Ht.
  assert (e = LEof) as ->. { destruct (ok_parts _ _ _ _ H) as (items & p & _ & Ht' & _). rewrite Ht in Ht'. now injection Ht'. }
  pose proof (toks_len U text toks Ht). pose proof (C78_display_is_linear U debug text c toks H Ht). pose proof (C78_debug_is_linear printable U debug text c toks H Ht). lia.
Qed.

From Verif Require Import Derive Pretty PropPretty.
(** What [{:#?}] shows is not linear: the indentation grows with the nesting. *)
Fixpoint options (n : nat) : ty := match n with O => Uint32 | S n => TyOption (options n) end.
Lemma options_producible n : producible_type (options n) /\ PropDisplay.plain (options n) = true /\ merge20 (options n) = options n /\ len (ty_display (options n)) = 9 * n + 6.
Proof.
  induction n as [|n (P & Q & M & L)]; [repeat split; apply pt_plain; econstructor; constructor|].
  split; [apply pt_option, P|]. split; [exact Q|]. cbn [options merge20 ty_display]. rewrite M. split; [reflexivity|].
  rewrite !len_app, L. unfold lit. cbn. lia.
Qed.
Lemma indent_len d : len (indent d) = 4 * d.
Proof. induction d as [|d IH]; [reflexivity|]. cbn [indent]. rewrite len_app, IH. unfold lit. cbn. lia. Qed.
Lemma spread_options quote n : forall d, 2 * n * n <= len (spread quote d (see_type (options n))).
Proof.
  enough (H : forall d, 2 * n * (n + 2 * d) <= len (spread quote d (see_type (options n)))).
  { intro d. specialize (H d). nia. }
  induction n as [|n IH]; intro d; [cbn; lia|]. cbn [options see_type spread map flat_map].
  rewrite !len_app, indent_len. specialize (IH (S d)). nia.
Qed.
Theorem C78_pretty_is_linear_refuted : forall printable k, exists text c, (forall U debug, from_str U debug text = RValue c)
  /\ k * len text < len (pretty_contract printable c).
Proof.
  intros printable k. set (n := 5 * k + 30). destruct (options_producible n) as (P & Q & M & L).
  eexists _, (mkContract (lit "C") [] [mkField (lit "f") (options n)] []). split.
  - intros U debug. pose proof (C35_every_type U debug (lit "C") (lit "f") (options n) ltac:(apply Spaced.wf_tokenb_sound; reflexivity) ltac:(apply Spaced.wf_tokenb_sound; reflexivity) P) as H.
    cbv zeta in H. rewrite Q, M in H. exact H.
  - rewrite (proj1 (C69_layout printable)). rewrite !len_app, L.
    assert (B : 2 * n * n <= len (spread (debug_str printable) 0 (see_contract (mkContract (lit "C") [] [mkField (lit "f") (options n)] [])))).
    { unfold see_contract, see_fields. cbn [spread map flat_map c_name c_init_params c_fields c_transitions see_field fst snd].
      pose proof (spread_options (debug_str printable) n 4) as B. rewrite !len_app. lia. }
    eapply Nat.lt_le_trans; [|exact B]. unfold lit. cbn [List.length String.list_ascii_of_string map]. subst n. nia.
Qed.

(** ** Witnesses *)
Example C78_witness : exists c toks, from_str U_none no_debug osrc = RValue c /\ tokens_of U_none osrc = (toks, LEof)
  /\ total (map (fun f => ty_display (field_type f)) (fields_of c)) = 92 /\ len (debug_contract all_printable c) = 484 /\ len osrc = 207 /\ List.length toks = 51.
Proof. eexists _, _. split; [vm_compute; reflexivity|]. split; [vm_compute; reflexivity|]. vm_compute. repeat split. Qed.
