(** Property C79: error messages show words of the text and take linear space. *)
From Coq Require Import PeanoNat Lia DecimalFacts DecimalPos DecimalN HexadecimalFacts HexadecimalPos HexadecimalN.
From Verif Require Import Chars Utf8 Lexer LexSpec LexFacts Ast Types Grammar Cfg Parser GrammarLink Emitter Contract EmitSpec EmitSig EmitSteps DerInv Print PrintFacts PropPrint
  Spaced Origin OriginFacts PropOrigin DebugText ErrorText ErrorFacts PropLexer PropErrors PropParse2 PropEmit PropPosition PropSize.
Local Open Scope nat_scope.
Notation len := (@List.length char).

(** ** An error while reading *)
Lemma contract_tokens items ver im lib (con : wm NodeContractDefinition) : derives Program items (mkProgram ver im lib con) -> forall w,
  occurrences w (contract_texts (node con)) <= 2 * occurrences w (map token_text (map item_token items)).
Proof.
  intros Hd. pose proof (proj1 (derives_write _ _ _ Hd)) as Hm.
  apply program_inv in Hd. destruct Hd as (i0 & t1 & t2 & t3 & t4 & v & oi & ol & c & -> & _ & _ & _ & _ & D4 & E). injection E as -> -> -> ->.
  apply contract_inv in D4. destruct D4 as (ic & tn & tp & tw & tf & tc & n & ps & cn & fs & cs & -> & Hkc & Dn & Dp & _ & _ & _ & Ec).
  pose proof (proj1 (derives_write _ _ _ Dn)) as Mn. pose proof (proj1 (derives_write _ _ _ Dp)) as Mp.
  rewrite Ec. unfold contract_texts. cbn [contract_name_node].
  apply matches_texts in Hm, Mn, Mp. cbn [write w_program] in Hm, Mn, Mp. rewrite texts_cons in Hm. repeat rewrite texts_app in Hm. rewrite ?Ec in Hm.
  intro w. specialize (Hm w). specialize (Mn w). specialize (Mp w). repeat rewrite map_app in *. cbn [map] in *. rewrite ?map_app in *.
  repeat rewrite ?occ_app, ?occ_cons, ?occ_nil in *. lia.
Qed.

(** What an error shows is nothing, or something spelled with tokens of the text,
    each used at most twice. *)
Theorem C79_shown_in_errors : forall U debug text m toks,
  from_str U debug text = RError (ParseErrorEmit m) -> tokens_of U text = (toks, LEof) ->
  exists what found, In what [lit "symbol name"; lit "variable declaration"; lit "type definition"]
    /\ m = lit "Expected " ++ what ++ lit ", but found " ++ found ++ lit "."
    /\ (found = lit "nothing"
        \/ exists o words, found = debug o /\ spelt_object o words
           /\ forall w, occurrences w words <= 2 * occurrences w (map token_text toks)).
Proof.
  intros U debug text m toks H Ht. unfold from_str, parse_str in H. unfold tokens_of in Ht. destruct (lex U text) as [items e]. injection Ht as <- ->.
  destruct (parse Program items LEof) as [p| | | |] eqn:Ep; try discriminate. apply parse_sound in Ep. destruct Ep as [Hd _].
  unfold emit_api in H. rewrite emit_steps in H. destruct p as [ver im lib con]. cbv zeta in H.
  destruct (steps debug (node con) (first_state (node con))) as [[u|m'] s| |] eqn:Es; try discriminate. injection H as ->.
  apply contract_charges in Es. destruct Es as (what & found & Hw & E & Hf). exists what, found. split; [exact Hw|]. split; [exact E|].
  destruct Hf as [Hf|(o & words & Hf & Ho & Hle)]; [left; exact Hf|right]. exists o, words. split; [exact Hf|]. split; [exact Ho|].
  intro w. specialize (Hle w). pose proof (contract_tokens _ _ _ _ _ Hd w). lia.
Qed.

(** ** How long numbers and quoted texts get *)
Lemma dec_acc u : forall p, (N.pos p * 10 ^ N.of_nat (Decimal.nb_digits u) <= N.pos (Pos.of_uint_acc u p))%N.
Proof.
  induction u; intro p; cbn [Pos.of_uint_acc Decimal.nb_digits]; [rewrite N.mul_1_r; apply N.le_refl|..];
    rewrite Nat2N.inj_succ, N.pow_succ_r'; (eapply N.le_trans; [|apply IHu]);
    rewrite N.mul_assoc; apply N.mul_le_mono_r; lia.
Qed.
Lemma hex_acc u : forall p, (N.pos p * 16 ^ N.of_nat (Hexadecimal.nb_digits u) <= N.pos (Pos.of_hex_uint_acc u p))%N.
Proof.
  induction u; intro p; cbn [Pos.of_hex_uint_acc Hexadecimal.nb_digits]; [rewrite N.mul_1_r; apply N.le_refl|..];
    rewrite Nat2N.inj_succ, N.pow_succ_r'; (eapply N.le_trans; [|apply IHu]);
    rewrite N.mul_assoc; apply N.mul_le_mono_r; lia.
Qed.
Lemma dec_digits n : n <> 0%N -> (10 ^ N.of_nat (pred (Decimal.nb_digits (N.to_uint n))) <= n)%N.
Proof.
  intro Hn. pose proof (DecimalN.Unsigned.of_to n) as E. pose proof (DecimalN.Unsigned.to_of (N.to_uint n)) as F. rewrite E in F.
  rewrite <- E at 2. destruct (N.to_uint n) as [|u|u|u|u|u|u|u|u|u|u]; [discriminate F| |cbn [Decimal.nb_digits pred N.of_uint Pos.of_uint];
    match goal with |- (_ <= N.pos (Pos.of_uint_acc ?u ?p))%N => pose proof (dec_acc u p); lia end..].
  exfalso. assert (u = Decimal.Nil) as ->; [|cbn in E; congruence]. unfold Decimal.unorm in F. cbn [Decimal.nzhead] in F.
  destruct (Decimal.nzhead u) eqn:Z; try (inversion F; fail); [now injection F|]. exfalso. exact (DecimalFacts.nzhead_nonzero _ _ Z).
Qed.
Lemma hex_digits n : n <> 0%N -> (16 ^ N.of_nat (pred (Hexadecimal.nb_digits (N.to_hex_uint n))) <= n)%N.
Proof.
  intro Hn. pose proof (HexadecimalN.Unsigned.of_to n) as E. pose proof (HexadecimalN.Unsigned.to_of (N.to_hex_uint n)) as F. rewrite E in F.
  rewrite <- E at 2. destruct (N.to_hex_uint n) as [|u|u|u|u|u|u|u|u|u|u|u|u|u|u|u|u]; [discriminate F| |cbn [Hexadecimal.nb_digits pred N.of_hex_uint Pos.of_hex_uint];
    match goal with |- (_ <= N.pos (Pos.of_hex_uint_acc ?u ?p))%N => pose proof (hex_acc u p); lia end..].
  exfalso. assert (u = Hexadecimal.Nil) as ->; [|cbn in E; congruence]. unfold Hexadecimal.unorm in F. cbn [Hexadecimal.nzhead] in F.
  destruct (Hexadecimal.nzhead u) eqn:Z; try (inversion F; fail); [now injection F|]. exfalso. exact (HexadecimalFacts.nzhead_nonzero _ _ Z).
Qed.
Lemma dec_len n : len (dec n) <= S (N.to_nat n).
Proof.
  unfold dec. assert (L : forall v, len (uint_chars v) = Decimal.nb_digits v) by (induction v; cbn; congruence). rewrite L.
  destruct (N.eq_dec n 0) as [-> |Hn]; [cbn; lia|]. apply dec_digits in Hn. set (k := pred _) in Hn.
  assert (K : (N.of_nat k <= 10 ^ N.of_nat k)%N) by (apply N.lt_le_incl, N.pow_gt_lin_r; lia). lia.
Qed.
Lemma hex_len c : (c < 2 ^ 24)%N -> len (hex c) <= 6.
Proof.
  unfold hex. assert (L : forall v, len (hex_chars v) = Hexadecimal.nb_digits v) by (induction v; cbn; congruence). rewrite L. intro Hc.
  destruct (N.eq_dec c 0) as [-> |Hn]; [cbn; lia|]. apply hex_digits in Hn. set (k := pred _) in Hn.
  destruct (Nat.le_gt_cases k 5) as [Hk|Hk]; [lia|exfalso].
  assert (K : (16 ^ 6 <= 16 ^ N.of_nat k)%N) by (apply N.pow_le_mono_r; lia). change (2 ^ 24)%N with (16 ^ 6)%N in Hc. lia.
Qed.

Section Shown.
  Context (printable : char -> bool).
  Notation dstr := (debug_str printable).
  Definition quoted (l : list str) : nat := total (map dstr l).
  Lemma quoted_app a b : quoted (a ++ b) = quoted a + quoted b.
  Proof. unfold quoted. rewrite map_app. apply total_app. Qed.
  Lemma quoted_cons w l : quoted (w :: l) = len (dstr w) + quoted l. Proof. reflexivity. Qed.
  Lemma dstr_app a b : len (dstr (a ++ b)) + 2 = len (dstr a) + len (dstr b).
  Proof. unfold debug_str. rewrite flat_map_app, !len_app. cbn [List.length]. lia. Qed.
  Lemma escape_some c : 1 <= len (escape_char printable c).
  Proof.
    unfold escape_char. repeat match goal with |- context[if ?b then _ else _] => destruct b; [cbn; lia|] end. rewrite len_app. cbn. lia.
  Qed.
  Lemma escape_len c : scalar c -> len (escape_char printable c) <= 10.
  Proof.
    intro Hc. unfold escape_char. repeat match goal with |- context[if ?b then _ else _] => destruct b; [cbn; lia|] end. rewrite !len_app.
    pose proof (hex_len c) as H. change (2 ^ 24)%N with 16777216%N in H. unfold scalar in Hc. cbn [List.length]. lia.
  Qed.
  Lemma dstr_more s : len s + 2 <= len (dstr s).
  Proof.
    unfold debug_str. rewrite !len_app. cbn [List.length]. induction s as [|c s IH]; [cbn; lia|]. cbn [flat_map]. rewrite len_app. pose proof (escape_some c).
    cbn [List.length]. lia.
  Qed.
  Lemma dstr_less s : Forall scalar s -> len (dstr s) <= 10 * len s + 2.
  Proof.
    unfold debug_str. rewrite !len_app. cbn [List.length]. induction 1 as [|c s Hc _ IH]; [cbn; lia|]. cbn [flat_map]. rewrite len_app. pose proof (escape_len c Hc).
    cbn [List.length]. lia.
  Qed.
  Lemma fewer_quoted a : forall b, fewer a b -> quoted a <= quoted b.
  Proof.
    induction a as [|x a IH]; intros b H; [apply le_0_n|].
    assert (Hi : In x b). { apply (count_occ_In word_dec). specialize (H x). rewrite occ_cons in H. unfold one in H. unfold occurrences in H at 2.
      destruct (word_dec x x); [lia|congruence]. }
    apply in_split in Hi. destruct Hi as (b1 & b2 & ->). rewrite quoted_app, !quoted_cons. assert (Hf : fewer a (b1 ++ b2)) by fewer.
    apply IH in Hf. rewrite quoted_app in Hf. lia.
  Qed.

  Lemma ty_len : (forall t ws, spelt t ws -> len (debug_ty printable t) <= quoted ws + 50 * List.length ws)
    /\ (forall fs ws, spelt_fields fs ws ->
         total (map (debug_field printable) fs) + 2 * List.length fs <= quoted ws + 50 * List.length ws).
  Proof.
    apply spelt_mutind.
    - intros n t []; cbn; lia.
    - cbn; lia.
    - intros n k (plus & ds & -> & _ & Nd & Hd & <- & _). cbn [debug_ty]. pose proof (decimal_len ds Hd Nd).
      match goal with |- context[quoted [?w]] => pose proof (dstr_more w) as M end. rewrite quoted_cons, !len_app in *. cbn in *. lia.
    - intros n. cbn [debug_ty]. rewrite quoted_cons, !len_app. cbn. lia.
    - intros t ws _ IH. cbn [debug_ty]. rewrite quoted_cons, !len_app. unfold lit. cbn [List.length]. cbn. lia.
    - intros t ws _ IH. cbn [debug_ty]. rewrite quoted_cons, !len_app. unfold lit. cbn [List.length]. cbn. lia.
    - intros a b ws ws' _ IH _ IH'. cbn [debug_ty]. rewrite quoted_cons, quoted_app, !len_app. cbn [List.length]. rewrite app_length. unfold lit. cbn. lia.
    - intros a b ws ws' _ IH _ IH'. cbn [debug_ty]. rewrite quoted_cons, quoted_app, !len_app. cbn [List.length]. rewrite app_length. unfold lit. cbn. lia.
    - intros kind fs ws _ IH. cbn [debug_ty]. unfold debug_list.
      match goal with |- context[join ?s (map ?g fs)] => pose proof (len_join s (map g fs)) as J; assert (E : map g fs = map (debug_field printable) fs) by (apply map_ext; intros [m x]; reflexivity); rewrite E in * end.
      assert (K : len (dstr kind) <= quoted (kind_words kind) + 2).
      { destruct kind; [cbn; lia|]. cbn [kind_words]. rewrite quoted_cons. lia. }
      rewrite map_length in J. rewrite quoted_cons, quoted_app, !len_app. cbn [List.length]. rewrite app_length.
      set (d := len (dstr kind)) in *. set (e := quoted (kind_words kind)) in *. set (j := len (join _ _)) in *.
      change (len (lit ", ")) with 2 in J. pose proof (dstr_more (lit "ByStr20")) as M. change (len (lit "ByStr20")) with 7 in M. set (h := len (dstr (lit "ByStr20"))) in *.
      clearbody d e j h. cbn [List.length lit] in *. lia.
    - cbn. lia.
    - intros n t l ws ws' _ IH _ IH'. cbn [map debug_field]. rewrite !total_cons, quoted_cons, quoted_app, !len_app. cbn [List.length]. rewrite app_length. unfold lit in *. cbn in *. lia.
  Qed.
  Lemma field_list_quoted fs ws : spelt_fields fs ws -> len (debug_field_list printable fs) <= quoted ws + 50 * List.length ws + 13.
  Proof.
    intros Hs. pose proof (proj2 ty_len fs ws Hs). unfold debug_field_list, debug_list. rewrite !len_app.
    pose proof (len_join (lit ", ") (map (debug_field printable) fs)) as J. rewrite map_length in J. unfold lit in *. cbn in *. lia.
  Qed.
  Lemma sr_len : (forall t ws, spelt_sr t ws -> len (debug_sr_type printable t) + 2 <= quoted ws + 150 * List.length ws)
    /\ (forall l ws, spelt_srs l ws -> total (map (debug_sr_type printable) l) + 2 * List.length l <= quoted ws + 150 * List.length ws).
  Proof.
    apply spelt_sr_mutind.
    - intros n subs addr ws wa _ IH Ha. cbn [debug_sr_type]. unfold debug_list. pose proof (len_join (lit ", ") (map (debug_sr_type printable) subs)) as J.
      rewrite map_length in J. rewrite quoted_cons, quoted_app, !len_app. cbn [List.length]. rewrite app_length.
      destruct Ha as [|a wf Hf].
      + cbn in *. lia.
      + apply field_list_quoted in Hf. rewrite quoted_app, !len_app, !app_length. set (d := len (dstr (a_type_name a))) in *.
        assert (K : d <= quoted (kind_words (a_type_name a)) + 2).
        { subst d. destruct (a_type_name a); [cbn; lia|]. cbn [kind_words]. rewrite quoted_cons. lia. }
        set (e := quoted (kind_words (a_type_name a))) in *. set (g := len (debug_field_list printable (a_fields a))) in *. unfold lit in *. cbn in *. lia.
    - cbn. lia.
    - intros t l ws ws' _ IH _ IH'. cbn [map List.length]. rewrite total_cons, quoted_app, app_length. lia.
  Qed.
  Lemma object_len o ws : spelt_object o ws -> len (debug_object printable o) <= quoted ws + 150 * List.length ws + 40.
  Proof.
    intros [i|f w (wf & Hf & ->)|t w Ht]; cbn [debug_object].
    - unfold debug_identifier. rewrite quoted_cons, !len_app. destruct (kind i); cbn; lia.
    - apply (proj1 ty_len) in Hf. destruct f as [n t]. cbn [field_name field_type debug_field] in *. rewrite quoted_cons, !len_app. cbn [List.length].
      unfold lit. cbn in *. lia.
    - apply (proj1 sr_len) in Ht. rewrite !len_app. unfold lit. cbn in *. lia.
  Qed.

  (** ** Tokens *)
  Lemma tiled_quoted pos ln items s rest : tiled pos ln items s rest -> Forall scalar s ->
    quoted (map (fun i => token_text (item_token i)) items) <= 10 * len s + 2 * List.length items.
  Proof.
    induction 1 as [|pos ln g n a t b x items s rest _ _ _ _ _ _ _ _ _ IH|pos ln g n a c items s rest _ _ _ _ _ IH]; intro Hs; cbn [map item_token fst snd]; [cbn; lia|..];
      rewrite quoted_cons, ?len_app in *; cbn [token_text List.length] in *.
    - apply Forall_app in Hs. destruct Hs as [_ Hs]. apply Forall_app in Hs. destruct Hs as [Ht Hs]. apply Forall_app in Hs. destruct Hs as [_ Hs].
      apply dstr_less in Ht. specialize (IH Hs). lia.
    - apply Forall_app in Hs. destruct Hs as [_ Hs]. inversion_clear Hs. specialize (IH H0).
      assert (Q : len (dstr (lit "?")) <= 12) by (apply (dstr_less (lit "?")); repeat constructor; unfold scalar; cbn; lia). lia.
  Qed.
  Lemma payload_len t : len (debug_token printable t) <= len (dstr (token_text t)) + 20.
  Proof.
    unfold debug_token. rewrite len_app. pose proof (dstr_more (token_text t)) as M.
    destruct t; cbn [token_payload token_name token_text]; rewrite ?len_app; cbn in *; lia.
  Qed.
  Lemma position_len p (n : nat) : (position p <= N.of_nat n)%N -> (line p <= N.of_nat n)%N -> (column p <= N.of_nat n)%N -> len (debug_position p) <= 3 * n + 60.
  Proof.
    intros Hp Hl Hc. unfold debug_position. rewrite !len_app. pose proof (dec_len (position p)). pose proof (dec_len (line p)). pose proof (dec_len (column p)).
    unfold lit. cbn [List.length] in *. cbn. lia.
  Qed.
End Shown.
Lemma bytes_len s : (byte_len s <= N.of_nat (4 * len s))%N.
Proof.
  induction s as [|c s IH]; [cbn; lia|]. cbn [byte_len List.length]. unfold len_utf8.
  destruct (c <? 128)%N, (c <? 2048)%N, (c <? 65536)%N; lia.
Qed.

(** ** C79 *)
Lemma all_tks_nodup : NoDup all_tks.
Proof.
  unfold all_tks. repeat (constructor; [cbn; let H := fresh in intro H; repeat (destruct H as [H|H]; [discriminate H|]); exact H|]). constructor.
Qed.
(** The terminals an error lists are different. *)
Theorem C79_expected_once : forall A items e, NoDup (expected A items e) /\ List.length (expected A items e) <= List.length all_tks.
Proof.
  intros A items e. unfold expected. destruct (stop_states _ _ _ _ _) as [sts|]; [|split; [constructor|apply le_0_n]]. split.
  - apply NoDup_filter, all_tks_nodup.
  - generalize all_tks. intro l. induction l as [|k l IH]; [apply le_0_n|]. cbn [filter]. destruct (match accepts _ _ _ _ with Some b => b | None => false end); cbn [List.length]; lia.
Qed.

Section Message.
  Context (printable : char -> bool) (show_expected : list tk -> str) (U : unicode).
  Notation quoted := (quoted printable).
  Lemma quoted_in w l : In w l -> len (debug_str printable w) <= quoted l.
  Proof. induction l as [|x l IH]; [contradiction|]. intros [-> |H]; rewrite quoted_cons; [lia|]. specialize (IH H). lia. Qed.
  Lemma tokens_quoted text items e : lex U text = (items, e) -> Forall scalar text ->
    quoted (map token_text (map item_token items)) <= 12 * len text /\ List.length items <= len text.
  Proof.
    intros El Hs. destruct (lex_tiled _ _ _ _ El) as (rest & Ht & _). apply (tiled_quoted printable) in Ht; [|exact Hs]. rewrite map_map.
    pose proof (proj2 (C01_lexer_terminates U text items e El)). lia.
  Qed.
  Lemma item_len text items e i : lex U text = (items, e) -> In i items -> Forall scalar text -> len (debug_item printable i) <= 36 * len text + 200.
  Proof.
    intros El Hi Hs. destruct (C63_fits U text items e i El Hi) as ((A1 & A2) & (A3 & A4) & A5 & _).
    destruct (C02_span_in_bounds _ _ _ _ _ El Hi) as (B1 & B2 & B3 & _).
    pose proof (bytes_len text). unfold debug_item. rewrite !len_app.
    pose proof (position_len (item_start i) (4 * len text) ltac:(lia) ltac:(lia) ltac:(lia)).
    pose proof (position_len (item_end i) (4 * len text) ltac:(lia) ltac:(lia) ltac:(lia)).
    pose proof (payload_len printable (item_token i)) as P. destruct (tokens_quoted _ _ _ El Hs) as [Q _].
    pose proof (quoted_in (token_text (item_token i)) (map token_text (map item_token items)) ltac:(apply in_map, in_map, Hi)) as R.
    set (p1 := len (debug_position (item_start i))) in *. set (p2 := len (debug_position (item_end i))) in *. set (p3 := len (debug_token _ _)) in *.
    clearbody p1 p2 p3. unfold lit. cbn [List.length]. cbn. lia.
  Qed.
  Lemma last_len text items e : lex U text = (items, e) -> Forall scalar text -> len (debug_position (last_location items)) <= 12 * len text + 60.
  Proof.
    intros El Hs. unfold last_location. pose proof (bytes_len text) as B.
    destruct items as [|i0 r]; [cbn; lia|]. destruct (@exists_last _ (i0 :: r)) as (l & i & E); [discriminate|]. rewrite E in *.
    rewrite map_app. cbn [map]. rewrite last_last. assert (Hi : In i (l ++ [i])) by (apply in_app_iff; right; left; reflexivity).
    destruct (C63_fits U text _ e i El Hi) as (_ & (A3 & A4) & A5 & _).
    pose proof (position_len (item_end i) (4 * len text) ltac:(lia) ltac:(lia) ltac:(lia)). lia.
  Qed.

  (** The message of any error is at most as long as the text, up to a constant
      factor, not counting the list of at most 59 expected terminals. *)
  Theorem C79_messages_are_linear : forall text m, Forall scalar text -> error_message printable show_expected U text = Some m ->
    exists expected_kinds, NoDup expected_kinds /\ List.length expected_kinds <= 59
      /\ len m <= 400 * len text + len (show_expected expected_kinds) + 400.
  Proof.
    intros text m Hs H. unfold error_message in H. destruct (lex U text) as [items e] eqn:El.
    exists (expected Program items e). destruct (C79_expected_once Program items e) as [Hd Hle]. split; [exact Hd|]. split; [exact Hle|].
    destruct (from_str U (debug_object printable) text) as [c|[i| |x|]| |] eqn:Ef; try discriminate; apply some_inj in H; subst m.
    - assert (Hi : In i items).
      { unfold from_str, parse_str in Ef. rewrite El in Ef. destruct (parse Program items e) as [p|j| | |] eqn:Ep; try discriminate.
        - unfold emit_api in Ef. destruct (emit_program _ p); discriminate.
        - injection Ef as ->. destruct (C44_listed_tokens_fit _ _ _ _ Ep) as (u & r & -> & _). apply in_app_iff. right. left. reflexivity. }
      pose proof (item_len text items e i El Hi Hs) as L. unfold token_error_text. rewrite !len_app. set (d := len (debug_item printable i)) in *.
      set (k := len (show_expected _)). clearbody d k. unfold lit. cbn [List.length]. cbn. lia.
    - pose proof (last_len text items e El Hs) as L. unfold eof_error_text. rewrite !len_app. set (d := len (debug_position _)) in *.
      set (k := len (show_expected _)). clearbody d k. unfold lit. cbn [List.length]. cbn. lia.
    - assert (Hp : exists p, parse Program items e = POk p).
      { unfold from_str, parse_str in Ef. rewrite El in Ef. destruct (parse Program items e) as [p|j| | |] eqn:Ep; try discriminate. eauto. }
      destruct Hp as (p & Hp). apply parse_sound in Hp. destruct Hp as [_ ->].
      destruct (tokens_quoted _ _ _ El Hs) as [Q N].
      destruct (C79_shown_in_errors U (debug_object printable) text x (map item_token items) Ef) as (what & found & Hw & -> & Hf); [unfold tokens_of; rewrite El; reflexivity|].
      rewrite !len_app. set (k := len (show_expected _)). clearbody k.
      assert (Lw : len what <= 20) by (destruct Hw as [<-|[<-|[<-|[]]]]; cbn; lia).
      assert (Lf : len found <= 324 * len text + 40).
      { destruct Hf as [-> |(o & words & -> & Ho & Hf)]; [cbn; lia|]. apply (object_len printable) in Ho.
        assert (F : fewer words (map token_text (map item_token items) ++ map token_text (map item_token items))).
        { intro w. specialize (Hf w). rewrite occ_app. lia. }
        pose proof (fewer_quoted printable _ _ F) as FQ. pose proof (fewer_length _ _ F) as FL. rewrite quoted_app in FQ. rewrite app_length, !map_length in FL. lia. }
      unfold lit. cbn [List.length]. cbn. lia.
  Qed.
End Message.

(** ** Witnesses *)
Definition blamed : str := lit "scilla_version 0 contract C () field f : Map Int32 Event = e".
Example C79_witness : exists m, from_str U_none (debug_object all_printable) blamed = RError (ParseErrorEmit m)
  /\ m = lit "Expected symbol name, but found " ++ debug_object all_printable (SoTypeDefinition (mkSr (lit "Int32") [] None)) ++ lit "."
  /\ spelt_object (SoTypeDefinition (mkSr (lit "Int32") [] None)) [lit "Int32"]
  /\ In (lit "Int32") (map token_text (fst (tokens_of U_none blamed))).
Proof.
  eexists. split; [vm_compute; reflexivity|]. split; [vm_compute; reflexivity|]. split.
  - constructor. apply (ssr (lit "Int32") [] None [] []); constructor.
  - vm_compute. tauto.
Qed.
Example C79_witness_length : exists m, error_message all_printable show_none U_none blamed = Some m /\ len m = 143 /\ len blamed = 60
  /\ Forall scalar blamed.
Proof.
  eexists. split; [vm_compute; reflexivity|]. split; [reflexivity|]. split; [reflexivity|].
  apply Forall_forall. intros c Hc. vm_compute in Hc. unfold scalar. repeat (destruct Hc as [<-|Hc]; [lia|]). contradiction.
Qed.
