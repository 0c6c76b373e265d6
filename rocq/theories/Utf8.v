(** UTF-8: the specification (RFC 3629), and that [utf8_decode] meets it. *)
From Coq Require Import ZArith Lia ZifyN ZifyBool.
From Verif Require Import Chars Types Contract.
Local Open Scope N_scope.

(** UTF-8 as in RFC 3629: the scalar values and the bytes of each. *)
Definition scalar (c : N) : Prop := c < 55296 \/ (57344 <= c /\ c < 1114112).
Definition utf8_char (c : N) : list N :=
  if c <? 128 then [c]
  else if c <? 2048 then [192 + c / 64; 128 + c mod 64]
  else if c <? 65536 then [224 + c / 4096; 128 + c / 64 mod 64; 128 + c mod 64]
  else [240 + c / 262144; 128 + c / 4096 mod 64; 128 + c / 64 mod 64; 128 + c mod 64].
Definition utf8 (s : str) : list N := flat_map utf8_char s.
Definition is_text (s : str) : Prop := Forall scalar s.

Ltac Zify.zify_post_hook ::= Z.div_mod_to_equations.
Ltac decide_if :=
  match goal with |- context [if ?b then _ else _] =>
    first [replace b with true by (symmetry; unfold is_cont, in_range; lia) | replace b with false by (symmetry; unfold is_cont, in_range; lia)] end.
Lemma decode_char c r : scalar c -> utf8_decode (utf8_char c ++ r) = option_map (cons c) (utf8_decode r).
Proof.
  intro H. unfold scalar in H. unfold utf8_char.
  destruct (c <? 128) eqn:E1; [|destruct (c <? 2048) eqn:E2; [|destruct (c <? 65536) eqn:E3]]; cbn [app utf8_decode].
  - rewrite E1. reflexivity.
  - decide_if. decide_if. decide_if. destruct (utf8_decode r); [|reflexivity]. cbn [option_map]. do 2 f_equal. lia.
  - decide_if. decide_if. decide_if.
    assert (G1 : is_cont (128 + c / 64 mod 64) = true) by (unfold is_cont, in_range; lia).
    assert (G2 : is_cont (128 + c mod 64) = true) by (unfold is_cont, in_range; lia). rewrite G1, G2. cbn [andb].
    assert (G3 : (if 224 + c / 4096 =? 224 then 160 <=? 128 + c / 64 mod 64 else true) = true) by (destruct (_ =? _) eqn:E; lia). rewrite G3.
    assert (G4 : (if 224 + c / 4096 =? 237 then 128 + c / 64 mod 64 <=? 159 else true) = true).
    { clear G1 G2 G3. destruct (_ =? _) eqn:E; [|reflexivity]. assert (A1 : c / 64 <= 863) by lia. assert (A2 : 832 <= c / 64) by lia. clear -A1 A2. generalize dependent (c / 64). intros q A1 A2. lia. }
    rewrite G4. cbn [andb].
    destruct (utf8_decode r); [|reflexivity]. cbn [option_map]. do 2 f_equal. lia.
  - do 4 decide_if.
    assert (G1 : is_cont (128 + c / 64 mod 64) = true) by (unfold is_cont, in_range; lia).
    assert (G2 : is_cont (128 + c mod 64) = true) by (unfold is_cont, in_range; lia).
    assert (G5 : is_cont (128 + c / 4096 mod 64) = true) by (unfold is_cont, in_range; lia). rewrite G1, G2, G5. cbn [andb].
    assert (G3 : (if 240 + c / 262144 =? 240 then 144 <=? 128 + c / 4096 mod 64 else true) = true).
    { clear G1 G2 G5. destruct (_ =? _) eqn:E; [|reflexivity]. assert (A1 : c / 4096 <= 63) by lia. assert (A2 : 16 <= c / 4096) by lia. clear -A1 A2. generalize dependent (c / 4096). intros q A1 A2. lia. }
    rewrite G3.
    assert (G4 : (if 240 + c / 262144 =? 244 then 128 + c / 4096 mod 64 <=? 143 else true) = true).
    { clear G1 G2 G3 G5. destruct (_ =? _) eqn:E; [|reflexivity]. assert (A1 : c / 4096 <= 271) by lia. assert (A2 : 256 <= c / 4096) by lia. clear -A1 A2. generalize dependent (c / 4096). intros q A1 A2. lia. }
    rewrite G4. cbn [andb].
    destruct (utf8_decode r); [|reflexivity]. cbn [option_map]. do 2 f_equal. lia.
Qed.
Lemma decode_utf8 s : is_text s -> utf8_decode (utf8 s) = Some s.
Proof. induction 1 as [|c s Hc _ IH]; [reflexivity|]. cbn [utf8 flat_map]. rewrite (decode_char c _ Hc). fold (utf8 s). rewrite IH. reflexivity. Qed.
Lemma decode_inv n : forall bs s, (List.length bs <= n)%nat -> utf8_decode bs = Some s -> is_text s /\ utf8 s = bs.
Proof.
  induction n as [|n IH]; intros bs s Hn H.
  { destruct bs; [|cbn in Hn; lia]. injection H as <-. split; [constructor|reflexivity]. }
  destruct bs as [|b r]; [injection H as <-; split; [constructor|reflexivity]|]. cbn [utf8_decode] in H.
  assert (Step : forall r' s' c hd, utf8_decode r' = Some s' -> (List.length r' <= n)%nat -> scalar c -> utf8_char c = hd -> is_text (c :: s') /\ utf8 (c :: s') = hd ++ r').
  { intros r' s' c hd Hd Hl Hc He. destruct (IH r' s' Hl Hd) as [H1 H2]. split; [constructor; assumption|]. cbn [utf8 flat_map]. fold (utf8 s'). rewrite H2, He. reflexivity. }
  destruct (b <? 128) eqn:E1.
  { destruct (utf8_decode r) as [s'|] eqn:Es; [|discriminate]. injection H as <-. cbn in Hn. apply (Step r s' b [b] Es); [lia|unfold scalar; lia|].
    unfold utf8_char. rewrite E1. reflexivity. }
  destruct (in_range 194 223 b) eqn:E2.
  { destruct r as [|b1 r]; [discriminate|]. destruct (is_cont b1) eqn:C1; [|discriminate]. destruct (utf8_decode r) as [s'|] eqn:Es; [|discriminate].
    injection H as <-. cbn in Hn. unfold is_cont, in_range in *. apply (Step r s' _ [b; b1] Es); [lia|unfold scalar; lia|]. unfold utf8_char. do 2 decide_if.
    repeat f_equal; lia. }
  assert (If : forall (x y : bool), (if x then y else true) = true -> x = true -> y = true) by (intros [] [] H1 H2; congruence).
  destruct (in_range 224 239 b) eqn:E3.
  { destruct r as [|b1 [|b2 r]]; try discriminate. destruct (_ && _) eqn:C; [|discriminate].
    rewrite !Bool.andb_true_iff in C. destruct C as (((C1 & C2) & C3) & C4).  pose proof (If _ _ C3) as D3. pose proof (If _ _ C4) as D4. clear C3 C4.
    destruct (utf8_decode r) as [s'|] eqn:Es; [|discriminate].
    injection H as <-. cbn in Hn. unfold is_cont, in_range in *. apply (Step r s' _ [b; b1; b2] Es); [lia|unfold scalar; lia|]. unfold utf8_char. do 3 decide_if.
    repeat f_equal; lia. }
  destruct (in_range 240 244 b) eqn:E4; [|discriminate].
  { destruct r as [|b1 [|b2 [|b3 r]]]; try discriminate. destruct (_ && _) eqn:C; [|discriminate].
    rewrite !Bool.andb_true_iff in C. destruct C as ((((C1 & C2) & C2') & C3) & C4). pose proof (If _ _ C3) as D3. pose proof (If _ _ C4) as D4. clear C3 C4.
    destruct (utf8_decode r) as [s'|] eqn:Es; [|discriminate].
    injection H as <-. cbn in Hn. unfold is_cont, in_range in *. apply (Step r s' _ [b; b1; b2; b3] Es); [lia|unfold scalar; lia|]. unfold utf8_char. do 3 decide_if.
    repeat f_equal; lia. }
Qed.

(** Decoding is the exact inverse of encoding text. *)
Theorem utf8_decode_iff bs s : utf8_decode bs = Some s <-> is_text s /\ utf8 s = bs.
Proof.
  split; [apply (decode_inv (List.length bs)); lia|]. intros [H <-]. apply decode_utf8, H.
Qed.
