(** Properties C11, C12, C13, C16: the parser and the grammar.
    [derives A toks v] (Grammar.v) is the derivation relation of
    parser.lalrpop: [toks] derives the AST [v] from the non terminal [A] by the
    productions and actions of that file. [parse] is the LALR(1) automaton. *)
From Verif Require Import Chars Lexer Ast Grammar Cfg Parser GrammarLink.

(** ** C11: what is accepted is derived by the grammar, and is the whole input *)
Theorem C11_accepted_is_derived : forall A items e v,
  parse A items e = POk v -> derives A items v /\ e = LEof.
Proof. exact parse_sound. Qed.

Theorem C11_accepted_text_is_derived : forall U A text v,
  parse_str U A text = POk v -> exists items, lex U text = (items, LEof) /\ derives A items v.
Proof.
  intros U A text v. unfold parse_str. destruct (lex U text) as [items e] eqn:E. intro H.
  destruct (parse_sound _ _ _ _ H) as [Hd ->]. eauto.
Qed.

(** ** C12: what the grammar derives is accepted, with that AST *)
Theorem C12_derived_is_accepted : forall A items v,
  derives A items v -> parse A items LEof = POk v.
Proof. exact parse_complete. Qed.

Theorem C12_derived_text_is_accepted : forall U A text items v,
  lex U text = (items, LEof) -> derives A items v -> parse_str U A text = POk v.
Proof. intros U A text items v E H. unfold parse_str. rewrite E. apply parse_complete, H. Qed.

(** ** C13: the grammar is unambiguous *)
Theorem C13_unambiguous : forall A items v v', derives A items v -> derives A items v' -> v = v'.
Proof. exact derives_unique. Qed.

(** ** C16: errors are reported at the first offending token *)

(** [u] is a prefix of some phrase of [A]. *)
Definition phrase_prefix (A : nt) (u : list item) : Prop := exists w v, derives A (u ++ w) v.

Theorem C16_error_at_first_offending_token : forall A items e i,
  parse A items e = PErrToken i <->
  exists u r, items = u ++ [i] ++ r /\ phrase_prefix A u /\ ~ phrase_prefix A (u ++ [i]).
Proof. exact parse_error_token_iff. Qed.

Theorem C16_error_at_end_of_input : forall A items e,
  parse A items e = PErrEof <->
  e = LEof /\ phrase_prefix A items /\ (forall v, ~ derives A items v).
Proof. exact parse_error_eof_iff. Qed.

(** The parser itself never panics; a panic is the lexer's, and surfaces only if
    no error precedes it. *)
Theorem C16_panic_is_the_lexers : forall A items e,
  (parse A items e = PPanic <-> e <> LEof /\ phrase_prefix A items)
  /\ parse A items e <> PInternal.
Proof. intros A items e. split; [apply parse_panic_iff|apply parse_not_internal]. Qed.

(** ** The hypotheses are met *)
Definition expr_text := lit "let x = builtin add a Ns.b in { _tag : x ; y : ""s"" }".
Example C11_C12_witness : exists items v,
  lex U_none expr_text = (items, LEof) /\ parse FullExpression items LEof = POk v
  /\ derives FullExpression items v.
Proof.
  destruct (lex U_none expr_text) as [items e] eqn:El.
  assert (E : exists v, parse FullExpression items LEof = POk v) by (vm_compute in El; injection El as <- <-; vm_compute; eauto).
  destruct E as (v & E). exists items, v. split; [vm_compute in El; injection El as <- <-; reflexivity|].
  split; [exact E|]. apply (parse_sound _ _ _ _ E).
Qed.

Definition error_text := lit "let x = in y".
Example C16_witness : exists items i, lex U_none error_text = (items, LEof)
  /\ item_token i = TIn /\ position (item_start i) = 8 /\ parse FullExpression items LEof = PErrToken i.
Proof.
  eexists. eexists. split; [vm_compute; reflexivity|].
  split; [|split; [|vm_compute; reflexivity]]; reflexivity.
Qed.
Example C16_witness_eof : exists items, lex U_none (lit "let x = y in") = (items, LEof)
  /\ parse FullExpression items LEof = PErrEof.
Proof. eexists. split; vm_compute; reflexivity. Qed.
Example C16_witness_panic : exists items, lex U_latin (lit "let " ++ [97; 233; 32]) = (items, LPanic)
  /\ parse FullExpression items LPanic = PPanic.
Proof. eexists. split; vm_compute; reflexivity. Qed.
