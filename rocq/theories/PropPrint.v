(** Property C41: the AST the parser returns is what the source says, token by
    token.  C42: everything that can be written down is read back.
    [write A v] (Print.v) lists the tokens of an AST, [matches] allows for the
    three places where Scilla lets a token be left out or repeated, [writable]
    says which ASTs have a written form. *)
From Verif Require Import Chars Lexer LexSpec LexFacts LexWritten Ast Grammar Cfg Parser GrammarLink Erase EraseFacts
  PropParse2 Print PrintFacts PrintRead.

(** ** C41 *)
Theorem C41_ast_is_what_was_read : forall A items e v,
  parse A items e = POk v -> matches (write A v) (map item_token items) /\ writable A v = true.
Proof. intros A items e v H. apply parse_sound in H. destruct H as [H _]. apply derives_write, H. Qed.

Theorem C41_ast_of_text : forall U A text v,
  parse_str U A text = POk v ->
  exists toks, tokens_of U text = (toks, LEof) /\ matches (write A v) toks /\ writable A v = true.
Proof.
  intros U A text v. unfold parse_str, tokens_of. destruct (lex U text) as [items e] eqn:E. intro H.
  exists (map item_token items). pose proof (parse_sound _ _ _ _ H) as [_ ->].
  apply C41_ast_is_what_was_read in H. tauto.
Qed.

(** ** C42 *)
Theorem C42_written_ast_is_read_back : forall A v items,
  writable A v = true -> map item_token items = canonical (write A v) ->
  exists v', parse A items LEof = POk v' /\ erase A v' = erase A v.
Proof.
  intros A v items Hk Hi. destruct (readable_items A v items Hk Hi) as (v' & Hd & He).
  exists v'. split; [apply parse_complete, Hd|exact He].
Qed.

(** In any layout. *)
Theorem C42_any_layout : forall U A v text,
  writable A v = true -> written U (canonical (write A v)) text ->
  exists v', parse_str U A text = POk v' /\ erase A v' = erase A v.
Proof.
  intros U A v text Hk Hw. apply written_tokens in Hw. unfold parse_str. unfold tokens_of in Hw.
  destruct (lex U text) as [items e]. injection Hw as Hi ->. apply C42_written_ast_is_read_back; assumption.
Qed.

(** Every text the parser accepts can be rewritten canonically, in any layout,
    without changing the AST. *)
Corollary C42_reprinting : forall U U' A text text' v,
  parse_str U A text = POk v -> written U' (canonical (write A v)) text' ->
  exists v', parse_str U' A text' = POk v' /\ erase A v' = erase A v.
Proof.
  intros U U' A text text' v H Hw. apply C42_any_layout; [|exact Hw].
  destruct (C41_ast_of_text U A text v H) as (_ & _ & _ & Hk). exact Hk.
Qed.

(** ** The hypotheses are met *)
Definition some_program := lit "scilla_version 0 import A B import C library L let a = builtin f () x type T = | X of (List Int32)
  contract C ( , o : ByStr20 with contract field f : Map String (Option Uint32) end)
  with x => field g : forall 'A. 'A -> Int32 = fun (x : Int32) => y transition T () match x with | Ns.A (B c) _ => send z; a[k] := v | _ => end end".
Example C41_witness : exists p toks, parse_str U_none Program some_program = POk p
  /\ tokens_of U_none some_program = (toks, LEof) /\ toks <> canonical (write Program p).
Proof.
  eexists. eexists. split; [vm_compute; reflexivity|]. split; [vm_compute; reflexivity|]. vm_compute. discriminate.
Qed.
Example C42_witness : exists v v', parse_str U_none FullExpression (lit "builtin f () x") = POk v
  /\ parse_str U_none FullExpression (lit "builtin(* *)f x") = POk v' /\ v <> v'
  /\ canonical (write FullExpression v) = [TBuiltin; TIdentifier (lit "f"); TIdentifier (lit "x")]
  /\ erase FullExpression v' = erase FullExpression v.
Proof.
  eexists. eexists. split; [vm_compute; reflexivity|]. split; [vm_compute; reflexivity|]. split; [discriminate|].
  split; reflexivity.
Qed.
