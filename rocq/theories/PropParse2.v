(** Property C15: parsing depends on the tokens, not on their positions; and
    C37: [Contract::from_str] is lexer, grammar and emitter. *)
From Verif Require Import Chars Lexer LexSpec LexFacts LexWritten PropLexer Ast Grammar Cfg Parser GrammarLink Types Visitor Emitter EmitInv
  Contract Erase EraseFacts EmitErase.

(** ** C15 *)

(** The same outcome up to positions.  [erase] (Erase.v) replaces every
    position in an AST by 0 and changes nothing else; the two error tokens are
    the same token at the same index of the two streams. *)
Definition same_outcome (A : nt) (l l' : list item) (r r' : presult (nt_type A)) : Prop :=
  match r, r' with
  | POk v, POk v' => erase A v = erase A v'
  | PErrToken i, PErrToken i' =>
      item_token i = item_token i' /\ exists n, nth_error l n = Some i /\ nth_error l' n = Some i'
  | PErrEof, PErrEof => True
  | PPanic, PPanic => True
  | _, _ => False
  end.

Lemma viable_tokens A u u' : map item_token u = map item_token u' -> viable_prefix A u -> viable_prefix A u'.
Proof.
  intros H (w & v & Hd). destruct (derives_tokens A (u ++ w) (u' ++ w) v) as (v' & Hd' & _).
  - rewrite !map_app, H. reflexivity.
  - exact Hd.
  - exists w, v'. exact Hd'.
Qed.

Theorem C15_positions_do_not_matter : forall A l l' e,
  map item_token l = map item_token l' -> same_outcome A l l' (parse A l e) (parse A l' e).
Proof.
  intros A l l' e H. destruct (parse A l e) as [v|i| | |] eqn:E.
  - apply parse_sound in E. destruct E as [Hd ->]. destruct (derives_tokens A l l' v H Hd) as (v' & Hd' & He).
    rewrite (parse_complete _ _ _ Hd'). cbn. congruence.
  - apply parse_error_token_iff in E. destruct E as (u & r & -> & Hu & Hn).
    destruct (map_app_split _ _ _ _ H) as (u' & m & -> & H1 & H2). destruct m as [|i' r']; [discriminate|].
    cbn [map] in H2. injection H2 as Hi Hr.
    assert (Hs : map item_token (u ++ [i]) = map item_token (u' ++ [i'])) by (rewrite !map_app; cbn; congruence).
    assert (E' : parse A (u' ++ i' :: r') e = PErrToken i').
    { apply parse_error_token_iff. exists u', r'. split; [reflexivity|]. split; [eapply viable_tokens; eassumption|].
      intro Hv. apply Hn. eapply viable_tokens; [symmetry; exact Hs|exact Hv]. }
    rewrite E'. cbn. split; [exact Hi|]. exists (List.length u). split.
    + rewrite nth_error_app2, PeanoNat.Nat.sub_diag by lia. reflexivity.
    + assert (Hlen : List.length u = List.length u') by (apply (f_equal (@List.length _)) in H1; rewrite !map_length in H1; exact H1).
      rewrite Hlen, nth_error_app2, PeanoNat.Nat.sub_diag by lia. reflexivity.
  - apply parse_error_eof_iff in E. destruct E as (-> & Hu & Hn).
    assert (E' : parse A l' LEof = PErrEof).
    { apply parse_error_eof_iff. split; [reflexivity|]. split; [eapply viable_tokens; eassumption|].
      intros v Hd. symmetry in H. destruct (derives_tokens A l' l v H Hd) as (v' & Hd' & _). exact (Hn v' Hd'). }
    rewrite E'. exact I.
  - apply parse_panic_iff in E. destruct E as [He Hu].
    assert (E' : parse A l' e = PPanic).
    { apply parse_panic_iff. split; [exact He|]. eapply viable_tokens; eassumption. }
    rewrite E'. exact I.
  - exfalso. exact (parse_not_internal _ _ _ E).
Qed.

(** What [from_str] returns, errors without their position. *)
Inductive shape := ShOk (c : contract) | ShErrToken (t : token) | ShErrEof | ShErrEmit (m : str) | ShIo | ShPanic | ShBug.
Definition shape_of (r : api contract) : shape :=
  match r with
  | RValue c => ShOk c
  | RError (ParseErrorToken i) => ShErrToken (item_token i)
  | RError ParseErrorEof => ShErrEof
  | RError (ParseErrorEmit m) => ShErrEmit m
  | RError IoError => ShIo
  | RPanic => ShPanic
  | RBug => ShBug
  end.

(** Two texts with the same tokens give the same result. *)
Theorem C15_from_str_depends_on_tokens : forall U debug text text',
  tokens_of U text = tokens_of U text' ->
  shape_of (from_str U debug text) = shape_of (from_str U debug text').
Proof.
  intros U debug text text'. unfold tokens_of, from_str, parse_str.
  destruct (lex U text) as [l e], (lex U text') as [l' e']. intro H. injection H as H <-.
  pose proof (C15_positions_do_not_matter Program l l' e H) as Ho.
  destruct (parse Program l e) as [v|i| | |], (parse Program l' e) as [v'|i'| | |]; try contradiction; try reflexivity.
  - cbn in Ho. change (erase Program) with e_program in Ho. unfold emit_api.
    rewrite <- (emit_erase debug v), <- (emit_erase debug v'), Ho. reflexivity.
  - cbn. destruct Ho as [-> _]. reflexivity.
Qed.

(** Reformatting and re-commenting: all the ways to write a token sequence
    (LexSpec.v) give the same result. *)
Corollary C15_layout_does_not_matter : forall U debug toks text text',
  written U toks text -> written U toks text' ->
  shape_of (from_str U debug text) = shape_of (from_str U debug text').
Proof.
  intros U debug toks text text' H H'. apply C15_from_str_depends_on_tokens.
  rewrite (written_tokens _ _ _ H), (written_tokens _ _ _ H'). reflexivity.
Qed.

(** ** C37 *)
Theorem C37_ok : forall U debug text c,
  from_str U debug text = RValue c <->
  exists items p, lex U text = (items, LEof) /\ derives Program items p /\ emit_program debug p = EOk c.
Proof.
  intros U debug text c. unfold from_str, parse_str, emit_api. destruct (lex U text) as [items e]. split.
  - destruct (parse Program items e) as [p|i| | |] eqn:E; try discriminate. apply parse_sound in E. destruct E as [Hd ->].
    destruct (emit_program debug p) eqn:Ee; try discriminate. intro H. injection H as <-. eauto.
  - intros (items' & p & H & Hd & He). injection H as <- ->. rewrite (parse_complete _ _ _ Hd), He. reflexivity.
Qed.

Theorem C37_error : forall U debug text e,
  from_str U debug text = RError e <->
  exists items end_, lex U text = (items, end_) /\
    ((exists i u r, e = ParseErrorToken i /\ items = u ++ [i] ++ r
        /\ viable_prefix Program u /\ ~ viable_prefix Program (u ++ [i]))
     \/ (e = ParseErrorEof /\ end_ = LEof /\ viable_prefix Program items /\ forall p, ~ derives Program items p)
     \/ (exists p m, e = ParseErrorEmit m /\ end_ = LEof /\ derives Program items p /\ emit_program debug p = EErr m)).
Proof.
  intros U debug text e. unfold from_str, parse_str, emit_api. destruct (lex U text) as [items en]. split.
  - intro H. exists items, en. split; [reflexivity|].
    destruct (parse Program items en) as [p|i| | |] eqn:E; try discriminate.
    + apply parse_sound in E. destruct E as [Hd ->]. destruct (emit_program debug p) eqn:Ee; try discriminate.
      injection H as <-. right. right. eauto 6.
    + apply parse_error_token_iff in E. destruct E as (u & r & -> & H1 & H2). injection H as <-. left. exists i, u, r. auto.
    + apply parse_error_eof_iff in E. destruct E as (-> & H1 & H2). injection H as <-. right. left. auto.
  - intros (items' & en' & H & Hc). injection H as <- <-.
    destruct Hc as [(i & u & r & -> & Hi & H1 & H2)|[(-> & -> & H1 & H2)|(p & m & -> & -> & Hd & He)]].
    + assert (E : parse Program items en = PErrToken i) by (apply parse_error_token_iff; exists u, r; auto).
      rewrite E. reflexivity.
    + assert (E : parse Program items LEof = PErrEof) by (apply parse_error_eof_iff; auto). rewrite E. reflexivity.
    + rewrite (parse_complete _ _ _ Hd), He. reflexivity.
Qed.

Theorem C37_panic : forall U debug text,
  from_str U debug text = RPanic <->
  exists items end_, lex U text = (items, end_) /\
    ((end_ = LPanic /\ viable_prefix Program items)
     \/ (end_ = LEof /\ exists p, derives Program items p /\ emit_program debug p = EPanic)).
Proof.
  intros U debug text. 
  unfold from_str, parse_str, emit_api. destruct (lex U text) as [items en] eqn:El. pose proof (C01_lexer_terminates U text items en El) as Hf. split.
  - intro H. exists items, en. split; [reflexivity|].
    destruct (parse Program items en) as [p|i| | |] eqn:E; try discriminate.
    + apply parse_sound in E. destruct E as [Hd ->]. destruct (emit_program debug p) eqn:Ee; try discriminate. right. eauto.
    + apply parse_panic_iff in E. destruct E as [He Hu]. left. split; [|exact Hu]. destruct Hf as [[Hf|Hf] _]; congruence.
  - intros (items' & en' & H & Hc). injection H as <- <-. destruct Hc as [[-> Hu]|(-> & p & Hd & He)].
    + assert (E : parse Program items LPanic = PPanic) by (apply parse_panic_iff; split; [discriminate|exact Hu]).
      rewrite E. reflexivity.
    + rewrite (parse_complete _ _ _ Hd), He. reflexivity.
Qed.

(** The model's own failure value never occurs: every text has a result. *)
Theorem C37_total : forall U debug text, from_str U debug text <> RBug.
Proof.
  intros U debug text. unfold from_str, parse_str, emit_api. destruct (lex U text) as [items en].
  destruct (parse Program items en) as [p|i| | |] eqn:E; try discriminate.
  - pose proof (emit_no_fuel debug p). destruct (emit_program debug p); congruence.
  - exfalso. exact (parse_not_internal _ _ _ E).
Qed.

(** An accepted text contains no [Unknown] token. *)
Lemma der_kinds :
  (forall a toks v, der_atom a toks v -> Forall (fun i => kind_of (item_token i) <> None) toks) /\
  (forall s toks v, der_sym s toks v -> Forall (fun i => kind_of (item_token i) <> None) toks) /\
  (forall a toks vs, der_list a toks vs -> Forall (fun i => kind_of (item_token i) <> None) toks) /\
  (forall l toks vs, der_rhs l toks vs -> Forall (fun i => kind_of (item_token i) <> None) toks).
Proof.
  set (P := fun toks => Forall (fun i => kind_of (item_token i) <> None) toks).
  apply (der_mutind (fun _ toks _ _ => P toks) (fun _ toks _ _ => P toks) (fun _ toks _ _ => P toks) (fun _ toks _ _ => P toks));
    unfold P; intros; try assumption; try constructor; try (apply Forall_app; auto); try congruence; constructor.
Qed.
Theorem C37_no_unknown : forall U debug text c i,
  from_str U debug text = RValue c -> In i (fst (lex U text)) -> item_token i <> TUnknown.
Proof.
  intros U debug text c i H Hi. apply C37_ok in H. destruct H as (items & p & El & Hd & _). rewrite El in Hi. cbn [fst] in Hi.
  pose proof (proj1 der_kinds (Nt Program) items p Hd) as Hk. rewrite Forall_forall in Hk. intro E.
  apply (Hk i Hi). rewrite E. reflexivity.
Qed.

(** ** The hypotheses are met *)
Definition tiny := lit "scilla_version 0 contract Tiny (o : ByStr20) field f : Map String Int32 = e".
Definition tiny_spaced := lit "scilla_version 0
(* a comment *) contract Tiny(o:ByStr20) field f: Map String(* *)Int32=e (* end *)".
Definition tiny_contract :=
  mkContract (lit "Tiny") [mkField (lit "o") ByStr20] [mkField (lit "f") (TyMap TyString Int32)] [].
Definition no_debug (o : stack_object) : str := lit "?".
Example C15_witness : tiny <> tiny_spaced /\ tokens_of U_none tiny = tokens_of U_none tiny_spaced
  /\ from_str U_none no_debug tiny = RValue tiny_contract /\ from_str U_none no_debug tiny_spaced = RValue tiny_contract.
Proof. split; [discriminate|]. split; [vm_compute; reflexivity|]. split; vm_compute; reflexivity. Qed.
(** different positions, different ASTs, equal after [erase] *)
Example C15_witness_positions : exists p p',
  parse_str U_none Program tiny = POk p /\ parse_str U_none Program tiny_spaced = POk p' /\ p <> p'
  /\ erase Program p = erase Program p'.
Proof.
  eexists. eexists. split; [vm_compute; reflexivity|]. split; [vm_compute; reflexivity|]. split; [discriminate|reflexivity].
Qed.
Example C37_witness_errors :
  (exists i, from_str U_none no_debug (lit "scilla_version 0 contract Tiny () ?") = RError (ParseErrorToken i)
     /\ item_token i = TUnknown)
  /\ from_str U_none no_debug (lit "scilla_version 0 contract") = RError ParseErrorEof
  /\ (exists m, from_str U_none no_debug (lit "scilla_version 0 contract Tiny () field f : Map (ByStr20 with end) Int32 = e")
        = RError (ParseErrorEmit m))
  /\ from_str U_none no_debug (lit "scilla_version 0 contract Tiny (a : 'A)") = RPanic
  /\ from_str U_latin no_debug (lit "scilla_version 0 " ++ [97; 233; 32]) = RPanic.
Proof.
  split; [eexists; split; [vm_compute; reflexivity|reflexivity]|]. split; [vm_compute; reflexivity|].
  split; [eexists; vm_compute; reflexivity|]. split; vm_compute; reflexivity.
Qed.
