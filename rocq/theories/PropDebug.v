(** C51: [{:?}] of tokens, types, contracts and of what error messages mention. *)
From Verif Require Import Chars Lexer Types Visitor Emitter Contract EmitErrs DebugText DebugFacts Derive DeriveFacts ErrorText.

Section Debug.
  Context (printable : char -> bool).
  Notation render := (render (debug_str printable)).

  (** The texts are those of [derive(Debug)] for the declared variants and fields. *)
  Theorem C51_derived :
    (forall p, debug_position p = render (see_position p))
    /\ (forall t, debug_token printable t = render (see_token t))
    /\ (forall t, debug_ty printable t = render (see_type t))
    /\ (forall f, debug_field printable f = render (see_field f))
    /\ (forall t, debug_transition printable t = render (see_transition t))
    /\ (forall c, debug_contract printable c = render (see_contract c))
    /\ (forall o, debug_object printable o = render (see_object o))
    /\ (forall i, debug_item printable i = render (see_item i)).
  Proof.
    repeat split; intros; [apply position_render|apply token_render|apply type_render|apply field_render|apply transition_render
      |apply contract_render|apply object_render|apply item_render].
  Qed.

  (** A text is shown as a Rust string literal for it. *)
  Theorem C51_text_is_quoted : forall s,
    exists body, debug_str printable s = lit """" ++ body ++ lit """" /\ quoted body s.
  Proof. exact (quoted_debug printable). Qed.

  (** Different values are shown differently. *)
  Theorem C51_shows_everything :
    (forall t t', debug_ty printable t = debug_ty printable t' -> t = t')
    /\ (forall f f', debug_field printable f = debug_field printable f' -> f = f')
    /\ (forall t t', debug_transition printable t = debug_transition printable t' -> t = t')
    /\ (forall c c', debug_contract printable c = debug_contract printable c' -> c = c')
    /\ (forall o o', debug_object printable o = debug_object printable o' -> o = o')
    /\ (forall i i', debug_item printable i = debug_item printable i' -> i = i').
  Proof.
    repeat split; intros x y E; [| | | | |apply (item_code printable x y [] []); rewrite !app_nil_r; exact E].
    - rewrite !type_render in E. apply see_type_inj, (shown_inj printable _ _ (good_type x) (good_type y) E).
    - rewrite !field_render in E. apply see_field_inj, (shown_inj printable _ _ (good_field_value x) (good_field_value y) E).
    - rewrite !transition_render in E. apply see_transition_inj, (shown_inj printable _ _ (good_transition x) (good_transition y) E).
    - rewrite !contract_render in E. apply see_contract_inj, (shown_inj printable _ _ (good_contract x) (good_contract y) E).
    - rewrite !object_render in E. apply see_object_inj, (shown_inj printable _ _ (good_object x) (good_object y) E).
  Qed.

  (** The message of an emitter failure tells what was expected and what was
      found instead. *)
  Definition found (o : option stack_object) : str :=
    match o with None => lit "nothing" | Some o => debug_object printable o end.
  Theorem C51_emit_message_decoded : forall a b o o',
    In a [lit "symbol name"; lit "variable declaration"; lit "type definition"] ->
    In b [lit "symbol name"; lit "variable declaration"; lit "type definition"] ->
    lit "Expected " ++ a ++ lit ", but found " ++ found o ++ lit "."
      = lit "Expected " ++ b ++ lit ", but found " ++ found o' ++ lit "." ->
    a = b /\ o = o'.
  Proof.
    intros a b o o' Ha Hb E. apply app_inv_head in E.
    assert (Hab : a = b).
    { cbn in Ha, Hb. repeat match goal with H : _ \/ _ |- _ => destruct H as [<- | H] | H : False |- _ => destruct H end;
        try reflexivity; discriminate E. }
    split; [exact Hab|]. subst b. apply app_inv_head in E. apply app_inv_head in E. apply app_inv_tail in E.
    destruct o as [o|], o' as [o'|]; cbn [found] in E.
    - f_equal. apply C51_shows_everything, E.
    - destruct o; discriminate E.
    - destruct o'; discriminate E.
    - reflexivity.
  Qed.
End Debug.

(** [ParserError] *)
Theorem C51_parser_error : forall m l c,
  parser_error_display (mkParserError m l c) = m ++ lit " (line " ++ dec l ++ lit ", column " ++ dec c ++ lit ")".
Proof. reflexivity. Qed.

Example C51_witness : debug_contract all_printable
    (mkContract (lit "C") [mkField (lit "a") (ByStr20With (lit "contract") [mkField (lit "b") Int32])] []
       [mkTransition (lit "T") []])
  = lit "Contract { name: ""C"", init_params: FieldList([Field { name: ""a"", type: ByStr20With { type_name: ""contract"", fields: FieldList([Field { name: ""b"", type: Int32 }]) } }]), fields: FieldList([]), transitions: TransitionList([Transition { name: ""T"", params: FieldList([]) }]) }".
Proof. vm_compute. reflexivity. Qed.
Example C51_witness_display_differs : ty_display Int32 = ty_display (Other (lit "Int32"))
  /\ debug_ty all_printable Int32 <> debug_ty all_printable (Other (lit "Int32")).
Proof. split; [reflexivity|vm_compute; discriminate]. Qed.
