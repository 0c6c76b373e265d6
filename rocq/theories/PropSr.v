(** C48: the emitter of the simplified representation, used as a visitor on any
    node: what it passes over and what it refuses. *)
From Verif Require Import Chars Lexer Ast Types Visitor Emitter Grammar Parser Contract PropLexer.
Local Open Scope nat_scope.

(** Passed over: expressions, statements, patterns, literals, variables, bodies,
    procedures, constructors of a type definition. *)
Inductive passed_over : anynode -> Prop :=
| po_expression e : passed_over (AFullExpression e)
| po_literal x : passed_over (AValueLiteral x)
| po_pattern p : passed_over (APattern p)
| po_statement st : passed_over (AStatement st)
| po_variable v : passed_over (AVariableIdentifier v)
| po_body b : passed_over (AComponentBody b)
| po_block b : passed_over (AStatementBlock b)
| po_procedure p : passed_over (AProcedureDefinition p)
| po_procedure_component p : passed_over (AComponentDefinition (ProcedureComponent p))
| po_constraint w : passed_over (AWithConstraint w)
| po_alternative c : passed_over (ATypeAlternativeClause c).

Theorem C48_passes_over debug n fuel s : passed_over n ->
  visit (sr_emitter debug) (3 + fuel) n s = Ret (Ok Continue) s.
Proof.
  intros H. destruct H; try (cbn; reflexivity); try (destruct b; reflexivity).
  - destruct b as [l].
    assert (G : forall s, ((fix go (l : list NodeStatement) : M sr_state unit :=
       match l with [] => ret tt | st :: r => visit (sr_emitter debug) (2 + fuel) (AStatement st) ;;; go r end) l) s = Ret (Ok tt) s).
    { induction l as [|st l IH]; intro s0; [reflexivity|]. apply IH. }
    change (3 + fuel) with (S (2 + fuel)). cbn [visit visit_node standard children sr_emitter emit sr_emit].
    unfold standard, bind, bind_res, ret, kcont in *. now rewrite G.
  - destruct w as [e]. reflexivity.
Qed.

(** Refused: imports, libraries, and the parts of expressions and statements. *)
Inductive refused : anynode -> Prop :=
| rf_import n : refused (AImportedName n)
| rf_imports n : refused (AImportDeclarations n)
| rf_library n : refused (ALibraryDefinition n)
| rf_library_entry n : refused (ALibrarySingleDefinition n)
| rf_builtin n : refused (ABuiltinArguments n)
| rf_message n : refused (AMessageEntry n)
| rf_match_expression n : refused (APatternMatchExpressionClause n)
| rf_atomic n : refused (AAtomicExpression n)
| rf_type_arguments n : refused (AContractTypeArguments n)
| rf_access n : refused (AMapAccess n)
| rf_argument_pattern n : refused (AArgumentPattern n)
| rf_match_statement n : refused (APatternMatchClause n)
| rf_fetch_arguments n : refused (ABlockchainFetchArguments n)
| rf_remote_fetch n : refused (ARemoteFetchStatement n).

Theorem C48_refuses debug n fuel s : refused n -> visit (sr_emitter debug) (S fuel) n s = Panic.
Proof. intro H. destruct H; reflexivity. Qed.

(** A type name: the callback pushes the name when it is entered (nothing for
    [Event], nothing on leaving) and asks for the children; visiting it does the
    same and continues. *)
Definition pushed (n : NodeTypeNameIdentifier) (s : sr_state) : sr_state :=
  match n with
  | EventType => s
  | _ => mkst (IrIdentifier (mkId (type_name_identifier_display n) KUnknown) :: es_stack s) (es_contract s)
  end.
Theorem C48_type_name debug n fuel s :
  sr_emit debug (visit (sr_emitter debug) fuel) Enter (ATypeNameIdentifier n) s = Ret (Ok Continue) (pushed n s)
  /\ sr_emit debug (visit (sr_emitter debug) fuel) Exit (ATypeNameIdentifier n) s = Ret (Ok Continue) s
  /\ visit (sr_emitter debug) (2 + fuel) (ATypeNameIdentifier n) s = Ret (Ok Continue) (pushed n s).
Proof. destruct n as [b| |x], s; repeat split. Qed.

(** Visiting a whole program instead of calling [emit]: the same as [emit] if
    there are no imports and no library, a panic otherwise. *)
Definition visited_program debug (p : NodeProgram) : emit_out :=
  match visit (sr_emitter debug) (S (let '(mkProgram _ _ _ c) := p in depth_contract (node c))) (AProgram p) sr_default with
  | Ret (Ok _) s => EOk (es_contract s)
  | Ret (Err m) _ => EErr m
  | Panic => EPanic
  | Fuel => EFuel
  end.

Theorem C48_program_without_imports debug v c : visited_program debug (mkProgram v None None c) = emit_program debug (mkProgram v None None c).
Proof.
  unfold visited_program, emit_program. cbn [visit visit_node children]. unfold standard, kid_of, kcont, bind, bind_res, ret.
  cbn [emit sr_emitter sr_emit]. unfold ret. cbn beta iota.
  destruct (visit_wm _ _ _ c sr_default) as [[[|]|m] s| |]; reflexivity.
Qed.

Theorem C48_program_with_imports debug v imp lib c : imp <> None \/ lib <> None ->
  visited_program debug (mkProgram v imp lib c) = EPanic.
Proof.
  intro H. unfold visited_program.
  assert (Hd : exists d, depth_contract (node c) = S d) by (destruct (node c); cbn [depth_contract]; eexists; reflexivity).
  destruct Hd as [d ->]. destruct imp as [i|]; [reflexivity|]. destruct lib as [l|]; [reflexivity|]. destruct H; congruence.
Qed.

(** Examples: a program with and one without an import. *)
Definition with_import : str := lit "scilla_version 0 import ListUtils contract C (x : Uint32) field f : Bool = True transition T (a : String) end".
Definition without_import : str := lit "scilla_version 0 contract C (x : Uint32) field f : Bool = True transition T (a : String) end".
Definition api_program (text : str) : option NodeProgram :=
  match parse_str U_none Program text with POk p => Some p | _ => None end.
Definition visited_text (text : str) : option emit_out := option_map (visited_program (fun _ => [])) (api_program text).
Example C48_witness : visited_text with_import = Some EPanic
  /\ visited_text without_import
     = Some (EOk (mkContract (lit "C") [mkField (lit "x") Uint32] [mkField (lit "f") TyBool] [mkTransition (lit "T") [mkField (lit "a") TyString]])).
Proof. split; vm_compute; reflexivity. Qed.
