(** Model of the error values and texts of src/error.rs, including what lalrpop
    puts into a [ParseError] (lalrpop-util 0.20 [state_machine.rs] and the
    generated [__accepts]/[__expected_tokens_from_states]). *)
From Verif Require Import Chars Lexer Ast Grammar Cfg Tables Parser Types Visitor Emitter Contract DebugText.

(** The states on the automaton's stack when it reports an error (after the
    reductions made with the offending token as look-ahead); [None] if it does
    not. *)
Fixpoint stop_states (fuel : nat) (A : nt) (e : lex_end) (st : stack) (inp : list item)
    : option (list N) :=
  match fuel with
  | O => None
  | S f =>
      match lr_step A e st inp with
      | Cont st' inp' => stop_states f A e st' inp'
      | ErrTok _ | ErrEof => Some (map fst st)
      | _ => None
      end
  end.

(** The generated [__accepts]: would the token [la] be shifted in these states?
    Only states are simulated.  [None]: out of fuel (proved unreachable). *)
Fixpoint accepts (fuel : nat) (s0 : N) (sts : list N) (la : N) : option bool :=
  match fuel with
  | O => None
  | S f =>
      match action_at (hd s0 sts) la with
      | None => Some false
      | Some (Shift _) => Some true
      | Some (Reduce b j) =>
          match rhs_of b j with
          | None => None
          | Some rhs =>
              let sts' := skipn (List.length rhs) sts in
              match b with
              | BS _ => Some true (* [SimulatedReduce::Accept] *)
              | _ =>
                  match goto_at (hd s0 sts') b with
                  | Some s => accepts f s0 (s :: sts') la
                  | None => None
                  end
              end
          end
      end
  end.

(** Enough fuel for [n] states on the stack. *)
Definition accepts_fuel (n : nat) : nat := S ((max_rank + 1) * n + 3 * max_rank + 2).

(** [expected: Vec<String>] of the error, as terminals.  Simplification: listed
    in the order of the [extern] block of parser.lalrpop (11-75); lalrpop's own
    order is not modelled (no theorem depends on it). *)
Definition expected (A : nt) (inp : list item) (e : lex_end) : list tk :=
  match stop_states (lr_fuel inp) A e [] inp with
  | None => []
  | Some sts =>
      filter (fun k => match accepts (accepts_fuel (List.length sts)) (start_state A) sts (tk_code k) with
                       | Some b => b
                       | None => false
                       end) all_tks
  end.

(** [StateMachine::last_location]: the end of the last token read, initially
    [SourcePosition::default()]. *)
Definition last_location (inp : list item) : source_position :=
  last (map item_end inp) start_position.

Section Text.
  Context (printable : char -> bool).
  (** How the list of expected terminals is printed ([{:?}] of a [Vec<String>]
      of terminal names chosen by lalrpop): an oracle. *)
  Context (show_expected : list tk -> str).

  (** [format!("{:?}", value)] of a lalrpop [ParseError] (error.rs:22-31) *)
  Definition token_error_text (i : item) (ks : list tk) : str :=
    lit "UnrecognizedToken { token: " ++ debug_item printable i
    ++ lit ", expected: " ++ show_expected ks ++ lit " }".
  Definition eof_error_text (p : source_position) (ks : list tk) : str :=
    lit "UnrecognizedEof { location: " ++ debug_position p
    ++ lit ", expected: " ++ show_expected ks ++ lit " }".

  (** error.rs:8-10, 33-41 (contract.rs): [Display] of the [Error] returned by
      [text.parse::<Contract>()]; [None] when it does not return an error. *)
  Definition error_message (U : unicode) (text : str) : option str :=
    let '(items, e) := lex U text in
    match from_str U (debug_object printable) text with
    | RError (ParseErrorToken i) =>
        Some (lit "Failed to parse the contract. " ++ token_error_text i (expected Program items e))
    | RError ParseErrorEof =>
        Some (lit "Failed to parse the contract. "
              ++ eof_error_text (last_location items) (expected Program items e))
    | RError (ParseErrorEmit m) => Some (lit "Failed to parse the contract. " ++ m)
    | _ => None
    end.
End Text.

(** src/parser/mod.rs:6-27 [ParserError] and its [Display] *)
Record parser_error := mkParserError { pe_message : str; pe_line : N; pe_column : N }.
Definition parser_error_display (e : parser_error) : str :=
  pe_message e ++ lit " (line " ++ dec (pe_line e) ++ lit ", column " ++ dec (pe_column e) ++ lit ")".

Definition some_tokens (U : unicode) (A : nt) (text : str) : list tk :=
  let '(items, e) := lex U text in expected A items e.
Example expected_start : some_tokens U_none Program (lit "contract X ()") = [KScillaVersion].
Proof. vm_compute. reflexivity. Qed.
Example expected_type : some_tokens U_none Program (lit "scilla_version 0 contract X (a : )") <> [].
Proof. vm_compute. discriminate. Qed.
