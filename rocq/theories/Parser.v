(** Model of the parser that lalrpop generates from src/parser/parser.lalrpop:
    a table driven LALR(1) automaton (tables in Tables.v) with one entry point
    per non terminal (`<Nonterminal>Parser::parse`), reading the lexer lazily,
    one token of look-ahead. *)
From Verif Require Import Chars Lexer Ast Grammar Cfg Tables.

Fixpoint assocN {A} (k : N) (l : list (N * A)) : option A :=
  match l with
  | [] => None
  | (k', v) :: r => if k =? k' then Some v else assocN k r
  end.

Definition eof_code : N := 63.
Definition state_at (s : N) : option state := nth_error states (N.to_nat s).
Definition action_at (s la : N) : option action :=
  match state_at s with Some st => assocN la (st_actions st) | None => None end.
Definition goto_at (s : N) (b : bsym) : option N :=
  match state_at s with Some st => assocN (bsym_code b) (st_gotos st) | None => None end.

(** The stack of the automaton: states entered and the trees (semantic values)
    of the symbols that led to them, most recent first; the start state is kept
    apart. *)
Definition stack := list (N * tree).
Definition top (s0 : N) (st : stack) : N := match st with [] => s0 | (s, _) :: _ => s end.

Definition root (t : tree) : option bsym :=
  match t with
  | Leaf i => option_map BT (kind_of (item_token i))
  | Node b _ _ => Some b
  end.

(** Pops the symbols of a right hand side given in reverse order; [None] when a
    popped symbol is not the expected one (in the generated code:
    [__symbol_type_mismatch], a panic). *)
Fixpoint pop (rev_rhs : list bsym) (st : stack) (acc : list tree) : option (list tree * stack) :=
  match rev_rhs with
  | [] => Some (acc, st)
  | b :: r =>
      match st with
      | (_, t) :: st' =>
          match root t with
          | Some b' => if bsym_eqb b' b then pop r st' (t :: acc) else None
          | None => None
          end
      | [] => None
      end
  end.

Inductive step_out :=
| Cont (st : stack) (inp : list item)
| Done (t : tree)
| ErrTok (i : item)      (* ParseError::UnrecognizedToken *)
| ErrEof                 (* ParseError::UnrecognizedEof *)
| LexPanic               (* the lexer panicked while producing the look-ahead *)
| Internal.              (* the automaton itself would panic; proved unreachable *)

(** One action of the automaton for entry point [A]. *)
Definition lr_act (A : nt) (st : stack) (inp : list item) (la : N) (err : step_out) : step_out :=
  match action_at (top (start_state A) st) la with
  | None => err
  | Some (Shift s) =>
      match inp with
      | i :: r => Cont ((s, Leaf i) :: st) r
      | [] => Internal
      end
  | Some (Reduce b j) =>
      match rhs_of b j with
      | None => Internal
      | Some rhs =>
          match pop (rev rhs) st [] with
          | None => Internal
          | Some (ts, st') =>
              if bsym_eqb b (BS A) then
                match ts, st' with
                | [tr], [] => Done tr
                | _, _ => Internal
                end
              else
                match goto_at (top (start_state A) st') b with
                | Some s => Cont ((s, Node b j ts) :: st') inp
                | None => Internal
                end
          end
      end
  end.

Definition lr_step (A : nt) (e : lex_end) (st : stack) (inp : list item) : step_out :=
  match inp with
  | i :: _ =>
      match kind_of (item_token i) with
      | Some k => lr_act A st inp (tk_code k) (ErrTok i)
      | None => ErrTok i
      end
  | [] =>
      match e with
      | LEof => lr_act A st inp eof_code ErrEof
      | LPanic | LFuel => LexPanic
      end
  end.

Inductive run_out := RDone (t : tree) | RErrTok (i : item) | RErrEof | RLexPanic | RInternal | RFuel.

Fixpoint lr_run (fuel : nat) (A : nt) (e : lex_end) (st : stack) (inp : list item) : run_out :=
  match fuel with
  | O => RFuel
  | S f =>
      match lr_step A e st inp with
      | Cont st' inp' => lr_run f A e st' inp'
      | Done tr => RDone tr
      | ErrTok i => RErrTok i
      | ErrEof => RErrEof
      | LexPanic => RLexPanic
      | Internal => RInternal
      end
  end.

(** Enough fuel for every input ([LrProofs.lr_run_spec0]). *)
Definition max_rank : nat := 20.
Definition lr_fuel (inp : list item) : nat :=
  S ((2 * max_rank + 2) * List.length inp + max_rank).

Inductive presult (V : Type) :=
| POk (v : V)
| PErrToken (i : item)
| PErrEof
| PPanic
| PInternal.
Arguments POk {V} _.
Arguments PErrToken {V} _.
Arguments PErrEof {V}.
Arguments PPanic {V}.
Arguments PInternal {V}.

(** [<A>Parser::new().parse(&mut errors, lexer)] on the token stream [inp]
    ending in [e]. *)
Definition parse (A : nt) (inp : list item) (e : lex_end) : presult (nt_type A) :=
  match lr_run (lr_fuel inp) A e [] inp with
  | RDone tr => match sem tr (BN A) with Some v => POk v | None => PInternal end
  | RErrTok i => PErrToken i
  | RErrEof => PErrEof
  | RLexPanic => PPanic
  | RInternal => PInternal
  | RFuel => PInternal
  end.

(** Lexer and parser together. *)
Definition parse_str (U : unicode) (A : nt) (input : str) : presult (nt_type A) :=
  let '(items, e) := lex U input in parse A items e.
