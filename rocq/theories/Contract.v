(** Model of src/contract.rs (functions), src/error.rs and src/parser/mod.rs:
    the public entry points of the crate. *)
From Verif Require Import Chars Lexer Ast Grammar Cfg Tables Parser Types Visitor Emitter.

(** src/error.rs:7-20.  Simplification: instead of the [{:?}] text of a lalrpop
    [ParseError] (error.rs:22-31) the error keeps what that text is made of: the
    offending token with its span, or "end of input".  [AstVisitError] and
    [FromUtf8Error] are never constructed in the crate. *)
Inductive error :=
| ParseErrorToken (i : item)
| ParseErrorEof
| ParseErrorEmit (msg : str)
| IoError.

(** What calling a function of the API results in.  [RBug] marks states the
    model's own bookkeeping (fuel, table lookups) could reach; it is proved
    unreachable. *)
Inductive api (A : Type) := RValue (a : A) | RError (e : error) | RPanic | RBug.
Arguments RValue {A} _.
Arguments RError {A} _.
Arguments RPanic {A}.
Arguments RBug {A}.

(** contract.rs:52-53: [SrEmitter::emit] and [map_err(Error::ParseError)] *)
Definition emit_api (debug : stack_object -> str) (p : NodeProgram) : api contract :=
  match emit_program debug p with
  | EOk c => RValue c
  | EErr m => RError (ParseErrorEmit m)
  | EPanic => RPanic
  | EFuel => RBug
  end.

(** contract.rs:48-54 [impl FromStr for Contract] *)
Definition from_str (U : unicode) (debug : stack_object -> str) (text : str) : api contract :=
  match parse_str U Program text with
  | POk p => emit_api debug p
  | PErrToken i => RError (ParseErrorToken i)
  | PErrEof => RError ParseErrorEof
  | PPanic => RPanic
  | PInternal => RBug
  end.

(** Strict UTF-8 decoding, as done by [std::fs::read_to_string]
    (no overlong forms, no surrogates, at most U+10FFFF). *)
Definition is_cont (b : N) : bool := in_range 128 191 b.
Fixpoint utf8_decode (bs : list N) : option str :=
  match bs with
  | [] => Some []
  | b :: r =>
      if b <? 128 then
        match utf8_decode r with Some s => Some (b :: s) | None => None end
      else if in_range 194 223 b then
        match r with
        | b1 :: r1 =>
            if is_cont b1 then
              match utf8_decode r1 with
              | Some s => Some ((b - 192) * 64 + (b1 - 128) :: s)
              | None => None
              end
            else None
        | _ => None
        end
      else if in_range 224 239 b then
        match r with
        | b1 :: b2 :: r2 =>
            if is_cont b1 && is_cont b2
               && (if b =? 224 then 160 <=? b1 else true)
               && (if b =? 237 then b1 <=? 159 else true) then
              match utf8_decode r2 with
              | Some s => Some ((b - 224) * 4096 + (b1 - 128) * 64 + (b2 - 128) :: s)
              | None => None
              end
            else None
        | _ => None
        end
      else if in_range 240 244 b then
        match r with
        | b1 :: b2 :: b3 :: r3 =>
            if is_cont b1 && is_cont b2 && is_cont b3
               && (if b =? 240 then 144 <=? b1 else true)
               && (if b =? 244 then b1 <=? 143 else true) then
              match utf8_decode r3 with
              | Some s => Some ((b - 240) * 262144 + (b1 - 128) * 4096 + (b2 - 128) * 64 + (b3 - 128) :: s)
              | None => None
              end
            else None
        | _ => None
        end
      else None
  end.

(** A file system as seen by one [Contract::parse] call: the bytes of the file
    at a path, or [None] for any I/O error. *)
Definition file_system := str -> option (list N).

(** contract.rs:81-83 [Contract::parse]: [read_to_string(path)?.parse()] *)
Definition contract_parse (U : unicode) (debug : stack_object -> str) (fs : file_system)
    (path : str) : api contract :=
  match fs path with
  | None => RError IoError
  | Some bytes =>
      match utf8_decode bytes with
      | None => RError IoError
      | Some text => from_str U debug text
      end
  end.
