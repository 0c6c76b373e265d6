(** Model of [{:#?}]: [core::fmt::builders] with the alternate flag set, over the
    values that [derive(Debug)] sees (Derive.v; /repo/src/contract.rs:9,
    src/field.rs:3, 33, src/transition.rs:3, 26, src/type.rs:6,
    src/parser/lexer.rs:37, 212, src/ast/nodes.rs). *)
From Verif Require Import Chars Lexer Types Derive.

(** [PadAdapter::write_str]: four spaces before the first character of every
    line; [fresh]: the next character starts a line.  Each field and each element
    has an adapter of its own, which starts on a fresh line. *)
Fixpoint pad (fresh : bool) (s : str) : str :=
  match s with
  | [] => []
  | c :: r => (if fresh then lit "    " else []) ++ c :: pad (c =? 10) r
  end.
Definition newline : str := [10].

Section Pretty.
  Context (quote : str -> str).
  (** [DebugStruct], [DebugTuple], [DebugList]: an opening bracket and a newline
      before the first part, then each part through an adapter with [,] and a
      newline after it, then the closing bracket.  [impl Debug for str] and
      [usize] do not look at the flag.  Simplification: a tuple or struct without
      fields does not occur (derive prints its name: [DUnit]). *)
  Fixpoint pretty (v : dval) : str :=
    match v with
    | DUnit n => n
    | DTuple n l => n ++ lit "(" ++ newline ++ flat_map (fun x => pad true (pretty x ++ lit "," ++ newline)) l ++ lit ")"
    | DStruct n l => n ++ lit " {" ++ newline
        ++ flat_map (fun f => pad true (fst f ++ lit ": " ++ pretty (snd f) ++ lit "," ++ newline)) l ++ lit "}"
    | DStr s => quote s
    | DNum n => dec n
    | DList [] => lit "[]"
    | DList l => lit "[" ++ newline ++ flat_map (fun x => pad true (pretty x ++ lit "," ++ newline)) l ++ lit "]"
    | DTup l => lit "(" ++ newline ++ flat_map (fun x => pad true (pretty x ++ lit "," ++ newline)) l ++ lit ")"
    end.
End Pretty.
