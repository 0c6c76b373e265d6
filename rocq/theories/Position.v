(** The rest of [SourcePosition] (src/parser/lexer.rs:212-243). *)
From Verif Require Import Chars Lexer.

(** [usize::MAX] on a 64 bit machine. *)
Definition usize_max : N := 2 ^ 64 - 1.
(** src/parser/lexer.rs:220-222 [is_valid] *)
Definition is_valid (p : source_position) : bool := position p <? usize_max / 2.
(** src/parser/lexer.rs:230-236 [invalid_position] *)
Definition invalid_position : source_position := mkpos usize_max usize_max usize_max.
(** src/parser/lexer.rs:212 [derive(PartialEq, Eq)] *)
Definition pos_eqb (a b : source_position) : bool :=
  (position a =? position b) && (line a =? line b) && (column a =? column b).
(** src/parser/lexer.rs:212 [derive(PartialOrd)]: the fields are compared in the
    order of their declaration; [partial_cmp] of [usize] is always [Some]. *)
Definition pos_cmp (a b : source_position) : comparison :=
  match position a ?= position b with
  | Eq => match line a ?= line b with
          | Eq => column a ?= column b
          | r => r
          end
  | r => r
  end.
