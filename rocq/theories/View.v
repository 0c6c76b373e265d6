(** How the derived implementations of [Debug], [PartialEq], [Eq] and
    [PartialOrd] see a value: as a variant of its type, with its position in the
    declaration, its name, the names of its fields if it has them, and its
    fields.  A struct is its only variant. *)
From Verif Require Import Chars Lexer Types Derive.

Inductive view :=
| VNum (n : N)                                       (* [usize] *)
| VText (s : str)                                    (* [String] *)
| VSeq (l : list view)                               (* [Vec<_>] *)
| VCon (i : nat) (name : str) (labels : list str) (fields : list view).

(** What [derive(Debug)] prints (Derive.v says how). *)
Fixpoint shown (v : view) : dval :=
  match v with
  | VNum n => DNum n
  | VText s => DStr s
  | VSeq l => DList (map shown l)
  | VCon _ name [] [] => DUnit name
  | VCon _ name [] fs => DTuple name (map shown fs)
  | VCon _ name ls fs => DStruct name (combine ls (map shown fs))
  end.

(** What the derived comparisons look at: everything but the names. *)
Inductive tree := TNum (n : N) | TText (s : str) | TSeq (l : list tree) | TCon (i : nat) (l : list tree).
Fixpoint bare (v : view) : tree :=
  match v with
  | VNum n => TNum n
  | VText s => TText s
  | VSeq l => TSeq (map bare l)
  | VCon i _ _ l => TCon i (map bare l)
  end.

(** [derive(PartialEq)]: the same variant and equal fields. *)
Fixpoint teq (a b : tree) {struct a} : bool :=
  let teqs := fix teqs (l m : list tree) {struct l} : bool :=
    match l, m with
    | [], [] => true
    | x :: l, y :: m => teq x y && teqs l m
    | _, _ => false
    end in
  match a, b with
  | TNum x, TNum y => x =? y
  | TText s, TText t => str_eqb s t
  | TSeq l, TSeq m => teqs l m
  | TCon i l, TCon j m => Nat.eqb i j && teqs l m
  | _, _ => false
  end.

(** [derive(PartialOrd)]: the earlier variant is less; within a variant the first
    field that differs decides; [Vec] and [String] are compared element by
    element, a proper beginning is less.  [partial_cmp] is [Some] of the result.
    Simplification: Rust compares the UTF-8 bytes of strings; CompareFacts.v proves that
    this is the order of the characters. *)
Fixpoint str_cmp (s t : str) : comparison :=
  match s, t with
  | [], [] => Eq
  | [], _ :: _ => Lt
  | _ :: _, [] => Gt
  | x :: s, y :: t => match x ?= y with Eq => str_cmp s t | r => r end
  end.
Fixpoint tcmp (a b : tree) {struct a} : comparison :=
  let tcmps := fix tcmps (l m : list tree) {struct l} : comparison :=
    match l, m with
    | [], [] => Eq
    | [], _ :: _ => Lt
    | _ :: _, [] => Gt
    | x :: l, y :: m => match tcmp x y with Eq => tcmps l m | r => r end
    end in
  match a, b with
  | TNum x, TNum y => x ?= y
  | TText s, TText t => str_cmp s t
  | TSeq l, TSeq m => tcmps l m
  | TCon i l, TCon j m => match Nat.compare i j with Eq => tcmps l m | r => r end
  (* never reached: the two values have the same type *)
  | TNum _, _ => Lt | _, TNum _ => Gt | TText _, _ => Lt | _, TText _ => Gt | TSeq _, _ => Lt | _, TSeq _ => Gt
  end.

(** ** The standard library's types *)
Definition view_list {A} (f : A -> view) (l : list A) : view := VSeq (map f l).
Definition view_opt {A} (f : A -> view) (o : option A) : view :=
  match o with None => VCon 0 (lit "None") [] [] | Some a => VCon 1 (lit "Some") [] [f a] end.
(** src/parser/lexer.rs:212-217 *)
Definition view_pos (p : source_position) : view :=
  VCon 0 (lit "SourcePosition") [lit "position"; lit "line"; lit "column"] [VNum (position p); VNum (line p); VNum (column p)].
