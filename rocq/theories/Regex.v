(** A specification of the regular expressions the lexer uses: their syntax,
    their leftmost-first semantics as documented for the [regex] crate, and the
    eight patterns of src/parser/lexer.rs:606-620.  Of the model of
    the lexer only the type of tokens is used. *)
From Verif Require Import Chars Lexer LexSpec.
Local Open Scope nat_scope.

(** ** Expressions *)
Inductive re :=
| REmpty
| RStart                                          (* ^ *)
| RClass (negated : bool) (ranges : list (N * N)) (* c  .  [a-z]  [^a-z] *)
| RSeq (a b : re)
| RAlt (a b : re)                                 (* a|b *)
| RStar (a : re).                                 (* a*, greedy *)
Definition RPlus (a : re) : re := RSeq a (RStar a).   (* a+, greedy *)
Definition ROpt (a : re) : re := RAlt a REmpty.       (* a?, greedy *)
Definition RLit (c : char) : re := RClass false [(c, c)].
Definition RDot : re := RClass true [(10%N, 10%N)].   (* any character but the newline *)
Definition in_class (negated : bool) (ranges : list (N * N)) (c : char) : bool :=
  xorb negated (existsb (fun r => in_range (fst r) (snd r) c) ranges).

(** ** Semantics *)

(** A place in the text: the number of characters before it and those after. *)
Definition place := (nat * str)%type.
(** [q] comes after [p]. *)
Definition later (p q : place) : Prop := List.length (snd q) < List.length (snd p).

(** [ways r p l]: [r] can be matched from [p] on in the ways that end in the
    places [l], the ways a backtracking matcher tries first coming first: the
    left alternative before the right one, one more iteration before none.  For a
    star whose body matches the empty text there is no [l]; the patterns of the
    lexer have none. *)
Inductive ways : re -> place -> list place -> Prop :=
| w_empty : forall p, ways REmpty p [p]
| w_start : forall s, ways RStart (0, s) [(0, s)]
| w_inside : forall i s, i <> 0 -> ways RStart (i, s) []
| w_char : forall n l i c s, in_class n l c = true -> ways (RClass n l) (i, c :: s) [(S i, s)]
| w_other : forall n l i c s, in_class n l c = false -> ways (RClass n l) (i, c :: s) []
| w_end : forall n l i, ways (RClass n l) (i, []) []
| w_seq : forall a b p ps l, ways a p ps -> all_ways b ps l -> ways (RSeq a b) p l
| w_alt : forall a b p l1 l2, ways a p l1 -> ways b p l2 -> ways (RAlt a b) p (l1 ++ l2)
| w_star : forall a p ps l, ways a p ps -> Forall (later p) ps -> all_ways (RStar a) ps l -> ways (RStar a) p (l ++ [p])
with all_ways : re -> list place -> list place -> Prop :=
| aw_nil : forall r, all_ways r [] []
| aw_cons : forall r p ps l1 l2, ways r p l1 -> all_ways r ps l2 -> all_ways r (p :: ps) (l1 ++ l2).

(** [Regex::find]: the match that starts first, and of these the preferred one;
    [Some (before, m)] is the match [m] after the text [before]. *)
Inductive finds (r : re) (s : str) : option (str * str) -> Prop :=
| f_some : forall before m rest l,
    s = before ++ m ++ rest ->
    ways r (List.length before, m ++ rest) ((List.length before + List.length m, rest) :: l) ->
    (forall b t, s = b ++ t -> List.length b < List.length before -> ways r (List.length b, t) []) ->
    finds r s (Some (before, m))
| f_none : (forall b t, s = b ++ t -> ways r (List.length b, t) []) -> finds r s None.

(** ** Syntax *)
(** The characters with a meaning in a pattern. *)
Definition meta : str := lit "\.+*?()|[]{}^$#&-~".

(** Inside square brackets: ranges and characters up to the closing bracket. *)
Fixpoint parse_class (fuel : nat) (s : str) : option (list (N * N) * str) :=
  match fuel with
  | O => None
  | S fuel =>
      match s with
      | c :: r =>
          if (c =? 93)%N then Some ([], r)
          else if (c =? 91)%N || (c =? 92)%N then None
          else
            match r with
            | d :: e :: r' =>
                if (d =? 45)%N && negb (e =? 93)%N
                then match parse_class fuel r' with Some (l, t) => Some ((c, e) :: l, t) | None => None end
                else match parse_class fuel r with Some (l, t) => Some ((c, c) :: l, t) | None => None end
            | _ => match parse_class fuel r with Some (l, t) => Some ((c, c) :: l, t) | None => None end
            end
      | [] => None
      end
  end.
Definition parse_bracket (fuel : nat) (s : str) : option (re * str) :=
  let '(n, s) := match s with c :: r => if (c =? 94)%N then (true, r) else (false, s) | [] => (false, s) end in
  match parse_class fuel s with Some ((_ :: _) as l, t) => Some (RClass n l, t) | _ => None end.
(** A repetition operator after [a]. *)
Definition parse_repeat (a : re) (s : str) : re * str :=
  match s with
  | c :: r => if (c =? 42)%N then (RStar a, r) else if (c =? 43)%N then (RPlus a, r) else if (c =? 63)%N then (ROpt a, r) else (a, s)
  | [] => (a, s)
  end.
Definition and_then (a : re) (b : re) : re := match b with REmpty => a | _ => RSeq a b end.
(** Alternatives, up to a closing parenthesis or the end. *)
Fixpoint parse_alt (fuel : nat) (s : str) : option (re * str) :=
  match fuel with
  | O => None
  | S fuel =>
      match parse_seq fuel s with
      | Some (a, c :: r) => if (c =? 124)%N then match parse_alt fuel r with Some (b, t) => Some (RAlt a b, t) | None => None end
                            else Some (a, c :: r)
      | x => x
      end
  end
with parse_seq (fuel : nat) (s : str) : option (re * str) :=
  match fuel with
  | O => None
  | S fuel =>
      let next (x : option (re * str)) :=
        match x with
        | Some (a, t) => let '(a, t) := parse_repeat a t in
                         match parse_seq fuel t with Some (b, t) => Some (and_then a b, t) | None => None end
        | None => None
        end in
      match s with
      | [] => Some (REmpty, [])
      | c :: r =>
          if (c =? 41)%N || (c =? 124)%N then Some (REmpty, s)
          else if (c =? 40)%N then
            let r := match r with q :: k :: r' => if (q =? 63)%N && (k =? 58)%N then r' else r | _ => r end in
            next match parse_alt fuel r with
                 | Some (a, d :: t) => if (d =? 41)%N then Some (a, t) else None
                 | _ => None
                 end
          else if (c =? 91)%N then next (parse_bracket fuel r)
          else if (c =? 94)%N then next (Some (RStart, r))
          else if (c =? 46)%N then next (Some (RDot, r))
          else if (c =? 92)%N then
            match r with
            | d :: r' => if existsb (N.eqb d) meta then next (Some (RLit d, r')) else None
            | [] => None
            end
          else if existsb (N.eqb c) (lit "*+?{}[]$") then None
          else next (Some (RLit c, r))
      end
  end.
(** [Regex::new]; [None] for patterns outside the syntax above. *)
Definition regex_new (s : str) : option re :=
  match parse_alt (4 * S (List.length s)) s with
  | Some (r, []) => Some r
  | _ => None
  end.

(** ** The patterns *)
(** src/parser/lexer.rs:606 *)
Definition p_bystr_with_size : str := lit "^ByStr[0-9]+".
(** src/parser/lexer.rs:608 *)
Definition p_signed_integer : str := lit "^[+-]?[0-9]+".
(** src/parser/lexer.rs:610 *)
Definition p_hex_number : str := lit "^0(x|X)([a-fA-F0-9][a-fA-F0-9])*".
(** src/parser/lexer.rs:613 *)
Definition p_string_literal : str := lit "^""(?:\\.|[^""])*""".
(** src/parser/lexer.rs:615 *)
Definition p_regular_id : str := lit "^[a-z][a-zA-Z0-9_]*".
(** src/parser/lexer.rs:617 *)
Definition p_template_type_id : str := lit "^['][A-Z][a-zA-Z0-9_]*".
(** src/parser/lexer.rs:619 *)
Definition p_custom_type_id : str := lit "^[A-Z][a-zA-Z0-9_]*".
(** src/parser/lexer.rs:620 *)
Definition p_special_id : str := lit "^[_][a-zA-Z0-9_]*".

(** ** What an expression matches, without preferences *)
(** [matches r p q]: [r] matches the text between the places [p] and [q]. *)
Inductive matches : re -> place -> place -> Prop :=
| m_empty : forall p, matches REmpty p p
| m_start : forall s, matches RStart (0, s) (0, s)
| m_char : forall n l i c s, in_class n l c = true -> matches (RClass n l) (i, c :: s) (S i, s)
| m_seq : forall a b p q q', matches a p q -> matches b q q' -> matches (RSeq a b) p q'
| m_left : forall a b p q, matches a p q -> matches (RAlt a b) p q
| m_right : forall a b p q, matches b p q -> matches (RAlt a b) p q
| m_none : forall a p, matches (RStar a) p p
| m_more : forall a p q q', matches a p q -> matches (RStar a) q q' -> matches (RStar a) p q'.

(** ** The cascade of src/parser/lexer.rs:622-709 *)
(** The patterns in the order they are tried, and the token each makes of its
    match; the prefix test of src/parser/lexer.rs:631 is written as a pattern. *)
Definition cascade : list (str * (str -> token)) :=
  [ (p_bystr_with_size, TByStrWithSize); (lit "^ByStr", fun _ => TByStr); (p_hex_number, THexNumber);
    (p_signed_integer, TNumber); (p_string_literal, TStringLiteral); (p_regular_id, TIdentifier);
    (p_template_type_id, TTemplateIdentifier); (p_custom_type_id, TCustomIdentifier); (p_special_id, TSpecialIdentifier) ].
(** The first pattern of [l] that is found in [s], at its start, gives the token. *)
Inductive first_match (s : str) : list (str * (str -> token)) -> option token -> Prop :=
| fm_none : first_match s [] None
| fm_here : forall p f l r m, regex_new p = Some r -> finds r s (Some ([], m)) -> token_text (f m) = m -> first_match s ((p, f) :: l) (Some (f m))
| fm_next : forall p f l r o, regex_new p = Some r -> finds r s None -> first_match s l o -> first_match s ((p, f) :: l) o.
