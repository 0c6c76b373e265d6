(** Model of src/parser/lexer.rs. *)
From Verif Require Import Chars.

(** src/parser/lexer.rs:37-104 [enum Token<S>] with [S = &str]. *)
Inductive token :=
| TPlus | TAsterisk | TSemicolon | TColon | TDot | TPipe
| TOpenBracket | TCloseBracket | TOpenParen | TCloseParen | TOpenBrace | TCloseBrace
| TComma | TDoubleArrow | TArrow | TEquals | TAmpersand | TLeftArrow | TColonEquals
| TAt | TMinus | TUnderscore
| TForall | TBuiltin | TLibrary | TImport | TLet | TIn | TMatch | TWith | TEnd
| TFun | TTfun | TContract | TTransition | TSend | TField | TAccept | TExists
| TDelete | TThrow | TMap | TScillaVersion | TType | TOf | TAs | TProcedure | TEmp
| TEvent | TEventType | TByStr
| TByStrWithSize (s : str) | TComment (s : str) | TNumber (s : str) | THexNumber (s : str)
| TIdentifier (s : str) | TTemplateIdentifier (s : str) | TCustomIdentifier (s : str)
| TSpecialIdentifier (s : str) | TTypeName (s : str) | TStringLiteral (s : str)
| TWhitespace | TUnknown.

(** src/parser/lexer.rs:7-35, the KEYWORD_* constants, in the order of the
    [match keyword_token] at lines 402-603 (KEYWORD_BYSTR is not matched
    there). *)
Definition keywords : list (str * token) :=
  [ (lit "forall", TForall); (lit "builtin", TBuiltin); (lit "library", TLibrary);
    (lit "import", TImport); (lit "let", TLet); (lit "in", TIn);
    (lit "match", TMatch); (lit "with", TWith); (lit "end", TEnd);
    (lit "fun", TFun); (lit "tfun", TTfun); (lit "contract", TContract);
    (lit "transition", TTransition); (lit "send", TSend); (lit "field", TField);
    (lit "accept", TAccept); (lit "exists", TExists); (lit "delete", TDelete);
    (lit "throw", TThrow); (lit "Map", TMap); (lit "scilla_version", TScillaVersion);
    (lit "type", TType); (lit "of", TOf); (lit "as", TAs);
    (lit "procedure", TProcedure); (lit "Emp", TEmp); (lit "event", TEvent);
    (lit "Event", TEventType) ].

Definition kw_bystr : str := lit "ByStr".

(** src/parser/lexer.rs:106-178 [impl From<Token<S>> for String]. *)
Definition token_text (t : token) : str :=
  match t with
  | TByStrWithSize s | TComment s | TNumber s | THexNumber s | TIdentifier s
  | TTemplateIdentifier s | TCustomIdentifier s | TSpecialIdentifier s
  | TTypeName s | TStringLiteral s => s
  | TPlus => lit "+" | TAsterisk => lit "*" | TSemicolon => lit ";"
  | TColon => lit ":" | TDot => lit "." | TPipe => lit "|"
  | TOpenBracket => lit "[" | TCloseBracket => lit "]"
  | TOpenParen => lit "(" | TCloseParen => lit ")"
  | TOpenBrace => lit "{" | TCloseBrace => lit "}"
  | TComma => lit "," | TDoubleArrow => lit "=>" | TArrow => lit "->"
  | TEquals => lit "=" | TAmpersand => lit "&" | TLeftArrow => lit "<-"
  | TColonEquals => lit ":=" | TAt => lit "@" | TMinus => lit "-"
  | TUnderscore => lit "_" | TForall => lit "forall" | TBuiltin => lit "builtin"
  | TLibrary => lit "library" | TImport => lit "import" | TLet => lit "let"
  | TIn => lit "in" | TMatch => lit "match" | TWith => lit "with" | TEnd => lit "end"
  | TFun => lit "fun" | TTfun => lit "tfun" | TContract => lit "contract"
  | TTransition => lit "transition" | TSend => lit "send" | TField => lit "field"
  | TAccept => lit "accept" | TExists => lit "exists" | TDelete => lit "delete"
  | TThrow => lit "throw" | TMap => lit "Map" | TScillaVersion => lit "scilla_version"
  | TType => lit "type" | TOf => lit "of" | TAs => lit "as"
  | TProcedure => lit "procedure" | TEmp => lit "Emp" | TEvent => lit "event"
  | TEventType => lit "Event" | TByStr => lit "ByStr"
  | TWhitespace => lit " " | TUnknown => lit "?"
  end.

(** src/parser/lexer.rs:212-217 [struct SourcePosition].  Simplification:
    [usize] is unbounded (a Rust string is shorter than 2^63 bytes). *)
Record source_position := mkpos { position : N; line : N; column : N }.

(** src/parser/lexer.rs:223-229 *)
Definition start_position : source_position := mkpos 0 0 0.

(** src/parser/lexer.rs:237-242 [with_end].  The subtraction panics on
    underflow in Rust (debug); [None] is that panic. *)
Definition with_end (p : source_position) (new_position : N) : option source_position :=
  if new_position <? position p then None
  else Some (mkpos new_position (line p) (column p + (new_position - position p))).

(** src/parser/lexer.rs:185-198 [struct Lexer].  [lx_chars]/[lx_pos] model the
    [Peekable<CharIndices>]: the characters not yet consumed and the byte index
    of the first of them.  Simplification: [document] is not stored; the only
    use of it, [&self.document[start..]], is by construction the current
    character followed by [lx_chars]. *)
Record lexer := mklx {
  lx_chars : str; lx_pos : N; lx_line : N; lx_character : N; lx_last : N }.

(** src/parser/lexer.rs:200-210 [Lexer::new] *)
Definition lexer_new (input : str) : lexer := mklx input 0 0 0 0.

(** [self.chars.next()], value ignored. *)
Definition chars_next (l : lexer) : lexer :=
  match lx_chars l with
  | [] => l
  | c :: r => mklx r (lx_pos l + len_utf8 c) (lx_line l) (lx_character l) (lx_last l)
  end.

(** [n] times [self.chars.next()]. *)
Fixpoint chars_advance (n : nat) (l : lexer) : lexer :=
  match n with
  | O => l
  | S m => chars_advance m (chars_next l)
  end.

(** [self.chars.nth(k)], value ignored: consumes [k + 1] characters. *)
Definition chars_nth (k : nat) (l : lexer) : lexer := chars_advance (S k) l.

(** src/parser/lexer.rs:312-323, the loop that consumes a comment body. *)
Fixpoint skip_comment (s : str) (pos : N) : str * N :=
  match s with
  | [] => ([], pos)
  | c :: r =>
      let pos' := pos + len_utf8 c in
      match r with
      | d :: r' => if (c =? 42) && (d =? 41) then (r', pos' + len_utf8 d)
                   else skip_comment r pos'
      | [] => skip_comment r pos'
      end
  end.

(** ** The regular expressions of lines 606-620; each returns the matched
    prefix of its argument, [None] when there is no match. *)

(** [^ByStr[0-9]+] line 606 *)
Definition re_bystr_with_size (s : str) : option str :=
  if starts_with kw_bystr s then
    match take_while is_digit (skipn 5 s) with
    | [] => None
    | ds => Some (kw_bystr ++ ds)
    end
  else None.

(** [^[+-]?[0-9]+] line 608 *)
Definition re_signed_integer (s : str) : option str :=
  match s with
  | [] => None
  | c :: r =>
      if (c =? 43) || (c =? 45) then
        match take_while is_digit r with [] => None | ds => Some (c :: ds) end
      else match take_while is_digit s with [] => None | ds => Some ds end
  end.

(** [([a-fA-F0-9][a-fA-F0-9])*] *)
Fixpoint hex_pairs (s : str) : str :=
  match s with
  | a :: s' =>
      match s' with
      | b :: r => if is_hex a && is_hex b then a :: b :: hex_pairs r else []
      | [] => []
      end
  | [] => []
  end.

(** [^0(x|X)([a-fA-F0-9][a-fA-F0-9])*] line 609-611 *)
Definition re_hex_number (s : str) : option str :=
  match s with
  | z :: x :: r =>
      if (z =? 48) && ((x =? 120) || (x =? 88)) then Some (z :: x :: hex_pairs r) else None
  | _ => None
  end.

(** The part of the string regex after the opening quote, by backtracking,
    leftmost-first: the closing quote (34) ends the match; at a backslash (92)
    first try the escape alternative (backslash and any character but newline),
    then the backslash alone through the "anything but a quote" class. *)
Fixpoint re_string_tail (s : str) : option str :=
  match s with
  | [] => None
  | c :: r =>
      if c =? 34 then Some [c]
      else
        let plain := match re_string_tail r with Some t => Some (c :: t) | None => None end in
        if c =? 92 then
          match r with
          | d :: r' =>
              if d =? 10 then plain
              else match re_string_tail r' with
                   | Some t => Some (c :: d :: t)
                   | None => plain
                   end
          | [] => plain
          end
        else plain
  end.

(** The string literal regex, line 613. *)
Definition re_string_literal (s : str) : option str :=
  match s with
  | c :: r => if c =? 34 then match re_string_tail r with Some t => Some (c :: t) | None => None end
              else None
  | [] => None
  end.

(** [^p[a-zA-Z0-9_]*] with first character class [p]; lines 614-620 *)
Definition re_word (p : char -> bool) (s : str) : option str :=
  match s with
  | c :: r => if p c then Some (c :: take_while is_word r) else None
  | [] => None
  end.

(** [^[a-z][a-zA-Z0-9_]*] line 614 *)
Definition re_regular_id := re_word is_lower.
(** [^[A-Z][a-zA-Z0-9_]*] line 618 *)
Definition re_custom_type_id := re_word is_upper.
(** [^[_][a-zA-Z0-9_]*] line 620 *)
Definition re_special_id := re_word (fun c => c =? 95).
(** [^['][A-Z][a-zA-Z0-9_]*] line 616 *)
Definition re_template_type_id (s : str) : option str :=
  match s with
  | c :: r => if c =? 39 then
                match re_custom_type_id r with Some t => Some (c :: t) | None => None end
              else None
  | [] => None
  end.

(** src/parser/lexer.rs:622-709: the [if let Some(mat) = ...] cascade.  Returns
    the token and its text; [None] is the final [else] (Token::Unknown). *)
Definition other_token (s : str) : option (token * str) :=
  match re_bystr_with_size s with Some m => Some (TByStrWithSize m, m) | None =>
  if starts_with kw_bystr s then Some (TByStr, kw_bystr) else
  match re_hex_number s with Some m => Some (THexNumber m, m) | None =>
  match re_signed_integer s with Some m => Some (TNumber m, m) | None =>
  match re_string_literal s with Some m => Some (TStringLiteral m, m) | None =>
  match re_regular_id s with Some m => Some (TIdentifier m, m) | None =>
  match re_template_type_id s with Some m => Some (TTemplateIdentifier m, m) | None =>
  match re_custom_type_id s with Some m => Some (TCustomIdentifier m, m) | None =>
  match re_special_id s with Some m => Some (TSpecialIdentifier m, m) | None =>
  None end end end end end end end end.

Fixpoint assoc (k : str) (l : list (str * token)) : option token :=
  match l with
  | [] => None
  | (k', t) :: r => if str_eqb k k' then Some t else assoc k r
  end.

(** src/parser/lexer.rs:332-384, the single character arms of [match ch]. *)
Definition single_char_token (c : char) : option token :=
  if c =? 43 then Some TPlus
  else if c =? 42 then Some TAsterisk
  else if c =? 59 then Some TSemicolon
  else if c =? 58 then Some TColon
  else if c =? 46 then Some TDot
  else if c =? 124 then Some TPipe
  else if c =? 91 then Some TOpenBracket
  else if c =? 93 then Some TCloseBracket
  else if c =? 40 then Some TOpenParen
  else if c =? 41 then Some TCloseParen
  else if c =? 123 then Some TOpenBrace
  else if c =? 125 then Some TCloseBrace
  else if c =? 44 then Some TComma
  else if c =? 38 then Some TAmpersand
  else if c =? 64 then Some TAt
  else if c =? 61 then Some TEquals
  else None.

Definition item := (source_position * token * source_position)%type.

Inductive step_result :=
| SEnd                             (* [self.chars.next()] returned None *)
| SSkip (l : lexer)                (* [continue] *)
| STok (i : item) (l : lexer)      (* [return Some(Ok(i))] *)
| SPanic.

(** [return Some(Ok((source_position, token, source_position.with_end(e))))] *)
Definition emit_tok (sp : source_position) (t : token) (e : N) (l : lexer) : step_result :=
  match with_end sp e with
  | Some ep => STok (sp, t, ep) l
  | None => SPanic
  end.

Section WithUnicode.
Variable U : unicode.

Definition is_alnum_under (c : char) : bool := is_alphanumeric U c || (c =? 95).

(** src/parser/lexer.rs:387-394: CHARACTER index of the first character that is
    neither alphanumeric nor '_'; 0 if there is none. *)
Fixpoint word_index_from (i : N) (s : str) : N :=
  match s with
  | [] => 0
  | c :: r => if is_alnum_under c then word_index_from (i + 1) r else i
  end.
Definition word_index (s : str) : N := word_index_from 0 s.

(** src/parser/lexer.rs:395-399: [&token_str[..index]] is a BYTE slice; [None]
    is its panic. *)
Definition keyword_token (s : str) : option str :=
  let index := word_index s in
  if 0 <? index then slice_to s index else Some s.

(** src/parser/lexer.rs:385-714, the [_] arm.  [ch] is the current character,
    [l] the lexer after it. *)
Definition word_step (sp : source_position) (start : N) (ch : char) (l : lexer) : step_result :=
  let token_str := ch :: lx_chars l in
  match keyword_token token_str with
  | None => SPanic
  | Some kw =>
      match assoc kw keywords with
      | Some t => emit_tok sp t (start + byte_len kw) (chars_nth (List.length kw - 2) l)
      | None =>
          match other_token token_str with
          | Some (t, m) =>
              let mat_end := byte_len m in
              emit_tok sp t (start + mat_end)
                (if 1 <? mat_end then chars_nth (N.to_nat mat_end - 2) l else l)
          | None => emit_tok sp TUnknown start l
          end
      end
  end.

(** src/parser/lexer.rs:251-721, one iteration of the [while let] loop of
    [Iterator::next]. *)
Definition step (l0 : lexer) : step_result :=
  match lx_chars l0 with
  | [] => SEnd
  | ch :: rest =>
      let start := lx_pos l0 in
      let sp := mkpos start (lx_line l0) (lx_character l0) in
      let l1 := chars_next l0 in
      let look_ahead := hd_error rest in
      let la c := match look_ahead with Some d => d =? c | None => false end in
      let next_is_alpha_num_under :=
        match look_ahead with Some d => is_alnum_under d | None => false end in
      let next_is_numeric :=
        match look_ahead with Some d => is_numeric U d | None => false end in
      if start <? lx_last l0 then SPanic (* [start - self.last_position] underflow *)
      else
      let l := mklx (lx_chars l1) (lx_pos l1) (lx_line l1)
                    (lx_character l1 + (start - lx_last l0)) start in
      if is_whitespace ch then
        if ch =? 10 then SSkip (mklx (lx_chars l) (lx_pos l) (lx_line l + 1) 0 (lx_last l))
        else SSkip l
      else if (ch =? 61) && la 62 then emit_tok sp TDoubleArrow (start + 2 * len_utf8 ch) (chars_next l)
      else if (ch =? 45) && la 62 then emit_tok sp TArrow (start + 2 * len_utf8 ch) (chars_next l)
      else if (ch =? 45) && negb next_is_numeric then emit_tok sp TMinus (start + len_utf8 ch) l
      else if (ch =? 60) && la 45 then emit_tok sp TLeftArrow (start + 2 * len_utf8 ch) (chars_next l)
      else if (ch =? 58) && la 61 then emit_tok sp TColonEquals (start + 2 * len_utf8 ch) (chars_next l)
      else if (ch =? 95) && negb next_is_alpha_num_under then emit_tok sp TUnderscore (start + len_utf8 ch) l
      else if (ch =? 40) && la 42 then
        let l' := chars_next l in
        let '(r, p) := skip_comment (lx_chars l') (lx_pos l') in
        SSkip (mklx r p (lx_line l') (lx_character l') (lx_last l'))
      else match single_char_token ch with
           | Some t => emit_tok sp t (start + len_utf8 ch) l
           | None => word_step sp start ch l
           end
  end.

Inductive next_result :=
| NEnd (l : lexer)
| NItem (i : item) (l : lexer)
| NPanic
| NFuel.

Fixpoint next_fuel (fuel : nat) (l : lexer) : next_result :=
  match fuel with
  | O => NFuel
  | S f => match step l with
           | SEnd => NEnd l
           | SSkip l' => next_fuel f l'
           | STok i l' => NItem i l'
           | SPanic => NPanic
           end
  end.

(** src/parser/lexer.rs:250-724 [Iterator::next].  The loop is bounded by fuel;
    [LexerProofs.next_no_fuel] shows the fuel never runs out. *)
Definition next (l : lexer) : next_result := next_fuel (S (List.length (lx_chars l))) l.

Inductive lex_end := LEof | LPanic | LFuel.

Fixpoint lex_run (fuel : nat) (l : lexer) : list item * lex_end :=
  match fuel with
  | O => ([], LFuel)
  | S f => match next l with
           | NEnd _ => ([], LEof)
           | NItem i l' => let '(is, e) := lex_run f l' in (i :: is, e)
           | NPanic => ([], LPanic)
           | NFuel => ([], LFuel)
           end
  end.

(** [Lexer::new(input)] iterated to the end (or to the panic). *)
Definition lex (input : str) : list item * lex_end :=
  lex_run (S (List.length input)) (lexer_new input).

End WithUnicode.

Definition item_start (i : item) : source_position := fst (fst i).
Definition item_token (i : item) : token := snd (fst i).
Definition item_end (i : item) : source_position := snd i.

(** An oracle with no alphabetic or numeric character above ASCII, and one with
    é (U+00E9) alphabetic; used in examples and witnesses only. *)
Definition U_none : unicode := {| uni_alphabetic := fun _ => false; uni_numeric := fun _ => false |}.
Definition U_latin : unicode := {| uni_alphabetic := fun c => c =? 233; uni_numeric := fun _ => false |}.
