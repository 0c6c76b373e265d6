(** Independent specification of the lexical structure: layout, well-formed
    tokens, which text may follow a token, and the segmentation of a source text
    into tokens.  Nothing here mentions the functions of Lexer.v (only the
    token and position types, the Unicode oracle and the keyword spellings). *)
From Verif Require Import Chars Lexer.

(** [a] occurs in [s]. *)
Definition occurs (a s : str) : Prop := exists p q, s = p ++ a ++ q.
Definition close_comment : str := lit "*)".
Definition open_comment : str := lit "(*".

(** Layout: white space and closed comments; the number counts the newlines
    outside comments. *)
Inductive layout : str -> N -> Prop :=
| lay_nil : layout [] 0
| lay_space : forall c s n, is_whitespace c = true -> layout s n ->
    layout (c :: s) (if c =? 10 then n + 1 else n)
| lay_comment : forall c s n, ~ occurs close_comment c -> layout s n ->
    layout (open_comment ++ c ++ close_comment ++ s) n.

(** Layout at the end of a text may end in an unterminated comment. *)
Definition final_layout (s : str) : Prop :=
  exists g n, layout g n /\
    (s = g \/ exists c, ~ occurs close_comment c /\ s = g ++ open_comment ++ c).

(** Word characters in the sense of the lexer ([char::is_alphanumeric] or _). *)
Definition word_char (U : unicode) (c : char) : bool := is_alphanumeric U c || (c =? 95).
Definition not_followed_by (p : char -> bool) (s : str) : Prop :=
  match s with [] => True | c :: _ => p c = false end.

(** [w] is the maximal word at the head of [s]. *)
Definition word_at (U : unicode) (s w : str) : Prop :=
  exists r, s = w ++ r /\ Forall (fun c => word_char U c = true) w
            /\ not_followed_by (word_char U) r.

(** The keywords of the language. *)
Definition keyword_list : list (str * token) :=
  [ (lit "forall", TForall); (lit "builtin", TBuiltin); (lit "library", TLibrary);
    (lit "import", TImport); (lit "let", TLet); (lit "in", TIn);
    (lit "match", TMatch); (lit "with", TWith); (lit "end", TEnd);
    (lit "fun", TFun); (lit "tfun", TTfun); (lit "contract", TContract);
    (lit "transition", TTransition); (lit "send", TSend); (lit "field", TField);
    (lit "accept", TAccept); (lit "exists", TExists); (lit "delete", TDelete);
    (lit "throw", TThrow); (lit "Map", TMap); (lit "scilla_version", TScillaVersion);
    (lit "type", TType); (lit "of", TOf); (lit "as", TAs);
    (lit "procedure", TProcedure); (lit "Emp", TEmp); (lit "event", TEvent);
    (lit "Event", TEventType) ].
Definition is_keyword (w : str) : Prop := In w (map fst keyword_list).

(** Punctuation. *)
Definition punctuation : list (str * token) :=
  [ (lit "+", TPlus); (lit "*", TAsterisk); (lit ";", TSemicolon); (lit ":", TColon);
    (lit ".", TDot); (lit "|", TPipe); (lit "[", TOpenBracket); (lit "]", TCloseBracket);
    (lit "(", TOpenParen); (lit ")", TCloseParen); (lit "{", TOpenBrace);
    (lit "}", TCloseBrace); (lit ",", TComma); (lit "=>", TDoubleArrow); (lit "->", TArrow);
    (lit "=", TEquals); (lit "&", TAmpersand); (lit "<-", TLeftArrow);
    (lit ":=", TColonEquals); (lit "@", TAt); (lit "-", TMinus); (lit "_", TUnderscore) ].

(** Identifiers, numbers, strings. *)
Definition all_word (s : str) : Prop := Forall (fun c => is_word c = true) s.
Definition all_digits (s : str) : Prop := Forall (fun c => is_digit c = true) s.

(** The text between the quotes of a string literal: ordinary characters,
    escapes (a backslash and any character but a newline), or a backslash right
    before a newline. *)
Inductive string_body : str -> Prop :=
| sb_nil : string_body []
| sb_char : forall c s, c <> 34 -> c <> 92 -> string_body s -> string_body (c :: s)
| sb_escape : forall c s, c <> 10 -> string_body s -> string_body (92 :: c :: s)
| sb_newline : forall s, string_body s -> string_body (92 :: 10 :: s).

Inductive hex_digits : str -> Prop :=
| hd_nil : hex_digits []
| hd_pair : forall a b s, is_hex a = true -> is_hex b = true -> hex_digits s -> hex_digits (a :: b :: s).

(** A well-formed token: one that can be written down. *)
Inductive wf_token : token -> Prop :=
| wf_keyword : forall w t, In (w, t) keyword_list -> wf_token t
| wf_punct : forall w t, In (w, t) punctuation -> wf_token t
| wf_bystr : wf_token TByStr
| wf_bystr_size : forall ds, ds <> [] -> all_digits ds -> wf_token (TByStrWithSize (lit "ByStr" ++ ds))
| wf_number : forall ds, ds <> [] -> all_digits ds -> wf_token (TNumber ds)
| wf_negative : forall ds, ds <> [] -> all_digits ds -> wf_token (TNumber (lit "-" ++ ds))
| wf_hex : forall x hs, x = 120 \/ x = 88 -> hex_digits hs -> wf_token (THexNumber (48 :: x :: hs))
| wf_identifier : forall c s, is_lower c = true -> all_word s -> ~ is_keyword (c :: s) ->
    wf_token (TIdentifier (c :: s))
| wf_custom : forall c s, is_upper c = true -> all_word s -> ~ is_keyword (c :: s) ->
    (forall r, c :: s <> lit "ByStr" ++ r) -> wf_token (TCustomIdentifier (c :: s))
| wf_special : forall s, s <> [] -> all_word s -> wf_token (TSpecialIdentifier (95 :: s))
| wf_template : forall c s, is_upper c = true -> all_word s ->
    wf_token (TTemplateIdentifier (39 :: c :: s))
| wf_string : forall s, string_body s -> ascii_str s = true ->
    wf_token (TStringLiteral (34 :: s ++ [34])).

(** What may directly follow the text of a token without merging with it. *)
Definition may_follow (U : unicode) (t : token) (rest : str) : Prop :=
  match t with
  | TEquals => not_followed_by (fun c => c =? 62) rest
  | TColon => not_followed_by (fun c => c =? 61) rest
  | TOpenParen => not_followed_by (fun c => c =? 42) rest
  | TMinus => not_followed_by (fun c => (c =? 62) || is_numeric U c) rest
  | TPlus | TAsterisk | TSemicolon | TDot | TPipe | TOpenBracket | TCloseBracket
  | TCloseParen | TOpenBrace | TCloseBrace | TComma | TDoubleArrow | TArrow | TAmpersand
  | TLeftArrow | TColonEquals | TAt | TStringLiteral _ => True
  | _ => not_followed_by (word_char U) rest
  end.

(** [written U toks text]: [text] is the tokens [toks] written one after the
    other, with arbitrary layout around them. *)
Inductive written (U : unicode) : list token -> str -> Prop :=
| wr_end : forall g, final_layout g -> written U [] g
| wr_tok : forall g n t toks text, layout g n -> wf_token t -> may_follow U t text ->
    written U toks text -> written U (t :: toks) (g ++ token_text t ++ text).

(** [token_at U s t]: the token at the head of [s] is [t].  ([t]'s text is a
    prefix of [s]; "maximal" parts are delimited by [not_followed_by].) *)
Inductive token_at (U : unicode) : str -> token -> Prop :=
| ta_punct : forall w t r, In (w, t) punctuation -> may_follow U t r -> token_at U (w ++ r) t
| ta_keyword : forall s w t, In (w, t) keyword_list -> word_at U s w -> token_at U s t
| ta_bystr_size : forall ds r, ds <> [] -> all_digits ds -> not_followed_by is_digit r ->
    token_at U (lit "ByStr" ++ ds ++ r) (TByStrWithSize (lit "ByStr" ++ ds))
| ta_bystr : forall r, not_followed_by is_digit r -> token_at U (lit "ByStr" ++ r) TByStr
| ta_hex : forall x hs r, x = 120 \/ x = 88 -> hex_digits hs ->
    (forall a b r', r = a :: b :: r' -> is_hex a = true -> is_hex b = true -> False) ->
    token_at U (48 :: x :: hs ++ r) (THexNumber (48 :: x :: hs))
| ta_number : forall ds r, ds <> [] -> all_digits ds -> not_followed_by is_digit r ->
    (ds = [48] -> not_followed_by (fun c => (c =? 120) || (c =? 88)) r) ->
    token_at U (ds ++ r) (TNumber ds)
| ta_negative : forall ds r, ds <> [] -> all_digits ds -> not_followed_by is_digit r ->
    token_at U (45 :: ds ++ r) (TNumber (45 :: ds))
| ta_string : forall b r, string_body b ->
    token_at U (34 :: b ++ 34 :: r) (TStringLiteral (34 :: b ++ [34]))
| ta_string_last_quote : forall b r,
    (* no closing quote outside escapes: the last quote of the input closes *)
    (forall b' r', string_body b' -> b ++ 34 :: r <> b' ++ 34 :: r') -> ~ In 34 r ->
    token_at U (34 :: b ++ 34 :: r) (TStringLiteral (34 :: b ++ [34]))
| ta_identifier : forall c w r, is_lower c = true -> all_word w -> not_followed_by is_word r ->
    (forall k, word_at U (c :: w ++ r) k -> ~ is_keyword k) ->
    token_at U (c :: w ++ r) (TIdentifier (c :: w))
| ta_template : forall c w r, is_upper c = true -> all_word w -> not_followed_by is_word r ->
    token_at U (39 :: c :: w ++ r) (TTemplateIdentifier (39 :: c :: w))
| ta_custom : forall c w r, is_upper c = true -> all_word w -> not_followed_by is_word r ->
    (forall k, word_at U (c :: w ++ r) k -> ~ is_keyword k) ->
    (forall k, c :: w ++ r <> lit "ByStr" ++ k) ->
    token_at U (c :: w ++ r) (TCustomIdentifier (c :: w))
| ta_special : forall w r, all_word w -> not_followed_by is_word r ->
    ~ not_followed_by (word_char U) (w ++ r) ->
    token_at U (95 :: w ++ r) (TSpecialIdentifier (95 :: w)).

(** The characters a lexer may lose after a token: as many as a string literal
    has continuation bytes (or whatever is left). *)
Definition lost (t : token) (x r : str) : Prop :=
  match t with
  | TStringLiteral s =>
      let k := byte_len s - N.of_nat (List.length s) in
      N.of_nat (List.length x) = k \/ (N.of_nat (List.length x) <= k /\ r = [])
  | _ => x = []
  end.

(** A word where the lexer panics: its number of characters, taken as a byte
    offset, falls inside a character.  (Nothing happens at the end of input.) *)
Definition bad_word (U : unicode) (s : str) : Prop :=
  exists w r, s = w ++ r /\ w <> [] /\ r <> [] /\ word_at U s w /\
    forall p q, w = p ++ q -> byte_len p <> N.of_nat (List.length w).

(** Segmentation of a text into items: [pos] is the byte offset of the text in
    the input, [line] its line, [base] the offset of the last newline (0 on the
    first line), [prev] the offset where the previous piece (white space
    character, comment or token) started. *)
Inductive segmented (U : unicode) : forall (pos line base prev : N), str -> list item -> lex_end -> Prop :=
| sg_end : forall pos line base prev, segmented U pos line base prev [] [] LEof
| sg_newline : forall pos line base prev s is e,
    segmented U (pos + 1) (line + 1) pos pos s is e ->
    segmented U pos line base prev (10 :: s) is e
| sg_space : forall pos line base prev c s is e,
    is_whitespace c = true -> c <> 10 ->
    segmented U (pos + len_utf8 c) line base pos s is e ->
    segmented U pos line base prev (c :: s) is e
| sg_comment : forall pos line base prev c s is e,
    ~ occurs close_comment c ->
    segmented U (pos + byte_len (open_comment ++ c ++ close_comment)) line base pos s is e ->
    segmented U pos line base prev (open_comment ++ c ++ close_comment ++ s) is e
| sg_open_comment : forall pos line base prev c,
    ~ occurs close_comment c ->
    segmented U pos line base prev (open_comment ++ c) [] LEof
| sg_token : forall pos line base prev t x s is e,
    token_at U (token_text t ++ x ++ s) t -> ~ bad_word U (token_text t ++ x ++ s) -> lost t x s ->
    segmented U (pos + byte_len (token_text t ++ x)) line base pos s is e ->
    segmented U pos line base prev (token_text t ++ x ++ s)
      ((mkpos pos line (prev - base), t,
        mkpos (pos + byte_len (token_text t)) line (prev - base + byte_len (token_text t))) :: is) e
| sg_unknown : forall pos line base prev c s is e,
    is_whitespace c = false -> (forall r, c :: s <> open_comment ++ r) ->
    (forall t, ~ token_at U (c :: s) t) -> ~ bad_word U (c :: s) ->
    segmented U (pos + len_utf8 c) line base pos s is e ->
    segmented U pos line base prev (c :: s)
      ((mkpos pos line (prev - base), TUnknown, mkpos pos line (prev - base)) :: is) e
| sg_panic : forall pos line base prev s,
    bad_word U s -> segmented U pos line base prev s [] LPanic.

(** The offsets a left-to-right scan of [input] stops at: [visited U input p s
    line base prev] says that after the prefix [p] of [input] the text [s]
    remains and a new piece (white space character, comment, token or unknown
    character) starts there; [line] counts the newlines skipped as white space,
    [base] is the offset of the last of them (0 if none) and [prev] the offset of
    the piece just passed. *)
Inductive visited (U : unicode) (input : str) : str -> str -> N -> N -> N -> Prop :=
| vi_start : visited U input [] input 0 0 0
| vi_newline : forall p s line base prev, visited U input p (10 :: s) line base prev ->
    visited U input (p ++ [10]) s (line + 1) (byte_len p) (byte_len p)
| vi_space : forall p c s line base prev, visited U input p (c :: s) line base prev ->
    is_whitespace c = true -> c <> 10 -> visited U input (p ++ [c]) s line base (byte_len p)
| vi_comment : forall p c s line base prev,
    visited U input p (open_comment ++ c ++ close_comment ++ s) line base prev ->
    ~ occurs close_comment c ->
    visited U input (p ++ open_comment ++ c ++ close_comment) s line base (byte_len p)
| vi_token : forall p t x s line base prev, visited U input p (token_text t ++ x ++ s) line base prev ->
    token_at U (token_text t ++ x ++ s) t -> ~ bad_word U (token_text t ++ x ++ s) -> lost t x s ->
    visited U input (p ++ token_text t ++ x) s line base (byte_len p)
| vi_unknown : forall p c s line base prev, visited U input p (c :: s) line base prev ->
    is_whitespace c = false -> (forall r, c :: s <> open_comment ++ r) ->
    (forall t, ~ token_at U (c :: s) t) -> ~ bad_word U (c :: s) ->
    visited U input (p ++ [c]) s line base (byte_len p).

Definition count_newlines (s : str) : N := N.of_nat (count_occ N.eq_dec s 10).

(** [tiled pos line items s rest]: [s] is [items] one after the other, each
    preceded by layout, at byte offsets counted from [pos], lines counted from
    [line]; [rest] is what remains after the last of them. *)
Inductive tiled : N -> N -> list item -> str -> str -> Prop :=
| ti_nil : forall pos ln s, tiled pos ln [] s s
| ti_token : forall pos ln g n a t b x items s rest,
    layout g n -> t <> TUnknown -> token_text t <> [] ->
    position a = pos + byte_len g -> line a = ln + n ->
    position b = position a + byte_len (token_text t) -> line b = line a ->
    lost t x s ->
    tiled (position b + byte_len x) (ln + n) items s rest ->
    tiled pos ln ((a, t, b) :: items) (g ++ token_text t ++ x ++ s) rest
| ti_unknown : forall pos ln g n a c items s rest,
    layout g n -> is_whitespace c = false ->
    position a = pos + byte_len g -> line a = ln + n ->
    tiled (position a + len_utf8 c) (ln + n) items s rest ->
    tiled pos ln ((a, TUnknown, a) :: items) (g ++ c :: s) rest.
