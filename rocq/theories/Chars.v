(** Rust [char] and [str] as lists of Unicode code points.

    Not a file of /repo: this is the part of Rust's standard library that
    src/parser/lexer.rs relies on ([char::is_whitespace], [char::is_alphanumeric],
    [char::is_numeric], [char::len_utf8], str slicing by byte offsets). *)
From Coq Require Export List NArith String Ascii Bool Lia.
Export ListNotations.
Open Scope N_scope.
Open Scope list_scope.
Arguments N.add : simpl never.
Arguments N.sub : simpl never.
Arguments N.leb : simpl never.
Arguments N.ltb : simpl never.
Arguments N.eqb : simpl never.

(** A [char] is its code point; a [str] the list of its [char]s. *)
Notation char := N (only parsing).
Notation str := (list N) (only parsing).

(** ASCII literals, to write model texts readably. *)
Fixpoint lit (s : string) : str :=
  match s with
  | EmptyString => []
  | String a r => N_of_ascii a :: lit r
  end.

(** [char::len_utf8] *)
Definition len_utf8 (c : char) : N :=
  if c <? 128 then 1 else if c <? 2048 then 2 else if c <? 65536 then 3 else 4.

(** [str::len]: length in bytes. *)
Fixpoint byte_len (s : str) : N :=
  match s with
  | [] => 0
  | c :: r => len_utf8 c + byte_len r
  end.

Fixpoint str_eqb (a b : str) : bool :=
  match a, b with
  | [], [] => true
  | x :: a', y :: b' => (x =? y) && str_eqb a' b'
  | _, _ => false
  end.

(** [str::starts_with] *)
Fixpoint starts_with (p s : str) : bool :=
  match p, s with
  | [], _ => true
  | x :: p', y :: s' => (x =? y) && starts_with p' s'
  | _, _ => false
  end.

(** Longest prefix whose characters all satisfy [p] (a regex [p*]). *)
Fixpoint take_while (p : char -> bool) (s : str) : str :=
  match s with
  | [] => []
  | c :: r => if p c then c :: take_while p r else []
  end.

Definition in_range (lo hi c : N) : bool := (lo <=? c) && (c <=? hi).

(** Regex classes [0-9], [a-z], [A-Z], [a-fA-F0-9], [a-zA-Z0-9_]. *)
Definition is_digit (c : char) : bool := in_range 48 57 c.
Definition is_lower (c : char) : bool := in_range 97 122 c.
Definition is_upper (c : char) : bool := in_range 65 90 c.
Definition is_hex (c : char) : bool :=
  is_digit c || in_range 97 102 c || in_range 65 70 c.
Definition is_word (c : char) : bool :=
  is_lower c || is_upper c || is_digit c || (c =? 95).

(** [char::is_whitespace]: the Unicode property White_Space, exactly. *)
Definition is_whitespace (c : char) : bool :=
  in_range 9 13 c || (c =? 32) || (c =? 133) || (c =? 160) || (c =? 5760)
  || in_range 8192 8202 c || (c =? 8232) || (c =? 8233) || (c =? 8239)
  || (c =? 8287) || (c =? 12288).

(** The Unicode tables above ASCII are an oracle; every theorem quantifies
    over it.  Simplification: the tables themselves are not reproduced. *)
Record unicode := { uni_alphabetic : char -> bool; uni_numeric : char -> bool }.

(** [char::is_alphabetic], [char::is_numeric], [char::is_alphanumeric].  Exact
    on ASCII; above, the oracle decides, except that White_Space characters
    are neither alphabetic nor numeric (a fact of the Unicode tables). *)
Definition is_alphabetic (U : unicode) (c : char) : bool :=
  if c <? 128 then is_lower c || is_upper c
  else negb (is_whitespace c) && uni_alphabetic U c.
Definition is_numeric (U : unicode) (c : char) : bool :=
  if c <? 128 then is_digit c
  else negb (is_whitespace c) && uni_numeric U c.
Definition is_alphanumeric (U : unicode) (c : char) : bool :=
  is_alphabetic U c || is_numeric U c.

Definition is_ascii (c : char) : bool := c <? 128.
Definition ascii_str (s : str) : bool := forallb is_ascii s.

(** [&s[..n]] for a byte offset [n]: [None] is the panic "byte index is not a
    char boundary" (or out of range). *)
Fixpoint slice_to (s : str) (n : N) : option str :=
  if n =? 0 then Some []
  else match s with
       | [] => None
       | c :: r => if len_utf8 c <=? n then
                     match slice_to r (n - len_utf8 c) with
                     | Some t => Some (c :: t)
                     | None => None
                     end
                   else None
       end.

(** [&s[n..]] likewise. *)
Fixpoint slice_from (s : str) (n : N) : option str :=
  if n =? 0 then Some s
  else match s with
       | [] => None
       | c :: r => if len_utf8 c <=? n then slice_from r (n - len_utf8 c) else None
       end.

(** [&s[a..b]] *)
Definition slice (s : str) (a b : N) : option str :=
  if b <? a then None
  else match slice_from s a with
       | Some t => slice_to t (b - a)
       | None => None
       end.
