(** How a description of a contract is written in Scilla: a specification at
    the level of tokens.  The parts the description does not talk about (the
    version, imports, library, constraint, initialisers, bodies, procedures) are
    arbitrary written phrases. *)
From Verif Require Import Chars Lexer Ast Grammar Types EmitSpec EmitSig Print.

(** ** Types *)

(** [ByStr] followed by digits *)
Definition is_sized (n : str) : bool :=
  match strip_prefix (lit "ByStr") n with Some ((_ :: _) as ds) => forallb is_digit ds | _ => false end.
Definition name_token (n : str) : token :=
  if str_eqb n (lit "Map") then TMap
  else if str_eqb n (lit "ByStr") then TByStr
  else if is_sized n then TByStrWithSize n
  else TCustomIdentifier n.

(** Arguments other than plain names are parenthesised. *)
Definition enclose (x : texp) (toks : list token) : list token :=
  match x with TName _ [] => toks | _ => TOpenParen :: toks ++ [TCloseParen] end.
Fixpoint commas (l : list (list token)) : list token :=
  match l with [] => [] | [x] => x | x :: r => x ++ TComma :: commas r end.
Fixpoint spell (x : texp) : list token :=
  match x with
  | TName n args => name_token n :: flat_map (fun a => enclose a (spell a)) args
  | TAddr n kind fs =>
      name_token n :: TWith :: canonical_kind kind
      ++ commas (map (fun f : str * texp => let '(i, a) := f in TField :: TIdentifier i :: TColon :: spell a) fs)
      ++ [TEnd]
  | TUnsupported => []
  end.

(** Which types are covered: [Map] has two arguments, the first one a plain
    name; only [with contract] addresses have fields.  (No text is written as
    [TCustomIdentifier "Event"], so [Event], for which see C28, is left out by
    [written].) *)
Definition is_plain (x : texp) : bool := match x with TName _ [] => true | _ => false end.
Fixpoint spellable (x : texp) : bool :=
  match x with
  | TName n args =>
      forallb spellable args
      && (if str_eqb n (lit "Map") then match args with [k; _] => is_plain k | _ => false end else true)
  | TAddr n kind fs =>
      negb (str_eqb n (lit "Map")) && negb (str_eqb n (lit "ByStr"))
      && (match fs with [] => true | _ => str_eqb kind (lit "contract") end)
      && forallb (fun f : str * texp => let '(_, a) := f in spellable a) fs
  | TUnsupported => false
  end.

(** ** Contracts *)
Definition spell_decl (d : str * texp) : list token := TIdentifier (fst d) :: TColon :: spell (snd d).
Definition spell_params (ps : list (str * texp)) : list token := TOpenParen :: commas (map spell_decl ps) ++ [TCloseParen].
Definition decls_ok (l : list (str * texp)) : bool := forallb (fun d => spellable (snd d)) l.

(** The token of a name in upper case: a plain one, [ByStr] with a size, or [Event]. *)
Inductive type_name_token (n : str) : token -> Prop :=
| tnt_custom : type_name_token n (TCustomIdentifier n)
| tnt_sized : type_name_token n (TByStrWithSize n)
| tnt_event : n = lit "Event" -> type_name_token n TEventType.

(** fields, each with some initialiser *)
Inductive spells_fields : list (str * texp) -> list token -> Prop :=
| sfs_nil : spells_fields [] []
| sfs_cons d e l toks : spellable (snd d) = true -> k_expr e = true -> spells_fields l toks ->
    spells_fields (d :: l) (TField :: spell_decl d ++ TEquals :: canonical (w_expr e) ++ toks).
(** transitions, each with some body, and procedures in between *)
Inductive spells_components : list (str * list (str * texp)) -> list token -> Prop :=
| scs_nil : spells_components [] []
| scs_transition n t ps b l toks : t = TIdentifier n \/ type_name_token n t -> decls_ok ps = true -> k_body b = true ->
    spells_components l toks ->
    spells_components ((n, ps) :: l) (TTransition :: t :: spell_params ps ++ canonical (w_body b) ++ toks)
| scs_procedure p l toks : k_proc p = true -> spells_components l toks ->
    spells_components l (canonical (w_proc p) ++ toks).
Definition optional {A} (k : A -> bool) (w : A -> list piece) (toks : list token) : Prop :=
  toks = [] \/ exists a, k a = true /\ toks = canonical (w a).

Inductive spells (d : description) : list token -> Prop :=
| spells_contract version imports library name constraint fields components :
    optional k_imports w_imports imports -> optional k_lib w_lib library -> type_name_token (d_name d) name -> decls_ok (d_params d) = true ->
    optional k_with w_with constraint -> spells_fields (d_fields d) fields ->
    spells_components (d_transitions d) components ->
    spells d (TScillaVersion :: TNumber version :: imports ++ library
      ++ TContract :: name :: spell_params (d_params d)
      ++ constraint ++ fields ++ components).
