(** Model of src/type.rs, src/field.rs, src/transition.rs, the data part of
    src/contract.rs and src/simplified_representation/primitives.rs. *)
From Coq Require Import Decimal DecimalN.
From Verif Require Import Chars.

(** src/type.rs:7-39 [enum Type] and src/field.rs:3-7 [struct Field].
    [Box<T>] is [T]; [FieldList] (field.rs:33-34) is [list field]; [usize] is
    [N] (the only producer, [parse::<usize>], is bounded below). *)
Inductive ty :=
| Int32 | Int64 | Int128 | Int256
| Uint32 | Uint64 | Uint128 | Uint256
| TyString
| BNum
| TyMap (k v : ty)
| ByStr
| ByStrX (n : N)
| ByStr20
| ByStr20With (type_name : str) (fields : list field)
| TyBool
| TyOption (t : ty)
| TyPair (a b : ty)
| TyList (t : ty)
| Other (s : str)
with field := mkField (name : str) (type : ty).

Definition field_name (f : field) : str := let '(mkField n _) := f in n.
Definition field_type (f : field) : ty := let '(mkField _ t) := f in t.

(** src/transition.rs:3-7 *)
Record transition := mkTransition { t_name : str; t_params : list field }.

(** src/contract.rs:12-21 and its [Default] (derived) *)
Record contract := mkContract
  { c_name : str; c_init_params : list field; c_fields : list field;
    c_transitions : list transition }.
Definition contract_default : contract := mkContract [] [] [] [].

(** primitives.rs:5-30 [enum SrIdentifierKind]; only these kinds are ever
    constructed by emitter.rs (lines 102, 108, 138, 460, 469, 650). *)
Inductive id_kind := KUnknown | KComponentName | KTransitionName.

(** primitives.rs:33-40.  Simplification: [resolved], [type_reference]
    and [is_definition] are never read. *)
Record sr_identifier := mkId { unresolved : str; kind : id_kind }.

(** primitives.rs:42-46 *)
Record address_type := mkAddr { a_type_name : str; a_fields : list field }.

(** primitives.rs:48-53 *)
Inductive sr_type :=
| mkSr (main_type : str) (sub_types : list sr_type) (addr : option address_type).

(** primitives.rs:55-59 *)
Definition push_sub_type (t s : sr_type) : sr_type :=
  let '(mkSr m subs a) := t in mkSr m (subs ++ [s]) a.

(** primitives.rs:61-69 [impl From<SrIdentifier> for SrType] *)
Definition sr_of_id (i : sr_identifier) : sr_type := mkSr (unresolved i) [] None.

(** [str::parse::<usize>] on a 64 bit target (core::num [from_str_radix], used
    in type.rs:107): an optional [+], then at least one decimal digit, value
    below 2^64.  [None] is the [Err] result. *)
Fixpoint digits_value (acc : N) (s : str) : option N :=
  match s with
  | [] => Some acc
  | c :: r =>
      if is_digit c then
        let v := acc * 10 + (c - 48) in
        if v <? 2 ^ 64 then digits_value v r else None
      else None
  end.
Definition parse_usize (s : str) : option N :=
  let body := match s with 43 :: r => r | _ => s end in
  match body with [] => None | _ => digits_value 0 body end.

(** [str::strip_prefix] (type.rs:106) *)
Fixpoint strip_prefix (p s : str) : option str :=
  match p, s with
  | [], _ => Some s
  | x :: p', y :: s' => if x =? y then strip_prefix p' s' else None
  | _, _ => None
  end.

(** The literal patterns of the [match] in type.rs:76-87. *)
Definition base_types : list (str * ty) :=
  [ (lit "Int32", Int32); (lit "Int64", Int64); (lit "Int128", Int128);
    (lit "Int256", Int256); (lit "Uint32", Uint32); (lit "Uint64", Uint64);
    (lit "Uint128", Uint128); (lit "Uint256", Uint256); (lit "String", TyString);
    (lit "ByStr", ByStr); (lit "BNum", BNum); (lit "Bool", TyBool) ].

Fixpoint str_assoc {A} (s : str) (l : list (str * A)) : option A :=
  match l with
  | [] => None
  | (k, v) :: r => if str_eqb s k then Some v else str_assoc s r
  end.

(** type.rs:73-116 [impl From<SrType> for Type]; [None] is the panic of
    [unwrap()] on an empty [sub_types] (lines 89-100).  [Vec::pop] takes from
    the end, hence the reversal; an element that is not popped is dropped
    without being converted. *)
Fixpoint type_from (t : sr_type) : option ty :=
  match t with
  | mkSr main subs addr =>
      let converted := rev (map type_from subs) in
      match str_assoc main base_types with
      | Some b => Some b
      | None =>
          if str_eqb main (lit "Option") then
            match converted with Some a :: _ => Some (TyOption a) | _ => None end
          else if str_eqb main (lit "List") then
            match converted with Some a :: _ => Some (TyList a) | _ => None end
          else if str_eqb main (lit "Pair") then
            match converted with Some b :: Some a :: _ => Some (TyPair a b) | _ => None end
          else if str_eqb main (lit "Map") then
            match converted with Some v :: Some k :: _ => Some (TyMap k v) | _ => None end
          else if str_eqb main (lit "ByStr20") then
            Some match addr with
                 | None => ByStr20
                 | Some a => ByStr20With (a_type_name a) (a_fields a)
                 end
          else if starts_with (lit "ByStr") main then
            match match strip_prefix (lit "ByStr") main with
                  | Some r => parse_usize r
                  | None => None
                  end with
            | Some n => Some (ByStrX n)
            | None => Some (Other main)
            end
          else Some (Other main)
      end
  end.

(** Decimal printing of a [usize] (core::fmt). *)
Fixpoint uint_chars (u : Decimal.uint) : str :=
  match u with
  | Nil => []
  | D0 r => 48 :: uint_chars r | D1 r => 49 :: uint_chars r
  | D2 r => 50 :: uint_chars r | D3 r => 51 :: uint_chars r
  | D4 r => 52 :: uint_chars r | D5 r => 53 :: uint_chars r
  | D6 r => 54 :: uint_chars r | D7 r => 55 :: uint_chars r
  | D8 r => 56 :: uint_chars r | D9 r => 57 :: uint_chars r
  end.
Definition dec (n : N) : str := uint_chars (N.to_uint n).

(** [[String]::join(sep)] (type.rs:66) *)
Fixpoint join (sep : str) (l : list str) : str :=
  match l with
  | [] => []
  | [x] => x
  | x :: r => x ++ sep ++ join sep r
  end.

(** type.rs:41-71 [impl Display for Type] *)
Fixpoint ty_display (t : ty) : str :=
  match t with
  | Int32 => lit "Int32" | Int64 => lit "Int64" | Int128 => lit "Int128"
  | Int256 => lit "Int256" | Uint32 => lit "Uint32" | Uint64 => lit "Uint64"
  | Uint128 => lit "Uint128" | Uint256 => lit "Uint256"
  | TyString => lit "String" | BNum => lit "BNum" | TyBool => lit "Bool"
  | TyMap k v => lit "(Map " ++ ty_display k ++ lit ", " ++ ty_display v ++ lit ")"
  | TyOption k => lit "(Option " ++ ty_display k ++ lit ")"
  | TyList k => lit "(List " ++ ty_display k ++ lit ")"
  | TyPair k v => lit "(Pair " ++ ty_display k ++ lit " " ++ ty_display v ++ lit ")"
  | ByStr => lit "ByStr"
  | ByStrX n => lit "ByStr" ++ dec n
  | ByStr20 => lit "ByStr20"
  | ByStr20With tn fs =>
      lit "ByStr20 with " ++ tn
      ++ join (lit ", ")
           (map (fun f => let '(mkField n ft) := f in
                          lit "field " ++ n ++ lit ": " ++ ty_display ft) fs)
      ++ lit " end"
  | Other s => s
  end.
