(** C59, specification: the words a result is spelled with. *)
From Verif Require Import Chars Types Emitter EmitSpec.
Local Open Scope nat_scope.

(** What stands between [with] and the fields of an address type, if anything. *)
Definition kind_words (kind : str) : list str := match kind with [] => [] | _ => [kind] end.

(** [spelt t ws]: the type [t] is spelled with the words [ws]: its name, then
    the words of its parts.  A [ByStrX n] is [ByStr] followed by any decimal
    notation of [n] (leading zeros are allowed). *)
Inductive spelt : ty -> list str -> Prop :=
| sp_base n t : base_name n t -> spelt t [n]
| sp_bystr20 : spelt ByStr20 [lit "ByStr20"]
| sp_sized n k : sized_bystr n k -> spelt (ByStrX k) [n]
| sp_other n : spelt (Other n) [n]
| sp_option t ws : spelt t ws -> spelt (TyOption t) (lit "Option" :: ws)
| sp_list t ws : spelt t ws -> spelt (TyList t) (lit "List" :: ws)
| sp_pair a b ws ws' : spelt a ws -> spelt b ws' -> spelt (TyPair a b) (lit "Pair" :: ws ++ ws')
| sp_map a b ws ws' : spelt a ws -> spelt b ws' -> spelt (TyMap a b) (lit "Map" :: ws ++ ws')
| sp_address kind fs ws : spelt_fields fs ws -> spelt (ByStr20With kind fs) (lit "ByStr20" :: kind_words kind ++ ws)
with spelt_fields : list field -> list str -> Prop :=
| sf_nil : spelt_fields [] []
| sf_cons n t l ws ws' : spelt t ws -> spelt_fields l ws' -> spelt_fields (mkField n t :: l) (n :: ws ++ ws').

Inductive spelt_transitions : list transition -> list str -> Prop :=
| st_nil : spelt_transitions [] []
| st_cons n ps l ws ws' : spelt_fields ps ws -> spelt_transitions l ws' ->
    spelt_transitions (mkTransition n ps :: l) (n :: ws ++ ws').

Inductive spelt_contract : contract -> list str -> Prop :=
| sc_contract n ps fs ts wp wf wt : spelt_fields ps wp -> spelt_fields fs wf -> spelt_transitions ts wt ->
    spelt_contract (mkContract n ps fs ts) (n :: wp ++ wf ++ wt).

(** The same for what is on the emitter's stack: names, fields, and types before
    they are converted. *)
Inductive spelt_sr : sr_type -> list str -> Prop :=
| ssr n subs addr ws wa : spelt_srs subs ws -> spelt_addr addr wa -> spelt_sr (mkSr n subs addr) (n :: ws ++ wa)
with spelt_srs : list sr_type -> list str -> Prop :=
| ssr_nil : spelt_srs [] []
| ssr_cons t l ws ws' : spelt_sr t ws -> spelt_srs l ws' -> spelt_srs (t :: l) (ws ++ ws')
with spelt_addr : option address_type -> list str -> Prop :=
| sad_none : spelt_addr None []
| sad_some a ws : spelt_fields (a_fields a) ws -> spelt_addr (Some a) (kind_words (a_type_name a) ++ ws).
Definition spelt_field (f : field) (ws : list str) : Prop := exists w, spelt (field_type f) w /\ ws = field_name f :: w.
Inductive spelt_object : stack_object -> list str -> Prop :=
| so_id i : spelt_object (IrIdentifier i) [unresolved i]
| so_decl f ws : spelt_field f ws -> spelt_object (VariableDeclaration f) ws
| so_type t ws : spelt_sr t ws -> spelt_object (SoTypeDefinition t) ws.

Definition word_dec : forall a b : str, {a = b} + {a <> b} := list_eq_dec N.eq_dec.
(** how often the word [w] occurs in a list *)
Definition occurrences (w : str) (l : list str) : nat := count_occ word_dec l w.

(** Number of constructors and names in a result. *)
Fixpoint type_size (t : ty) : nat :=
  match t with
  | TyMap a b | TyPair a b => 1 + type_size a + type_size b
  | TyOption a | TyList a => 1 + type_size a
  | ByStr20With _ fs => 1 + fold_right (fun f n => (let '(mkField _ t) := f in 1 + type_size t) + n) 0 fs
  | _ => 1
  end.
Definition fields_size (l : list field) : nat := fold_right (fun f n => (1 + type_size (field_type f)) + n) 0 l.
Definition contract_size (c : contract) : nat :=
  1 + fields_size (c_init_params c) + fields_size (c_fields c)
  + fold_right (fun t n => (1 + fields_size (t_params t)) + n) 0 (c_transitions c).
