(** Property C61: names are opaque. *)
From Verif Require Import Chars Lexer LexSpec LexFacts LexWritten Ast Grammar Cfg Parser GrammarLink Types Visitor Emitter EmitInv
  Contract Erase EraseFacts EmitErase PropParse2 PropOracle Local PropLocal Spaced Rename RenameSpec RenameDer RenameEmit.

(** ** The parser *)
Lemma r_kinds r l : kinds (map (r_item r) l) = kinds l.
Proof. unfold kinds. rewrite map_map. apply map_ext. intro i. cbn. apply r_kind. Qed.

(** Parsing renamed tokens gives the renamed AST, or the error at the same token. *)
Theorem C61_parser : forall r A items e,
  r (lit "") = lit "" -> r (lit "contract") = lit "contract" -> r (lit "library") = lit "library" ->
  parse A (map (r_item r) items) e =
  match parse A items e with
  | POk v => POk (rename r A v)
  | PErrToken i => PErrToken (r_item r i)
  | PErrEof => PErrEof
  | PPanic => PPanic
  | PInternal => PInternal
  end.
Proof.
  intros r A items e H1 H2 H3. destruct (parse A items e) as [v|i| | |] eqn:E.
  - apply parse_sound in E. destruct E as [Hd ->]. apply parse_complete, derives_rename; assumption.
  - apply parse_error_token_iff in E. destruct E as (u & w & -> & Hu & Hn). apply parse_error_token_iff.
    exists (map (r_item r) u), (map (r_item r) w). split; [rewrite !map_app; reflexivity|]. split.
    + apply (viable_same_kinds A u); [exact Hu|]. apply r_kinds.
    + intro Hv. apply Hn. apply (viable_same_kinds A _ _ Hv).
      change [r_item r i] with (map (r_item r) [i]). rewrite <- map_app. symmetry. apply r_kinds.
  - apply parse_error_eof_iff in E. destruct E as (-> & Hu & Hn). apply parse_error_eof_iff.
    split; [reflexivity|]. split; [apply (viable_same_kinds A items); [exact Hu|apply r_kinds]|].
    intros v Hd. destruct (derives_same_kinds A _ v items Hd) as (v' & Hd'); [symmetry; apply r_kinds|]. exact (Hn v' Hd').
  - apply parse_panic_iff in E. destruct E as [He Hu]. apply parse_panic_iff. split; [exact He|].
    apply (viable_same_kinds A items); [exact Hu|apply r_kinds].
  - exfalso. exact (parse_not_internal _ _ _ E).
Qed.

(** ** The whole pipeline *)
Definition r_shape (r : str -> str) (s : shape) : shape :=
  match s with
  | ShOk c => ShOk (r_result r c)
  | ShErrToken t => ShErrToken (r_token r t)
  | s => s
  end.

(** A text with other names in the same places gives the same result with those
    other names: the contract, the unexpected token, or the panic.  The message
    of an emitter's error contains the rendering of the object it is about,
    which is now the renamed object. *)
Theorem C61_names_are_opaque : forall U debug r text text' toks e,
  renaming r -> tokens_of U text = (toks, e) -> tokens_of U text' = (map (r_token r) toks, e) ->
  shape_of (from_str U debug text') = r_shape r (shape_of (from_str U (fun o => debug (r_so r o)) text)).
Proof.
  intros U debug r text text' toks e R. unfold tokens_of, from_str, parse_str.
  destruct (lex U text) as [l en], (lex U text') as [l' e'']. intros [= <- ->] [= H ->].
  assert (Hm : map item_token (map (r_item r) l) = map item_token l').
  { rewrite map_map, H, map_map. reflexivity. }
  pose proof (C15_positions_do_not_matter Program _ _ e Hm) as Ho.
  rewrite (C61_parser r Program l e (keeps_empty r R) (keeps_contract r R) (keeps_library r R)) in Ho.
  destruct (parse Program l e) as [v|i| | |], (parse Program l' e) as [v'|i'| | |]; try contradiction; try reflexivity.
  - cbn in Ho. change (erase Program) with e_program in Ho. change (rename r Program) with (r_program r) in Ho. unfold emit_api.
    rewrite <- (emit_erase debug v'), <- Ho, (emit_erase debug), (emit_rename r R debug).
    destruct (emit_program _ v); reflexivity.
  - cbn. destruct Ho as [<- _]. reflexivity.
Qed.

Corollary C61_accepted : forall U debug debug' r text text' toks c,
  renaming r -> tokens_of U text = (toks, LEof) -> tokens_of U text' = (map (r_token r) toks, LEof) ->
  from_str U debug text = RValue c -> from_str U debug' text' = RValue (r_result r c).
Proof.
  intros U debug debug' r text text' toks c R H H' E.
  pose proof (C61_names_are_opaque U debug' r text text' toks LEof R H H') as Hs.
  pose proof (C49_same_answer U U debug (fun o => debug' (r_so r o)) text) as Ho. rewrite E in Ho.
  specialize (Ho (fun c _ _ => conj eq_refl eq_refl)).
  destruct (from_str U (fun o => debug' (r_so r o)) text) as [c'|x| |]; try contradiction. subst c'. cbn in Hs.
  destruct (from_str U debug' text') as [c'|[]| |]; try discriminate. cbn in Hs. injection Hs as ->. reflexivity.
Qed.

(** Every way of writing the renamed words. *)
Corollary C61_written : forall U debug debug' r text text' toks c,
  renaming r -> written U toks text -> written U (map (r_token r) toks) text' ->
  from_str U debug text = RValue c -> from_str U debug' text' = RValue (r_result r c).
Proof.
  intros U debug debug' r text text' toks c R H H'.
  apply (C61_accepted U debug debug' r text text' toks c R (written_tokens _ _ _ H) (written_tokens _ _ _ H')).
Qed.

(** ** All names may be the same *)

(** Every lower case name becomes [x], every upper case name without a meaning
    becomes [T]. *)
Definition one_name (s : str) : str :=
  if reservedb s || starts_with (lit "ByStr") s || existsb (str_eqb s) [lit ""; lit "contract"; lit "library"; lit "Event"] then s
  else match s with
       | c :: _ => if is_lower c then lit "x" else if is_upper c then lit "T" else s
       | [] => s
       end.

Lemma one_name_renaming : renaming one_name.
Proof.
  split.
  - intros s H. apply reservedb_iff in H. unfold one_name. rewrite H. reflexivity.
  - intros s H H'. apply reservedb_iff in H'. unfold one_name in H'.
    destruct (reservedb s || starts_with (lit "ByStr") s || _)%bool; [apply H, reservedb_iff, H'|].
    destruct s as [|c s]; [apply H, reservedb_iff, H'|].
    destruct (is_lower c); [discriminate H'|]. destruct (is_upper c); [discriminate H'|]. apply H, reservedb_iff, H'.
  - reflexivity.
  - reflexivity.
  - reflexivity.
  - reflexivity.
Qed.

Lemma one_name_other c s : is_lower c = false -> is_upper c = false -> one_name (c :: s) = c :: s.
Proof. intros Hl Hu. unfold one_name. rewrite Hl, Hu. destruct (_ || _)%bool; reflexivity. Qed.
Lemma digit_not_letter c : is_digit c = true -> is_lower c = false /\ is_upper c = false.
Proof.
  unfold is_digit, is_lower, is_upper, in_range. rewrite andb_true_iff, !N.leb_le. intros [H1 H2].
  split; apply andb_false_iff; left; apply N.leb_gt; lia.
Qed.
Lemma upper_not_lower c : is_upper c = true -> is_lower c = false.
Proof.
  unfold is_lower, is_upper, in_range. rewrite andb_true_iff, !N.leb_le. intros [H1 H2]. apply andb_false_iff. left. apply N.leb_gt. lia.
Qed.
Lemma one_name_wf t : wf_token t -> wf_token (r_token one_name t).
Proof.
  intro H. pose proof H as H0. destruct H as [w t H|w t H| |ds Hn H|ds Hn H|ds Hn H|x hs Hx H|c s Hc H Hk|c s Hc H Hk Hb|s Hn H|c s Hc H|s H Ha].
  - cbn -[lit] in H. repeat (destruct H as [H|H]; [injection H as <- <-; exact H0|]). destruct H.
  - cbn -[lit] in H. repeat (destruct H as [H|H]; [injection H as <- <-; exact H0|]). destruct H.
  - exact H0.
  - cbn [r_token]. replace (one_name (lit "ByStr" ++ ds)) with (lit "ByStr" ++ ds); [exact H0|].
    unfold one_name. rewrite (proj2 (LexerProofs.starts_with_spec (lit "ByStr") (lit "ByStr" ++ ds))) by (eexists; reflexivity).
    rewrite orb_true_r. reflexivity.
  - cbn [r_token]. destruct ds as [|d ds]; [congruence|]. pose proof H as Hd. inversion Hd as [|? ? Hd1 _]; subst.
    destruct (digit_not_letter d Hd1) as [Hl Hu]. rewrite one_name_other by assumption. exact H0.
  - exact H0.
  - exact H0.
  - cbn [r_token]. unfold one_name. destruct (_ || _)%bool; [exact H0|]. rewrite Hc. apply wf_tokenb_sound. reflexivity.
  - cbn [r_token]. unfold one_name. destruct (_ || _)%bool; [exact H0|]. rewrite Hc. rewrite (upper_not_lower c Hc).
    apply wf_tokenb_sound. reflexivity.
  - cbn [r_token]. rewrite one_name_other by reflexivity. exact H0.
  - cbn [r_token]. rewrite one_name_other by reflexivity. exact H0.
  - cbn [r_token]. rewrite one_name_other by reflexivity. exact H0.
Qed.

(** An accepted text stays accepted when all its names are made the same: no
    name is looked up, and none is required to be new. *)
Corollary C61_all_names_alike : forall U debug debug' text toks c,
  written U toks text -> from_str U debug text = RValue c ->
  from_str U debug' (spaced (map (r_token one_name) toks)) = RValue (r_result one_name c).
Proof.
  intros U debug debug' text toks c H E.
  apply (C61_written U debug debug' one_name text _ toks c one_name_renaming H); [|exact E].
  apply spaced_written. clear E. induction H as [|g n t toks text Hg Ht Hf H IH]; [constructor|]. cbn [map].
  constructor; [apply one_name_wf, Ht|exact IH].
Qed.

(** ** The hypotheses are met; and they are needed *)
Definition named := lit "scilla_version 0 contract Token (owner : ByStr20, kind : Kind) field total : Uint128 = zero field holders : Map ByStr20 Uint128 = none transition Mint (to : ByStr20 with contract field balance : Uint128 end, n : Option Kind) end transition Burn () end".
Definition renamed := lit "scilla_version 0 contract Coin (who : ByStr20, what : What) field sum : Uint128 = nil field users : Map ByStr20 Uint128 = empty transition Make (for_ : ByStr20 with contract field money : Uint128 end, k : Option What) end transition Drop () end".
Definition dictionary : list (str * str) :=
  [ (lit "Token", lit "Coin"); (lit "owner", lit "who"); (lit "kind", lit "what"); (lit "Kind", lit "What"); (lit "total", lit "sum");
    (lit "zero", lit "nil"); (lit "holders", lit "users"); (lit "none", lit "empty"); (lit "Mint", lit "Make"); (lit "to", lit "for_");
    (lit "balance", lit "money"); (lit "n", lit "k"); (lit "Burn", lit "Drop") ].
Definition by_dictionary (s : str) : str := match str_assoc s dictionary with Some x => x | None => s end.

Lemma by_dictionary_renaming : renaming by_dictionary.
Proof.
  split; try reflexivity.
  - intros s H. apply reservedb_iff in H. unfold by_dictionary, dictionary, str_assoc.
    repeat match goal with
           | |- context [str_eqb s ?k] =>
               let E := fresh in destruct (str_eqb s k) eqn:E; [apply LexerProofs.str_eqb_eq in E; subst s; discriminate H|]
           end.
    reflexivity.
  - intros s H H'. apply reservedb_iff in H'. unfold by_dictionary, dictionary, str_assoc in H'.
    repeat match type of H' with
           | context [str_eqb s ?k] =>
               let E := fresh in destruct (str_eqb s k) eqn:E; [discriminate H'|]
           end.
    apply H, reservedb_iff, H'.
Qed.

Example C61_witness :
  renaming by_dictionary
  /\ tokens_of U_none renamed = (map (r_token by_dictionary) (fst (tokens_of U_none named)), LEof)
  /\ (exists c, from_str U_none no_debug named = RValue c /\ from_str U_none no_debug renamed = RValue (r_result by_dictionary c)
               /\ c_name (r_result by_dictionary c) = lit "Coin" /\ map t_name (c_transitions (r_result by_dictionary c)) = [lit "Make"; lit "Drop"]
               /\ map field_type (c_init_params (r_result by_dictionary c)) = [ByStr20; Other (lit "What")]).
Proof.
  split; [exact by_dictionary_renaming|]. split; [vm_compute; reflexivity|]. eexists. split; [vm_compute; reflexivity|].
  split; [vm_compute; reflexivity|]. split; [vm_compute; reflexivity|]. split; vm_compute; reflexivity.
Qed.
Example C61_alike_witness : exists c,
  from_str U_none no_debug (lit "scilla_version 0 contract T (x : ByStr20, x : T) field x : Uint128 = x transition T () end transition T () end")
    = RValue c
  /\ map t_name (c_transitions c) = [lit "T"; lit "T"] /\ map field_name (c_init_params c) = [lit "x"; lit "x"].
Proof. eexists. split; [vm_compute; reflexivity|]. split; reflexivity. Qed.

(** Giving a name a reserved meaning changes the result: here into a panic. *)
Theorem C61_any_renaming_refuted : exists r text text' toks c,
  tokens_of U_none text = (toks, LEof) /\ tokens_of U_none text' = (map (r_token r) toks, LEof) /\
  from_str U_none no_debug text = RValue c /\ from_str U_none no_debug text' = RPanic.
Proof.
  exists (fun s => if str_eqb s (lit "Kind") then lit "Option" else s),
    (lit "scilla_version 0 contract C () field f : Kind = x"), (lit "scilla_version 0 contract C () field f : Option = x").
  eexists. eexists. split; [vm_compute; reflexivity|]. split; [vm_compute; reflexivity|]. split; vm_compute; reflexivity.
Qed.
