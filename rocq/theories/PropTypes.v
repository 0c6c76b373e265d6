(** Properties C33-C35: the conversion to [Type] and its [Display]. *)
From Verif Require Import Chars Lexer LexerProofs LexSpec LexFacts LexWritten PropLexer Ast Grammar Cfg Parser GrammarLink Types Visitor Emitter
  Contract EmitSpec TypeFacts EmitSig Print PrintFacts PrintRead PropPrint DerInv Spell SpellFacts Spaced PropParse2 PropEmit.
From Coq Require DecimalN DecimalFacts.

(** ** C34: [Type::from] *)

(** A needed argument is missing: [Option], [List] without argument, [Pair],
    [Map] with fewer than two, at the root or in an argument that is used. *)
Definition unary (n : str) : Prop := n = lit "Option" \/ n = lit "List".
Definition binary (n : str) : Prop := n = lit "Pair" \/ n = lit "Map".
Inductive missing : sr_type -> Prop :=
| m_no_argument n addr : unary n -> missing (mkSr n [] addr)
| m_one_argument n subs addr : binary n -> (List.length subs < 2)%nat -> missing (mkSr n subs addr)
| m_last n subs a addr : unary n -> missing a -> missing (mkSr n (subs ++ [a]) addr)
| m_first n subs a b addr : binary n -> missing a -> missing (mkSr n (subs ++ [a; b]) addr)
| m_second n subs a b addr : binary n -> missing b -> missing (mkSr n (subs ++ [a; b]) addr).

Fixpoint sr_rect' (P : sr_type -> Prop) (H : forall n subs addr, Forall P subs -> P (mkSr n subs addr)) (t : sr_type) : P t :=
  match t with
  | mkSr n subs addr => H n subs addr ((fix go l : Forall P l :=
      match l with [] => Forall_nil _ | a :: r => Forall_cons _ (sr_rect' P H a) (go r) end) subs)
  end.

Lemma not_special n : ~ unary n -> ~ binary n -> forall subs addr, exists t, type_from (mkSr n subs addr) = Some t.
Proof.
  intros Hu Hb subs addr. destruct (str_assoc n base_types) as [t|] eqn:E.
  { exists t. apply type_from_base, base_assoc, E. }
  destruct (str_dec n (lit "ByStr20")) as [->|N20]; [rewrite type_from_bystr20; eauto|].
  rewrite type_from_other; [eauto|apply base_assoc_none, E|]. unfold constructor_name, unary, binary in *. tauto.
Qed.
Lemma unary_from n subs addr : unary n -> type_from (mkSr n subs addr) =
  match rev (map type_from subs) with Some a :: _ => Some (if str_eqb n (lit "Option") then TyOption a else TyList a) | _ => None end.
Proof. intros [-> | ->]; reflexivity. Qed.
Lemma binary_from n subs addr : binary n -> type_from (mkSr n subs addr) =
  match rev (map type_from subs) with Some b :: Some a :: _ => Some (if str_eqb n (lit "Pair") then TyPair a b else TyMap a b) | _ => None end.
Proof. intros [-> | ->]; reflexivity. Qed.
Lemma unary_dec n : unary n \/ ~ unary n.
Proof. unfold unary. destruct (str_dec n (lit "Option")); destruct (str_dec n (lit "List")); tauto. Qed.
Lemma binary_dec n : binary n \/ ~ binary n.
Proof. unfold binary. destruct (str_dec n (lit "Pair")); destruct (str_dec n (lit "Map")); tauto. Qed.
Lemma unary_binary n : unary n -> ~ binary n.
Proof. unfold unary, binary. intros [-> | ->] [H|H]; discriminate. Qed.

(** [Type::from] panics ([None]) exactly if a needed argument is missing. *)
Theorem C34_panics_iff_missing : forall t, type_from t = None <-> missing t.
Proof.
  apply (sr_rect' (fun t => type_from t = None <-> missing t)). intros n subs addr IH. split.
  - intro H. destruct (unary_dec n) as [Hu|Hu].
    + rewrite unary_from in H by exact Hu. destruct (snoc_inv subs) as [->|(r & a & ->)]; [apply m_no_argument, Hu|].
      rewrite rev_map_snoc in H. apply Forall_app in IH. destruct IH as [_ IH]. inversion IH as [|? ? IHa _]; subst.
      apply m_last; [exact Hu|]. apply IHa. destruct (type_from a); [discriminate|reflexivity].
    + destruct (binary_dec n) as [Hb|Hb]; [|destruct (not_special n Hu Hb subs addr) as [t Ht]; congruence].
      rewrite binary_from in H by exact Hb. destruct (snoc_inv subs) as [->|(r & b & ->)]; [apply m_one_argument; [exact Hb|cbn; lia]|].
      destruct (snoc_inv r) as [->|(r' & a & ->)]; [apply m_one_argument; [exact Hb|cbn; lia]|].
      rewrite <- app_assoc in *. cbn [app] in *. rewrite rev_map_snoc2 in H. apply Forall_app in IH. destruct IH as [_ IH].
      inversion IH as [|? ? IHa IH2]; subst. inversion IH2 as [|? ? IHb _]; subst.
      destruct (type_from b) eqn:Eb; [|apply m_second; [exact Hb|]; apply IHb; reflexivity].
      destruct (type_from a) eqn:Ea; [discriminate|]. apply m_first; [exact Hb|]. apply IHa. reflexivity.
  - intro H. inversion H as [n' a' Hu|n' s' a' Hb Hl|n' s' x a' Hu Hx|n' s' x y a' Hb Hx|n' s' x y a' Hb Hx]; subst.
    + rewrite unary_from by exact Hu. reflexivity.
    + rewrite binary_from by exact Hb. destruct subs as [|x [|y s]]; cbn in Hl; [reflexivity| |lia]. cbn. now destruct (type_from x).
    + rewrite unary_from by exact Hu. rewrite rev_map_snoc. apply Forall_app in IH. destruct IH as [_ IH]. inversion IH as [|? ? IHa _]; subst.
      apply IHa in Hx. now rewrite Hx.
    + rewrite binary_from by exact Hb. rewrite rev_map_snoc2. apply Forall_app in IH. destruct IH as [_ IH].
      inversion IH as [|? ? IHa IH2]; subst. apply IHa in Hx. rewrite Hx. now destruct (type_from y).
    + rewrite binary_from by exact Hb. rewrite rev_map_snoc2. apply Forall_app in IH. destruct IH as [_ IH].
      inversion IH as [|? ? IHa IH2]; subst. inversion IH2 as [|? ? IHb _]; subst. apply IHb in Hx. now rewrite Hx.
Qed.
(** The last arguments are used, the others ignored; names that take no
    arguments ignore all of them. *)
Theorem C34_last_arguments : forall subs subs' addr addr' a b,
  type_from (mkSr (lit "Option") (subs ++ [a]) addr) = option_map TyOption (type_from a)
  /\ type_from (mkSr (lit "List") (subs ++ [a]) addr) = option_map TyList (type_from a)
  /\ (forall ta tb, type_from a = Some ta -> type_from b = Some tb ->
        type_from (mkSr (lit "Pair") (subs ++ [a; b]) addr) = Some (TyPair ta tb)
        /\ type_from (mkSr (lit "Map") (subs ++ [a; b]) addr) = Some (TyMap ta tb))
  /\ (forall n, ~ unary n -> ~ binary n -> n <> lit "ByStr20" -> type_from (mkSr n subs addr) = type_from (mkSr n subs' addr')).
Proof.
  intros subs subs' addr addr' a b.
  split; [rewrite type_from_option, rev_map_snoc; now destruct (type_from a)|].
  split; [rewrite type_from_list, rev_map_snoc; now destruct (type_from a)|].
  split; [intros ta tb Ha Hb; rewrite type_from_pair, type_from_map, rev_map_snoc2, Ha, Hb; auto|].
  intros n Hu Hb H20. destruct (str_assoc n base_types) as [t|] eqn:E.
  - rewrite !(type_from_base n _ _ t) by (apply base_assoc, E). reflexivity.
  - rewrite !type_from_other by (try (apply base_assoc_none, E); unfold constructor_name, unary, binary in *; tauto). reflexivity.
Qed.
Example C34_witness :
  type_from (mkSr (lit "Pair") [mkSr (lit "Int32") [] None; mkSr (lit "Map") [mkSr (lit "X") [] None] None] None) = None
  /\ type_from (mkSr (lit "Pair") [mkSr (lit "Option") [] None; mkSr (lit "A") [] None; mkSr (lit "List") [mkSr (lit "Bool") [] None] None] None)
     = Some (TyPair (Other (lit "A")) (TyList TyBool)).
Proof. split; reflexivity. Qed.

(** ** C33: sizes *)

(** The type that [ByStr] followed by the digits [ds] stands for. *)
Definition bystr_type (ds : str) : ty :=
  if str_eqb ds (lit "20") then ByStr20
  else if decimal ds <? 2 ^ 64 then ByStrX (decimal ds) else Other (lit "ByStr" ++ ds).

Lemma bystr_inj ds ds' : lit "ByStr" ++ ds = lit "ByStr" ++ ds' -> ds = ds'.
Proof. apply app_inv_head. Qed.
Lemma bystr_denotes ds : ds <> [] -> all_digits ds -> denotes (TName (lit "ByStr" ++ ds) []) (bystr_type ds).
Proof.
  intros Hne Hd. unfold bystr_type. destruct (str_eqb ds (lit "20")) eqn:E.
  { apply LexerProofs.str_eqb_eq in E. subst ds. apply (d_bystr20 []). constructor. }
  assert (N20 : lit "ByStr" ++ ds <> lit "ByStr20").
  { intro H. apply (bystr_inj ds (lit "20")) in H. subst ds. rewrite str_eqb_refl in E. discriminate. }
  destruct (N.ltb_spec (decimal ds) (2 ^ 64)) as [Hl|Hl].
  - apply d_bystrx; [|constructor]. exists [], ds. repeat split; auto.
  - assert (Hsz : forall size, ~ sized_bystr (lit "ByStr" ++ ds) size).
    { intros size (plus & ds' & Heq & Hp & _ & Hd' & Hv & Hlt & _). apply bystr_inj in Heq. destruct Hp as [-> | ->].
      - cbn [app] in Heq. subst ds'. lia.
      - subst ds. inversion Hd as [|? ? Hc _]. discriminate Hc. }
    assert (Hex : exists c r, ds = c :: r) by (destruct ds; [congruence|eauto]). destruct Hex as (c & r & ->).
    apply d_other; [|unfold constructor_name|exact Hsz|constructor].
    + intros t Hb. remember (lit "ByStr" ++ c :: r) as n eqn:En. destruct Hb; discriminate En.
    + intros [H|[H|[H|[H|H]]]]; try discriminate H. exact (N20 H).
Qed.
(** [d] is a text of the tokens [toks] wherever it is followed by something that
    is no word character. *)
Definition text_of (toks : list token) (d : str) : Prop :=
  forall U g m rest text, layout g m -> written U rest text -> not_followed_by (word_char U) text ->
    written U (toks ++ rest) (g ++ d ++ text).
Lemma one_text t : wf_token t -> (forall U r, not_followed_by (word_char U) r -> may_follow U t r) -> text_of [t] (token_text t).
Proof. intros Hw Hm U g m rest text Hg Hr Hn. exact (wr_tok U g m t rest text Hg Hw (Hm U text Hn) Hr). Qed.
Lemma space_layout : layout (lit " ") 0.
Proof. exact (lay_space 32 [] 0 eq_refl lay_nil). Qed.
Lemma space_not_word U s : not_followed_by (word_char U) (lit " " ++ s).
Proof. reflexivity. Qed.

(** ** A contract with one field, as a text *)
Definition field_text (n f d : str) : str :=
  lit "scilla_version 0 contract " ++ n ++ lit " () field " ++ f ++ lit " : " ++ d ++ lit " = e".
Definition e_expr : NodeFullExpression := ExpressionAtomic (w0 (AtomicSid (w0 (VariableName (w0 (lit "e")))))).
Lemma field_text_written U n f d toks : wf_token (TCustomIdentifier n) -> wf_token (TIdentifier f) -> text_of toks d ->
  written U (one_field_tokens n f toks [TIdentifier (lit "e")]) (field_text n f d).
Proof.
  intros Hn Hf Hd.
  assert (W : forall t rest text, wf_token t -> may_follow U t text -> written U rest text -> written U (t :: rest) (lit " " ++ token_text t ++ text)).
  { intros t rest text. exact (wr_tok U (lit " ") 0 t rest text space_layout). }
  assert (E : field_text n f d = [] ++ lit "scilla_version" ++ lit " " ++ lit "0" ++ lit " " ++ lit "contract" ++ lit " " ++ n ++ lit " " ++ lit "("
    ++ [] ++ lit ")" ++ lit " " ++ lit "field" ++ lit " " ++ f ++ lit " " ++ lit ":" ++ lit " " ++ d ++ lit " " ++ lit "=" ++ lit " " ++ lit "e" ++ []).
  { unfold field_text. cbn -[app lit]. cbn. reflexivity. }
  rewrite E. clear E. unfold one_field_tokens. cbn [app].
  apply (wr_tok U [] 0 TScillaVersion); [constructor|apply wf_tokenb_sound; reflexivity|reflexivity|].
  apply (W (TNumber (lit "0"))); [apply wf_tokenb_sound; reflexivity|reflexivity|].
  apply (W TContract); [apply wf_tokenb_sound; reflexivity|reflexivity|].
  apply (W (TCustomIdentifier n)); [exact Hn|reflexivity|].
  apply (W TOpenParen); [apply wf_tokenb_sound; reflexivity|reflexivity|].
  apply (wr_tok U [] 0 TCloseParen); [constructor|apply wf_tokenb_sound; reflexivity|reflexivity|].
  apply (W TField); [apply wf_tokenb_sound; reflexivity|reflexivity|].
  apply (W (TIdentifier f)); [exact Hf|reflexivity|].
  apply (W TColon); [apply wf_tokenb_sound; reflexivity|reflexivity|].
  apply (Hd U _ 0); [apply space_layout| |reflexivity].
  apply (W TEquals); [apply wf_tokenb_sound; reflexivity|reflexivity|].
  apply (W (TIdentifier (lit "e"))); [apply wf_tokenb_sound; reflexivity|reflexivity|].
  apply wr_end. exists [], 0. split; [constructor|left; reflexivity].
Qed.
Lemma field_text_value U debug n f d toks t x ty :
  wf_token (TCustomIdentifier n) -> wf_token (TIdentifier f) -> text_of toks d ->
  k_type t = true -> says_type t x -> denotes x ty -> canonical (w_type t) = toks ->
  from_str U debug (field_text n f d) = RValue (mkContract n [] [mkField f ty] []).
Proof.
  intros Hn Hf Hd Hk Hs Ht <-.
  apply (C22_field_type U debug n f t e_expr x ty); [exact Hk|reflexivity|exact Hs|exact Ht|].
  exact (field_text_written U n f d (canonical (w_type t)) Hn Hf Hd).
Qed.

(** A field of type [ByStr<digits>], for every digit string. *)
Definition plain_type (n : str) : NodeScillaType := GenericTypeWithArgs (w0 (head_of n)) [].
Lemma plain_type_says n : says_type (plain_type n) (TName n []).
Proof. apply st_generic; [apply head_plain|constructor]. Qed.
Lemma plain_type_ok n : k_type (plain_type n) = true.
Proof. cbn [plain_type k_type]. cbn [node w0 forallb]. rewrite head_ok. reflexivity. Qed.
Lemma plain_type_written n : str_eqb n (lit "Map") = false -> canonical (w_type (plain_type n)) = [name_token n].
Proof. intro H. cbn [plain_type w_type flat_map]. cbn [node w0]. rewrite app_nil_r. apply head_written, H. Qed.
Lemma sized_token ds : ds <> [] -> all_digits ds -> name_token (lit "ByStr" ++ ds) = TByStrWithSize (lit "ByStr" ++ ds).
Proof.
  intros Hne Hd. destruct ds as [|c r]; [congruence|]. unfold name_token.
  rewrite (str_eqb_neq _ (lit "Map")) by discriminate. rewrite (str_eqb_neq _ (lit "ByStr")) by discriminate.
  unfold is_sized. rewrite strip_prefix_app.
  assert (Ed : forallb is_digit (c :: r) = true) by (apply forallb_forall; rewrite <- Forall_forall; exact Hd).
  change ((if forallb is_digit (c :: r) then TByStrWithSize (lit "ByStr" ++ c :: r) else TCustomIdentifier (lit "ByStr" ++ c :: r)) = TByStrWithSize (lit "ByStr" ++ c :: r)).
  rewrite Ed. reflexivity.
Qed.
Theorem C33_bystr_sizes : forall U debug n f ds,
  wf_token (TCustomIdentifier n) -> wf_token (TIdentifier f) -> ds <> [] -> all_digits ds ->
  from_str U debug (lit "scilla_version 0 contract " ++ n ++ lit " () field " ++ f ++ lit " : ByStr" ++ ds ++ lit " = e")
  = RValue (mkContract n [] [mkField f (bystr_type ds)] []).
Proof.
  intros U debug n f ds Hn Hf Hne Hd.
  rewrite <- (field_text_value U debug n f (lit "ByStr" ++ ds) [TByStrWithSize (lit "ByStr" ++ ds)] (plain_type (lit "ByStr" ++ ds)) (TName (lit "ByStr" ++ ds) []) (bystr_type ds)
    Hn Hf); [reflexivity|apply (one_text (TByStrWithSize (lit "ByStr" ++ ds))); [apply wf_bystr_size; assumption|intros; assumption]|apply plain_type_ok|apply plain_type_says|apply bystr_denotes; assumption|].
  rewrite plain_type_written by reflexivity. now rewrite sized_token.
Qed.
(** decimal notation and its inverse *)
Lemma decimal_app a b : decimal (a ++ b) = fold_left (fun a c => a * 10 + (c - 48)) b (decimal a).
Proof. unfold decimal. apply fold_left_app. Qed.
Corollary C33_leading_zeros : forall ds, decimal (lit "0" ++ ds) = decimal ds.
Proof. reflexivity. Qed.
Example C33_witness : bystr_type (lit "33") = ByStrX 33 /\ bystr_type (lit "20") = ByStr20 /\ bystr_type (lit "020") = ByStrX 20
  /\ bystr_type (lit "18446744073709551615") = ByStrX (2 ^ 64 - 1)
  /\ bystr_type (lit "18446744073709551616") = Other (lit "ByStr18446744073709551616").
Proof. repeat split; reflexivity. Qed.

(** ** C35: [Display] *)

(** Types whose display is Scilla again: no [Map] and no address type with
    fields anywhere; names of other types are upper-case identifiers without a
    meaning of their own (or a [ByStr] with a size that is too large, which is
    reported as [Other]). *)
Inductive printable : ty -> Prop :=
| pr_base n t : base_name n t -> printable t
| pr_bystr20 : printable ByStr20
| pr_bystrx n : n < 2 ^ 64 -> n <> 20 -> printable (ByStrX n)
| pr_address kind : kind = lit "" \/ kind = lit "contract" \/ kind = lit "library" \/ wf_token (TSpecialIdentifier kind) ->
    printable (ByStr20With kind [])
| pr_option t : printable t -> printable (TyOption t)
| pr_list t : printable t -> printable (TyList t)
| pr_pair a b : printable a -> printable b -> printable (TyPair a b)
| pr_other n : wf_token (TCustomIdentifier n) -> (forall t, ~ base_name n t) -> ~ constructor_name n -> printable (Other n)
| pr_big ds : ds <> [] -> all_digits ds -> 2 ^ 64 <= decimal ds -> printable (Other (lit "ByStr" ++ ds)).

Definition displays (t : ty) : Prop := exists toks x, denotes x t /\ text_of toks (ty_display t)
  /\ (exists nd, k_type nd = true /\ says_type nd x /\ canonical (w_type nd) = toks)
  /\ (exists a, k_arg a = true /\ says_arg a x /\ canonical (w_arg a) = toks).

Lemma text_app t1 t2 d1 d2 : text_of t1 d1 -> text_of t2 d2 -> text_of (t1 ++ t2) (d1 ++ lit " " ++ d2).
Proof.
  intros H1 H2 U g m rest text Hg Hr Hn. rewrite <- !app_assoc. apply (H1 U g m); [exact Hg| |reflexivity].
  apply (H2 U (lit " ") 0); [apply space_layout|exact Hr|exact Hn].
Qed.
Lemma text_parens toks d : text_of toks d -> (forall r, not_followed_by (fun c => c =? 42) (d ++ r)) ->
  text_of (TOpenParen :: toks ++ [TCloseParen]) (lit "(" ++ d ++ lit ")").
Proof.
  intros Hd Hp U g m rest text Hg Hr Hn. cbn [app]. rewrite <- !app_assoc.
  apply (wr_tok U g m TOpenParen _ (d ++ lit ")" ++ text) Hg); [apply wf_tokenb_sound; reflexivity|apply Hp|].
  apply (Hd U [] 0); [constructor| |reflexivity].
  apply (wr_tok U [] 0 TCloseParen _ text lay_nil); [apply wf_tokenb_sound; reflexivity|exact I|exact Hr].
Qed.

Lemma displays_plain n t : denotes (TName n []) t -> ty_display t = n -> str_eqb n (lit "Map") = false ->
  token_text (name_token n) = n -> wf_token (name_token n) -> (forall U r, not_followed_by (word_char U) r -> may_follow U (name_token n) r) ->
  displays t.
Proof.
  intros Hd Ht Hm Htt Hw Hf. exists [name_token n], (TName n []). split; [exact Hd|]. split; [pose proof (one_text (name_token n) Hw Hf) as G; rewrite Htt in G; rewrite Ht; exact G|]. split.
  - exists (plain_type n). split; [apply plain_type_ok|]. split; [apply plain_type_says|apply plain_type_written, Hm].
  - exists (GenericTypeArgument (w0 (head_of n))). split; [cbn [k_arg node w0]; apply head_ok|].
    split; [apply sa_plain; apply head_plain|cbn [w_arg node w0]; apply head_written, Hm].
Qed.
Definition applied (n : str) (args : list NodeTypeArgument) : NodeScillaType := GenericTypeWithArgs (w0 (head_of n)) (map w0 args).
Lemma displays_applied t (x : texp) nd toks d : denotes x t -> ty_display t = lit "(" ++ d ++ lit ")" ->
  (forall r, not_followed_by (fun c => c =? 42) (d ++ r)) -> text_of toks d ->
  k_type nd = true -> says_type nd x -> canonical (w_type nd) = toks -> displays t.
Proof.
  intros Hd Ht Hp Htx Hk Hs Hw. exists (TOpenParen :: toks ++ [TCloseParen]), x. split; [exact Hd|].
  split; [rewrite Ht; apply text_parens; assumption|].
  assert (Hc : canonical (P TOpenParen :: w_type nd ++ [P TCloseParen]) = TOpenParen :: toks ++ [TCloseParen]).
  { rewrite canonical_cons, canonical_app, Hw. reflexivity. }
  split.
  - exists (EnclosedType (w0 nd)). split; [exact Hk|]. split; [apply st_enclosed, Hs|exact Hc].
  - exists (EnclosedTypeArgument (w0 nd)). split; [exact Hk|]. split; [apply sa_enclosed, Hs|exact Hc].
Qed.
Lemma wf_name n t : base_name n t -> wf_token (name_token n) /\ token_text (name_token n) = n
  /\ (forall U r, not_followed_by (word_char U) r -> may_follow U (name_token n) r) /\ ty_display t = n /\ str_eqb n (lit "Map") = false.
Proof. destruct 1; (split; [apply wf_tokenb_sound; vm_compute; reflexivity|]); repeat split; auto. Qed.

(** [dec n] is the decimal notation of [n] *)
Lemma uint_chars_acc u : forall p, fold_left (fun a c => a * 10 + (c - 48)) (uint_chars u) (Npos p) = Npos (Pos.of_uint_acc u p).
Proof.
  induction u; intro p; cbn [uint_chars fold_left Pos.of_uint_acc]; [reflexivity|..]; rewrite <- IHu; f_equal; cbn [N.sub Pos.sub]; lia.
Qed.
Lemma uint_chars_decimal u : decimal (uint_chars u) = N.of_uint u.
Proof.
  unfold decimal. induction u; cbn [uint_chars fold_left]; [reflexivity|exact IHu|..];
    match goal with |- fold_left _ _ ?a = _ => let v := eval compute in a in change a with v end; rewrite uint_chars_acc; reflexivity.
Qed.
Lemma uint_chars_digits u : all_digits (uint_chars u).
Proof. induction u; constructor; first [reflexivity|assumption]. Qed.
Lemma dec_decimal n : decimal (dec n) = n.
Proof. unfold dec. rewrite uint_chars_decimal. apply DecimalN.Unsigned.of_to. Qed.
Lemma dec_digits n : all_digits (dec n).
Proof. apply uint_chars_digits. Qed.
Lemma dec_nonempty n : dec n <> [].
Proof.
  unfold dec. destruct (N.to_uint n) eqn:E; try discriminate. exfalso. destruct n as [|p]; [discriminate|].
  cbn in E. pose proof (DecimalPos.Unsigned.of_to p) as H. rewrite E in H. discriminate.
Qed.
Lemma dec_20 n : n <> 20 -> dec n <> lit "20".
Proof. intros H E. apply H. rewrite <- (dec_decimal n), E. reflexivity. Qed.

Lemma displays_sized ds t : ds <> [] -> all_digits ds -> bystr_type ds = t -> ty_display t = lit "ByStr" ++ ds -> displays t.
Proof.
  intros Hne Hd Hb Ht. apply (displays_plain (lit "ByStr" ++ ds)); [subst t; apply bystr_denotes; assumption|exact Ht|reflexivity|..];
    rewrite (sized_token ds Hne Hd); [reflexivity|apply wf_bystr_size; assumption|auto].
Qed.
Lemma custom_name n : wf_token (TCustomIdentifier n) -> name_token n = TCustomIdentifier n /\ str_eqb n (lit "Map") = false
  /\ forall k, ~ sized_bystr n k.
Proof.
  intro H. inversion H as [w t Hk|w t Hk| | | | | | |c s Hu Hw Hkw Hb| | |]; subst.
  - exfalso. clear -Hk. cbn in Hk. repeat (destruct Hk as [Hk|Hk]; [discriminate Hk|]). exact Hk.
  - exfalso. clear -Hk. cbn in Hk. repeat (destruct Hk as [Hk|Hk]; [discriminate Hk|]). exact Hk.
  - assert (Nm : c :: s <> lit "Map"). { intro E. apply Hkw. rewrite E. apply in_map_iff. exists (lit "Map", TMap). split; [reflexivity|]. cbn. tauto. }
    assert (Nb : c :: s <> lit "ByStr"). { intro E. exact (Hb [] E). }
    assert (Ns : is_sized (c :: s) = false).
    { unfold is_sized. destruct (strip_prefix (lit "ByStr") (c :: s)) as [r|] eqn:E; [|reflexivity]. apply strip_prefix_some in E. destruct (Hb r E). }
    unfold name_token. rewrite (str_eqb_neq _ _ Nm), (str_eqb_neq _ _ Nb), Ns. split; [reflexivity|]. split; [reflexivity|].
    intros k (plus & ds & E & _). exact (Hb _ E).
Qed.
Lemma address_text kind : kind = lit "" \/ kind = lit "contract" \/ kind = lit "library" \/ wf_token (TSpecialIdentifier kind) ->
  text_of (TByStrWithSize (lit "ByStr20") :: TWith :: canonical_kind kind ++ [TEnd]) (lit "ByStr20 with " ++ kind ++ lit " end").
Proof.
  intros Hk U g m rest text Hg Hr Hn.
  assert (W : forall t rest text, wf_token t -> may_follow U t text -> written U rest text -> written U (t :: rest) (lit " " ++ token_text t ++ text)).
  { intros t rest' text'. exact (wr_tok U (lit " ") 0 t rest' text' space_layout). }
  assert (WE : written U (TEnd :: rest) (lit " " ++ lit "end" ++ text)).
  { apply (W TEnd); [apply wf_tokenb_sound; reflexivity|exact Hn|exact Hr]. }
  assert (E : g ++ (lit "ByStr20 with " ++ kind ++ lit " end") ++ text = g ++ lit "ByStr20" ++ lit " " ++ lit "with" ++ lit " " ++ kind ++ lit " " ++ lit "end" ++ text).
  { cbn. rewrite <- app_assoc. reflexivity. }
  rewrite E. clear E. cbn [app].
  apply (wr_tok U g m (TByStrWithSize (lit "ByStr20")) _ _ Hg); [apply wf_tokenb_sound; reflexivity|reflexivity|].
  apply (W TWith); [apply wf_tokenb_sound; reflexivity|reflexivity|]. rewrite <- app_assoc.
  destruct Hk as [-> |[-> |[-> |Hk]]].
  - cbn [canonical_kind]. change (canonical_kind (lit "")) with (@nil token). cbn [app].
    apply (wr_tok U (lit "  ") 0 TEnd rest text); [|apply wf_tokenb_sound; reflexivity|exact Hn|exact Hr].
    exact (lay_space 32 _ 0 eq_refl space_layout).
  - apply (W TContract); [apply wf_tokenb_sound; reflexivity|reflexivity|exact WE].
  - apply (W TLibrary); [apply wf_tokenb_sound; reflexivity|reflexivity|exact WE].
  - assert (Ek : canonical_kind kind = [TSpecialIdentifier kind]).
    { unfold canonical_kind. inversion Hk as [w t Hi|w t Hi| | | | | | | |s Hs Hw| |]; subst.
      - exfalso. clear -Hi. cbn in Hi. repeat (destruct Hi as [Hi|Hi]; [discriminate Hi|]). exact Hi.
      - exfalso. clear -Hi. cbn in Hi. repeat (destruct Hi as [Hi|Hi]; [discriminate Hi|]). exact Hi.
      - rewrite (str_eqb_neq _ (lit "")), (str_eqb_neq _ (lit "contract")), (str_eqb_neq _ (lit "library")) by discriminate. reflexivity. }
    rewrite Ek. apply (W (TSpecialIdentifier kind)); [exact Hk|reflexivity|exact WE].
Qed.

Lemma printable_displays t : printable t -> displays t.
Proof.
  induction 1 as [n t Hb| |n Hl Hn|kind Hk|t _ IH|t _ IH|a b _ IHa _ IHb|n Hw Hb Hc|ds Hne Hd Hl].
  - destruct (wf_name n t Hb) as (H1 & H2 & H3 & H4 & H5). apply (displays_plain n); try assumption. apply d_base; [exact Hb|constructor].
  - apply (displays_sized (lit "20")); [discriminate|repeat constructor|reflexivity|reflexivity].
  - apply (displays_sized (dec n)); [apply dec_nonempty|apply dec_digits| |reflexivity]. unfold bystr_type.
    rewrite (str_eqb_neq _ _ (dec_20 n Hn)), dec_decimal. apply N.ltb_lt in Hl. rewrite Hl. reflexivity.
  - exists (TByStrWithSize (lit "ByStr20") :: TWith :: canonical_kind kind ++ [TEnd]), (TAddr (lit "ByStr20") kind []).
    split; [apply d_address; constructor|]. split; [apply address_text, Hk|].
    set (a := mkAddressType (w0 (tni_of (lit "ByStr20"))) (w0 kind) []).
    assert (Hc : canonical (w_addr a) = TByStrWithSize (lit "ByStr20") :: TWith :: canonical_kind kind ++ [TEnd]) by reflexivity.
    assert (Hs : says_address a (TAddr (lit "ByStr20") kind [])) by (constructor; [apply tni_plain|constructor]).
    split; [exists (ScillaAddresseType (w0 a))|exists (AddressTypeArgument (w0 a))]; (split; [reflexivity|]); (split; [constructor; exact Hs|exact Hc]).
  - destruct IH as (toks & x & Hd & Ht & _ & (a & Ka & Sa & Wa)).
    apply (displays_applied _ (TName (lit "Option") [x]) (applied (lit "Option") [a]) (TCustomIdentifier (lit "Option") :: toks) (lit "Option" ++ lit " " ++ ty_display t));
      try reflexivity.
    + apply (d_option [] x t); [constructor|exact Hd].
    + apply (text_app [_]); [|exact Ht]. apply (one_text (TCustomIdentifier (lit "Option"))); [apply wf_tokenb_sound; reflexivity|auto].
    + cbn [applied k_type map forallb]. cbn [node w0]. rewrite Ka. reflexivity.
    + constructor; [apply head_plain|]. constructor; [exact Sa|constructor].
    + cbn [applied w_type map flat_map]. cbn [node w0]. rewrite app_nil_r, canonical_app, Wa. reflexivity.
  - destruct IH as (toks & x & Hd & Ht & _ & (a & Ka & Sa & Wa)).
    apply (displays_applied _ (TName (lit "List") [x]) (applied (lit "List") [a]) (TCustomIdentifier (lit "List") :: toks) (lit "List" ++ lit " " ++ ty_display t));
      try reflexivity.
    + apply (d_list [] x t); [constructor|exact Hd].
    + apply (text_app [_]); [|exact Ht]. apply (one_text (TCustomIdentifier (lit "List"))); [apply wf_tokenb_sound; reflexivity|auto].
    + cbn [applied k_type map forallb]. cbn [node w0]. rewrite Ka. reflexivity.
    + constructor; [apply head_plain|]. constructor; [exact Sa|constructor].
    + cbn [applied w_type map flat_map]. cbn [node w0]. rewrite app_nil_r, canonical_app, Wa. reflexivity.
  - destruct IHa as (toks & x & Hd & Ht & _ & (a' & Ka & Sa & Wa)). destruct IHb as (toks2 & x2 & Hd2 & Ht2 & _ & (a2 & Ka2 & Sa2 & Wa2)).
    apply (displays_applied _ (TName (lit "Pair") [x; x2]) (applied (lit "Pair") [a'; a2]) ([TCustomIdentifier (lit "Pair")] ++ toks ++ toks2)
      (lit "Pair" ++ lit " " ++ ty_display a ++ lit " " ++ ty_display b)); try reflexivity.
    + apply (d_pair [] x x2 a b); [constructor|exact Hd|exact Hd2].
    + cbn [ty_display]. cbn. rewrite <- !app_assoc. reflexivity.
    + apply text_app; [|apply text_app; assumption]. apply (one_text (TCustomIdentifier (lit "Pair"))); [apply wf_tokenb_sound; reflexivity|auto].
    + cbn [applied k_type map forallb]. cbn [node w0]. rewrite Ka, Ka2. reflexivity.
    + constructor; [apply head_plain|]. constructor; [exact Sa|]. constructor; [exact Sa2|constructor].
    + cbn [applied w_type map flat_map]. cbn [node w0]. rewrite app_nil_r, !canonical_app, Wa, Wa2. reflexivity.
  - destruct (custom_name n Hw) as (Hn & Hm & Hs). apply (displays_plain n); try rewrite Hn; try assumption; try reflexivity; [|auto].
    apply d_other; [exact Hb|exact Hc|exact Hs|constructor].
  - apply (displays_sized ds _ Hne Hd); [|reflexivity]. unfold bystr_type.
    assert (Nd : str_eqb ds (lit "20") = false). { apply str_eqb_neq. intros ->. vm_compute in Hl. apply Hl. reflexivity. }
    rewrite Nd. apply N.ltb_ge in Hl. rewrite Hl. reflexivity.
Qed.

(** A field annotated with the display of a printable type has that type. *)
Theorem C35_display_round_trip : forall U debug n f t,
  wf_token (TCustomIdentifier n) -> wf_token (TIdentifier f) -> printable t ->
  from_str U debug (lit "scilla_version 0 contract " ++ n ++ lit " () field " ++ f ++ lit " : " ++ ty_display t ++ lit " = e")
  = RValue (mkContract n [] [mkField f t] []).
Proof.
  intros U debug n f t Hn Hf Hp. destruct (printable_displays t Hp) as (toks & x & Hd & Ht & (nd & Hk & Hs & Hw) & _).
  exact (field_text_value U debug n f (ty_display t) toks nd x t Hn Hf Ht Hk Hs Hd Hw).
Qed.
Example C35_witness : printable (TyPair (TyOption (ByStrX 33)) (TyList (TyPair (Other (lit "My_T")) (ByStr20With (lit "contract") []))))
  /\ ty_display (TyPair (TyOption (ByStrX 33)) (TyList (TyPair (Other (lit "My_T")) (ByStr20With (lit "contract") []))))
     = lit "(Pair (Option ByStr33) (List (Pair My_T ByStr20 with contract end)))".
Proof.
  split; [|reflexivity]. apply pr_pair.
  - apply pr_option, pr_bystrx; [reflexivity|discriminate].
  - apply pr_list, pr_pair; [|apply pr_address; tauto]. apply pr_other.
    + apply wf_tokenb_sound. vm_compute. reflexivity.
    + apply base_assoc_none. vm_compute. reflexivity.
    + unfold constructor_name. intros [H|[H|[H|[H|H]]]]; discriminate H.
Qed.
(** Not for all types: a map is printed with a comma, and the keyword of an
    address type with fields is glued to the first [field]. *)
Theorem C35_map_refuted : exists e,
  from_str U_none no_debug (field_text (lit "C") (lit "f") (ty_display (TyMap Int32 TyBool))) = RError e.
Proof. eexists. vm_compute. reflexivity. Qed.
Theorem C35_address_fields_refuted : exists e,
  from_str U_none no_debug (field_text (lit "C") (lit "f") (ty_display (ByStr20With (lit "contract") [mkField (lit "x") Int32]))) = RError e.
Proof. eexists. vm_compute. reflexivity. Qed.
