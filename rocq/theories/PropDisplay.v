(** C35 (all types a parse can give) and C52: [Display] of types. *)
From Verif Require Import Chars Lexer LexerProofs LexSpec LexFacts LexWritten PropLexer Ast Grammar Cfg Parser GrammarLink Types Visitor Emitter
  Contract EmitSpec TypeFacts EmitSig Print PrintFacts PrintRead PropPrint DerInv Spell SpellFacts Spaced PropParse2 PropEmit
  PropTypes Range Forbidden DebugFacts.

(** ** Specification *)

(** No [Map] and no address type with fields anywhere. *)
Fixpoint plain (t : ty) : bool :=
  match t with
  | TyMap _ _ | ByStr20With _ (_ :: _) => false
  | TyOption a | TyList a => plain a
  | TyPair a b => plain a && plain b
  | _ => true
  end.
(** [ByStr020] is read as [ByStrX(20)] and [ByStr20] as [ByStr20]; both are shown
    as [ByStr20]. *)
Fixpoint merge20 (t : ty) : ty :=
  match t with
  | ByStrX n => if n =? 20 then ByStr20 else ByStrX n
  | TyMap a b => TyMap (merge20 a) (merge20 b)
  | TyOption a => TyOption (merge20 a)
  | TyList a => TyList (merge20 a)
  | TyPair a b => TyPair (merge20 a) (merge20 b)
  | ByStr20With k fs => ByStr20With k (map (fun f => let '(mkField n ft) := f in mkField n (merge20 ft)) fs)
  | _ => t
  end.

(** The texts, form by form. *)
Theorem C52_texts :
  (forall n t, base_name n t -> ty_display t = n)
  /\ ty_display ByStr20 = lit "ByStr20"
  /\ (forall n, ty_display (ByStrX n) = lit "ByStr" ++ dec n)
  /\ (forall s, ty_display (Other s) = s)
  /\ (forall a, ty_display (TyOption a) = lit "(Option " ++ ty_display a ++ lit ")")
  /\ (forall a, ty_display (TyList a) = lit "(List " ++ ty_display a ++ lit ")")
  /\ (forall a b, ty_display (TyPair a b) = lit "(Pair " ++ ty_display a ++ lit " " ++ ty_display b ++ lit ")")
  /\ (forall k v, ty_display (TyMap k v) = lit "(Map " ++ ty_display k ++ lit ", " ++ ty_display v ++ lit ")")
  /\ (forall kind, ty_display (ByStr20With kind []) = lit "ByStr20 with " ++ kind ++ lit " end")
  /\ (forall kind n t, ty_display (ByStr20With kind [mkField n t])
        = lit "ByStr20 with " ++ kind ++ lit "field " ++ n ++ lit ": " ++ ty_display t ++ lit " end")
  /\ (forall kind n t f fs d, ty_display (ByStr20With [] (f :: fs)) = lit "ByStr20 with " ++ d ++ lit " end" ->
        ty_display (ByStr20With kind (mkField n t :: f :: fs))
        = lit "ByStr20 with " ++ kind ++ lit "field " ++ n ++ lit ": " ++ ty_display t ++ lit ", " ++ d ++ lit " end").
Proof.
  split; [intros n t H; destruct H; reflexivity|]. repeat split; intros; cbn [ty_display map join] in *; try reflexivity.
  - rewrite <- !app_assoc. reflexivity.
  - rewrite <- !app_assoc. apply app_inv_head in H. cbn [app] in H. apply app_inv_tail in H. rewrite <- H. reflexivity.
Qed.

(** ** Tokens of a display *)
Lemma text_cat t1 t2 d1 d2 : text_of t1 d1 -> text_of t2 d2 -> (forall U r, not_followed_by (word_char U) (d2 ++ r)) ->
  text_of (t1 ++ t2) (d1 ++ d2).
Proof.
  intros H1 H2 Hw U g m rest text Hg Hr Hn. rewrite <- !app_assoc. apply (H1 U g m); [exact Hg| |apply Hw].
  apply (H2 U [] 0); [constructor|exact Hr|exact Hn].
Qed.
Lemma text_space t d : text_of t d -> text_of t (lit " " ++ d).
Proof.
  intros H U g m rest text Hg Hr Hn. pose proof (H U (g ++ lit " ") (m + 0) rest text (layout_app _ _ _ _ Hg space_layout) Hr Hn) as G.
  rewrite <- !app_assoc in G |- *. exact G.
Qed.
Lemma text_word w : wf_token w -> (forall U r, not_followed_by (word_char U) r -> may_follow U w r) -> text_of [w] (token_text w).
Proof. apply one_text. Qed.
Lemma text_mark w s : wf_token w -> token_text w = s -> (forall U r, may_follow U w r) -> text_of [w] s.
Proof. intros Hw <- Hm. apply one_text; auto. Qed.

Definition name_kind (k : token) : Prop :=
  In (kind_of k) (map Some [KCustomIdentifier; KByStrWithSize; KByStr; KEventType]).
Lemma all_word_upper c s : is_upper c = true -> all_word s -> all_word (c :: s).
Proof. intros H Hs. constructor; [|exact Hs]. unfold is_word. rewrite H. destruct (is_lower c); reflexivity. Qed.

Lemma name_shown t : name_type t -> exists w, name_kind w /\ wf_token w /\ token_text w = ty_display t
  /\ (forall U r, not_followed_by (word_char U) r -> may_follow U w r).
Proof.
  assert (Hs : forall ds, ds <> [] -> all_digits ds -> exists w, name_kind w /\ wf_token w /\ token_text w = lit "ByStr" ++ ds
    /\ (forall U r, not_followed_by (word_char U) r -> may_follow U w r)).
  { intros ds Hne Hd. exists (TByStrWithSize (lit "ByStr" ++ ds)). split; [right; left; reflexivity|].
    split; [constructor; assumption|]. split; [reflexivity|auto]. }
  destruct 1 as [n t Hb| |n Hn|s Hu Hb Hc|ds Hne Hd Hl].
  - destruct (wf_name n t Hb) as (H1 & H2 & H3 & H4 & H5). exists (name_token n). rewrite H4. split; [|auto].
    unfold name_kind, name_token. rewrite H5. destruct (str_eqb n (lit "ByStr")); [cbn; tauto|]. destruct (is_sized n); cbn; tauto.
  - apply (Hs (lit "20")); [discriminate|repeat constructor].
  - apply (Hs (dec n)); [apply dec_nonempty|apply PropTypes.dec_digits].
  - exists (TCustomIdentifier s). split; [left; reflexivity|]. split; [exact Hu|]. split; [reflexivity|auto].
  - apply (Hs ds Hne Hd).
Qed.

(** A sequence of tokens that no phrase contains. *)
Definition bad (toks : list token) : Prop :=
  exists p x y z r, toks = p ++ [x; y; z] ++ r
    /\ ((x = TMap /\ name_kind y /\ z = TComma) \/ (exists s n, x = TByStrWithSize s /\ y = TWith /\ z = TIdentifier n)).
Lemma bad_app l m r : bad m -> bad (l ++ m ++ r).
Proof.
  intros (p & x & y & z & q & -> & H). exists (l ++ p), x, y, z, (q ++ r). split; [|exact H]. rewrite <- !app_assoc. reflexivity.
Qed.
Lemma bad_error A items p : bad (map item_token items) -> exists i, parse A (p ++ items) LEof = PErrToken i.
Proof.
  intros (pre & x & y & z & r & E & H).
  apply map_eq_app in E. destruct E as (l1 & l2 & -> & E1 & E2). apply map_eq_app in E2. destruct E2 as (l3 & l4 & -> & E3 & E4).
  assert (K : forall ks, map kind_of [x; y; z] = map Some ks -> never ks = true -> exists i, parse A (p ++ l1 ++ l3 ++ l4) LEof = PErrToken i).
  { intros ks Hk Hn. rewrite app_assoc. apply (never_error ks); [exact Hn|]. rewrite <- Hk, <- E3, map_map. reflexivity. }
  pose proof never_map_comma as Hm. cbn [forallb] in Hm. rewrite !andb_true_iff in Hm.
  destruct H as [(-> & Hy & ->)|(s & n & -> & -> & ->)].
  - unfold name_kind in Hy. destruct Hy as [Hy|[Hy|[Hy|[Hy|[]]]]].
    + apply (K [KMap; KCustomIdentifier; KComma]); [cbn [map]; rewrite <- Hy; reflexivity|apply Hm].
    + apply (K [KMap; KByStrWithSize; KComma]); [cbn [map]; rewrite <- Hy; reflexivity|apply Hm].
    + apply (K [KMap; KByStr; KComma]); [cbn [map]; rewrite <- Hy; reflexivity|apply Hm].
    + apply (K [KMap; KEventType; KComma]); [cbn [map]; rewrite <- Hy; reflexivity|apply Hm].
  - apply (K [KByStrWithSize; KWith; KIdentifier]); [reflexivity|apply never_with_name].
Qed.

Definition show_field (f : field) : str := let '(mkField n ft) := f in lit "field " ++ n ++ lit ": " ++ ty_display ft.
Lemma address_display k fs : ty_display (ByStr20With k fs) = lit "ByStr20 with " ++ k ++ join (lit ", ") (map show_field fs) ++ lit " end".
Proof. reflexivity. Qed.
Lemma show_start n t l : join (lit ", ") (map show_field (mkField n t :: l))
  = lit "field " ++ n ++ lit ": " ++ ty_display t ++ match l with [] => [] | _ => lit ", " ++ join (lit ", ") (map show_field l) end.
Proof. destruct l; cbn [map join show_field]; rewrite <- ?app_assoc, ?app_nil_r; reflexivity. Qed.

Lemma wf_contractfield : wf_token (TIdentifier (lit "contractfield")).
Proof. apply wf_tokenb_sound. vm_compute. reflexivity. Qed.

Lemma merge_printable t : producible_type t -> plain t = true -> printable (merge20 t).
Proof.
  induction 1 as [t H|t _ IH|t _ IH|a b _ IHa _ IHb|k v _ _ IH|kind fs Hk Hf]; cbn [plain merge20]; intro Hp; try discriminate.
  - destruct H as [n t Hb| |n Hl|s Hu Hb Hc|ds Hne Hd Hl].
    + apply (pr_base n). destruct Hb; exact Hb || constructor.
    + apply pr_bystr20.
    + cbn [merge20]. destruct (N.eqb_spec n 20); [apply pr_bystr20|apply pr_bystrx; assumption].
    + apply pr_other; assumption.
    + apply pr_big; assumption.
  - apply pr_option, IH, Hp.
  - apply pr_list, IH, Hp.
  - apply andb_prop in Hp. apply pr_pair; [apply IHa, Hp|apply IHb, Hp].
  - destruct fs; [|discriminate]. apply pr_address. destruct Hk as [-> |(_ & [-> |[-> |Hk]])]; tauto.
Qed.
Lemma merge_display t : ty_display (merge20 t) = ty_display t.
Proof.
  revert t. fix IH 1. destruct t; try reflexivity; cbn [merge20].
  - cbn [ty_display]. rewrite (IH t1), (IH t2). reflexivity.
  - destruct (N.eqb_spec n 20) as [-> |]; reflexivity.
  - rewrite !address_display. do 2 f_equal. f_equal. f_equal. rewrite map_map. induction fields as [|[n t] l IHl]; [reflexivity|].
    cbn [map]. rewrite IHl. f_equal. cbn [show_field]. rewrite (IH t). reflexivity.
  - cbn [ty_display]. rewrite (IH t). reflexivity.
  - cbn [ty_display]. rewrite (IH t1), (IH t2). reflexivity.
  - cbn [ty_display]. rewrite (IH t). reflexivity.
Qed.

Ltac wf := apply wf_tokenb_sound; vm_compute; reflexivity.
Lemma paren_not_star d r c s : d = c :: s -> c <> 42 -> not_followed_by (fun x => x =? 42) (d ++ r).
Proof. intros -> H. cbn. apply N.eqb_neq, H. Qed.

Lemma shown_tokens :
  (forall t, producible_type t -> exists toks, text_of toks (ty_display t) /\ (plain t = true \/ bad toks))
  /\ (forall fs, producible_fields fs -> forall f l, fs = f :: l ->
        exists toks d, join (lit ", ") (map show_field fs) = lit "field" ++ lit " " ++ d /\ text_of toks (lit " " ++ d)).
Proof.
  apply producible_mutind.
  - intros t H. destruct (name_shown t H) as (w & Hk & Hw & <- & Hf). exists [w]. split; [apply one_text; assumption|].
    left. destruct H; try reflexivity. destruct H; reflexivity.
  - intros t _ (toks & Ht & Hb). exists ([TOpenParen] ++ (TCustomIdentifier (lit "Option") :: toks) ++ [TCloseParen]). split.
    + cbn [ty_display]. change (lit "(Option ") with (lit "(" ++ lit "Option" ++ lit " "). rewrite <- !app_assoc, app_assoc with (l := lit "Option").
      rewrite app_assoc with (m := ty_display t). rewrite <- app_assoc with (l := lit "Option").
      apply text_parens; [|intro; reflexivity]. apply (text_app [_]); [|exact Ht]. apply (one_text (TCustomIdentifier (lit "Option"))); [wf|auto].
    + destruct Hb as [Hb|Hb]; [left; exact Hb|right]. apply (bad_app [TOpenParen; TCustomIdentifier (lit "Option")] _ [TCloseParen] Hb).
  - intros t _ (toks & Ht & Hb). exists ([TOpenParen] ++ (TCustomIdentifier (lit "List") :: toks) ++ [TCloseParen]). split.
    + cbn [ty_display]. change (lit "(List ") with (lit "(" ++ lit "List" ++ lit " "). rewrite <- !app_assoc, app_assoc with (l := lit "List").
      rewrite app_assoc with (m := ty_display t). rewrite <- app_assoc with (l := lit "List").
      apply text_parens; [|intro; reflexivity]. apply (text_app [_]); [|exact Ht]. apply (one_text (TCustomIdentifier (lit "List"))); [wf|auto].
    + destruct Hb as [Hb|Hb]; [left; exact Hb|right]. apply (bad_app [TOpenParen; TCustomIdentifier (lit "List")] _ [TCloseParen] Hb).
  - intros a b _ (ta & Ha & Ba) _ (tb & Hb & Bb). exists (TOpenParen :: ([TCustomIdentifier (lit "Pair")] ++ ta ++ tb) ++ [TCloseParen]). split.
    + cbn [ty_display].
      assert (E : lit "(Pair " ++ ty_display a ++ lit " " ++ ty_display b ++ lit ")"
        = lit "(" ++ (lit "Pair" ++ lit " " ++ ty_display a ++ lit " " ++ ty_display b) ++ lit ")").
      { cbn. rewrite <- !app_assoc. reflexivity. }
      rewrite E. apply text_parens; [|intro; reflexivity].
      apply text_app; [|apply text_app; assumption]. apply (one_text (TCustomIdentifier (lit "Pair"))); [wf|auto].
    + cbn [plain]. destruct Ba as [Ba|Ba]; [|right; rewrite <- !app_assoc; apply (bad_app [TOpenParen; TCustomIdentifier (lit "Pair")] _ _ Ba)].
      destruct Bb as [Bb|Bb]; [left; rewrite Ba, Bb; reflexivity|right].
      rewrite <- !app_assoc. pose proof (bad_app ([TOpenParen; TCustomIdentifier (lit "Pair")] ++ ta) _ [TCloseParen] Bb) as G.
      rewrite <- !app_assoc in G. exact G.
  - intros k v Hk _ (tv & Hv & _). destruct (name_shown k Hk) as (w & Hkind & Hw & Et & Hf).
    exists (TOpenParen :: ([TMap] ++ [w] ++ [TComma] ++ tv) ++ [TCloseParen]). split.
    + cbn [ty_display].
      assert (E : lit "(Map " ++ ty_display k ++ lit ", " ++ ty_display v ++ lit ")"
        = lit "(" ++ (lit "Map" ++ lit " " ++ ty_display k ++ lit "," ++ lit " " ++ ty_display v) ++ lit ")").
      { cbn. rewrite <- !app_assoc. reflexivity. }
      rewrite E. apply text_parens; [|intro; reflexivity].
      apply text_app; [apply (one_text TMap); [wf|auto]|]. apply text_cat; [rewrite <- Et; apply one_text; assumption| |reflexivity].
      apply text_app; [|exact Hv]. apply text_mark; [wf|reflexivity|constructor].
    + right. exists [TOpenParen], TMap, w, TComma, (tv ++ [TCloseParen]). split; [reflexivity|]. left. auto.
  - intros kind fs Hk Hf IH. destruct fs as [|f l].
    + exists (TByStrWithSize (lit "ByStr20") :: TWith :: canonical_kind kind ++ [TEnd]). split; [|left; reflexivity].
      apply address_text. destruct Hk as [-> |(_ & [-> |[-> |Hk]])]; tauto.
    + destruct (IH f l eq_refl) as (toks & d & E & Ht). destruct Hk as [-> |(Hn & _)]; [|discriminate].
      exists ([TByStrWithSize (lit "ByStr20")] ++ [TWith] ++ [TIdentifier (lit "contractfield")] ++ toks ++ [TEnd]). split.
      * rewrite address_display, E.
        assert (E' : lit "ByStr20 with " ++ lit "contract" ++ (lit "field" ++ lit " " ++ d) ++ lit " end"
          = lit "ByStr20" ++ lit " " ++ lit "with" ++ lit " " ++ lit "contractfield" ++ (lit " " ++ d) ++ lit " " ++ lit "end").
        { cbn. reflexivity. }
        rewrite E'. apply text_app; [apply (one_text (TByStrWithSize (lit "ByStr20"))); [wf|auto]|].
        apply text_app; [apply (one_text TWith); [wf|auto]|].
        apply text_cat; [apply (one_text (TIdentifier (lit "contractfield"))); [wf|auto]| |reflexivity].
        apply text_app; [exact Ht|]. apply (one_text TEnd); [wf|auto].
      * right. exists [], (TByStrWithSize (lit "ByStr20")), TWith, (TIdentifier (lit "contractfield")), (toks ++ [TEnd]). split; [reflexivity|].
        right. eauto.
  - intros f l E. discriminate.
  - intros n t l Hn _ (tt & Ht & _) _ IH f l0 E. injection E as <- <-. rewrite show_start.
    assert (H1 : text_of ([TIdentifier n] ++ TColon :: tt) (n ++ lit ":" ++ lit " " ++ ty_display t)).
    { apply text_cat; [apply (one_text (TIdentifier n)); [exact Hn|auto]| |reflexivity].
      intros U g m rest text Hg Hr Hnf. rewrite <- !app_assoc. apply (wr_tok U g m TColon); [exact Hg|wf|reflexivity|].
      apply (Ht U (lit " ") 0); [apply space_layout|exact Hr|exact Hnf]. }
    destruct l as [|f2 l2].
    + exists ([TIdentifier n] ++ TColon :: tt), (n ++ lit ": " ++ ty_display t). rewrite app_nil_r. split; [reflexivity|].
      apply text_space, H1.
    + destruct (IH f2 l2 eq_refl) as (toks & d & E & Hd). rewrite E.
      exists (([TIdentifier n] ++ TColon :: tt) ++ TComma :: TField :: toks), (n ++ lit ": " ++ ty_display t ++ lit ", " ++ lit "field" ++ lit " " ++ d).
      split; [reflexivity|]. apply text_space.
      assert (E' : n ++ lit ": " ++ ty_display t ++ lit ", " ++ lit "field" ++ lit " " ++ d
        = (n ++ lit ":" ++ lit " " ++ ty_display t) ++ lit "," ++ lit " " ++ lit "field" ++ lit " " ++ d).
      { rewrite <- !app_assoc. reflexivity. }
      rewrite E'. apply text_cat; [exact H1| |reflexivity].
      apply (text_app [TComma] (TField :: toks)); [apply text_mark; [wf|reflexivity|constructor]|].
      apply (text_cat [TField] toks); [apply (one_text TField); [wf|auto]|exact Hd|reflexivity].
Qed.

(** ** C35, for every type that a parse can give *)
Lemma field_text_refused U debug n f d toks : wf_token (TCustomIdentifier n) -> wf_token (TIdentifier f) ->
  text_of toks d -> bad toks -> exists i, from_str U debug (field_text n f d) = RError (ParseErrorToken i).
Proof.
  intros Hn Hf Ht Hb. generalize (written_tokens U _ _ (field_text_written U n f d toks Hn Hf Ht)).
  generalize (field_text n f d). intros text E. unfold tokens_of in E.
  unfold from_str, parse_str. destruct (lex U text) as [items e]. injection E as E ->.
  destruct (bad_error Program items []) as (i & Hi); [rewrite E; apply bad_app, Hb|]. cbn [app] in Hi. rewrite Hi. eauto.
Qed.
Lemma field_text_plain U debug n f t : wf_token (TCustomIdentifier n) -> wf_token (TIdentifier f) -> producible_type t ->
  plain t = true -> from_str U debug (field_text n f (ty_display t)) = RValue (mkContract n [] [mkField f (merge20 t)] []).
Proof.
  intros Hn Hf Hp Hpl. rewrite <- (merge_display t). unfold field_text.
  apply C35_display_round_trip; [exact Hn|exact Hf|]. apply merge_printable; assumption.
Qed.
Theorem C35_every_type : forall U debug n f t,
  wf_token (TCustomIdentifier n) -> wf_token (TIdentifier f) -> producible_type t ->
  let text := lit "scilla_version 0 contract " ++ n ++ lit " () field " ++ f ++ lit " : " ++ ty_display t ++ lit " = e" in
  if plain t then from_str U debug text = RValue (mkContract n [] [mkField f (merge20 t)] [])
  else exists i, from_str U debug text = RError (ParseErrorToken i).
Proof.
  intros U debug n f t Hn Hf Hp. cbv zeta. fold (field_text n f (ty_display t)).
  destruct (plain t) eqn:Hpl; [apply field_text_plain; assumption|].
  destruct (proj1 shown_tokens t Hp) as (toks & Ht & [H|Hb]); [congruence|]. exact (field_text_refused U debug n f _ toks Hn Hf Ht Hb).
Qed.

(** ** C52: different types are shown differently *)
Definition after_type (r : str) : Prop :=
  match r with [] => True | c :: r' => is_word c = false /\ (c = 32 -> match r' with 119 :: _ => False | _ => True end) end.
Definition same (t t' : ty) : Prop := merge20 t = merge20 t'.
Definition tcode (t : ty) : Prop := forall t' r r', producible_type t' -> after_type r -> after_type r' ->
  ty_display t ++ r = ty_display t' ++ r' -> same t t' /\ r = r'.
Definition merge_field (f : field) : field := let '(mkField n ft) := f in mkField n (merge20 ft).
Definition fcode (fs : list field) : Prop := forall fs' r r', producible_fields fs' ->
  join (lit ", ") (map show_field fs) ++ lit " end" ++ r = join (lit ", ") (map show_field fs') ++ lit " end" ++ r' ->
  map merge_field fs = map merge_field fs' /\ r = r'.

Lemma name_words t : name_type t -> exists c s, ty_display t = c :: s /\ is_upper c = true /\ all_word (c :: s).
Proof.
  assert (Hs : forall ds, all_digits ds -> exists c s, lit "ByStr" ++ ds = c :: s /\ is_upper c = true /\ all_word (c :: s)).
  { intros ds Hd. exists 66, (lit "yStr" ++ ds). split; [reflexivity|]. split; [reflexivity|].
    repeat (constructor; [reflexivity|]). eapply Forall_impl; [|exact Hd]. intros c Hc. unfold is_word. rewrite Hc.
    destruct (is_lower c), (is_upper c); reflexivity. }
  destruct 1 as [n t Hb| |n Hn|s Hu Hb Hc|ds Hne Hd Hl].
  - destruct Hb; cbn; do 2 eexists; (split; [reflexivity|]); (split; [reflexivity|repeat constructor]).
  - apply (Hs (lit "20")). repeat constructor.
  - apply Hs, PropTypes.dec_digits.
  - inversion Hu as [w t Hk|w t Hk| | | | | | |c s' Hup Hw _ _| | |]; subst.
    + exfalso. clear -Hk. cbn in Hk. repeat (destruct Hk as [Hk|Hk]; [discriminate Hk|]). exact Hk.
    + exfalso. clear -Hk. cbn in Hk. repeat (destruct Hk as [Hk|Hk]; [discriminate Hk|]). exact Hk.
    + exists c, s'. split; [reflexivity|]. split; [exact Hup|]. apply all_word_upper; assumption.
  - apply (Hs ds Hd).
Qed.

Lemma plain_same t t' : producible_type t -> producible_type t' -> plain t = true -> plain t' = true ->
  ty_display t = ty_display t' -> same t t'.
Proof.
  intros Hp Hp' Ht Ht' E.
  pose proof (C35_every_type U_none no_debug (lit "C") (lit "f") t ltac:(wf) ltac:(wf) Hp) as H.
  pose proof (C35_every_type U_none no_debug (lit "C") (lit "f") t' ltac:(wf) ltac:(wf) Hp') as H'.
  cbv zeta in H, H'. rewrite Ht in H. rewrite Ht' in H'. rewrite E, H' in H. injection H as H. symmetry. exact H.
Qed.
Lemma name_plain t : name_type t -> plain t = true.
Proof. destruct 1 as [n t Hb| | | |]; [destruct Hb|..]; reflexivity. Qed.

Lemma word_list s : all_word s -> Forall (fun c => is_word c = true) s.
Proof. auto. Qed.
Lemma lower_words n : lower_id n -> Forall (fun c => is_word c = true) n.
Proof.
  intro H. inversion H as [w t Hk|w t Hk| | | | | |c s Hl Hw _| | | |]; subst.
  - exfalso. clear -Hk. cbn in Hk. repeat (destruct Hk as [Hk|Hk]; [discriminate Hk|]). exact Hk.
  - exfalso. clear -Hk. cbn in Hk. repeat (destruct Hk as [Hk|Hk]; [discriminate Hk|]). exact Hk.
  - constructor; [|exact Hw]. unfold is_word. rewrite Hl. reflexivity.
Qed.
Lemma kind_words kind P : address_kind kind P -> Forall (fun c => is_word c = true) kind /\ kind <> lit "contractfield".
Proof.
  intros [-> |(_ & [-> |[-> |H]])]; try (split; [repeat constructor|discriminate]).
  inversion H as [w t Hk|w t Hk| | | | | | | |s Hne Hw| |]; subst.
  - exfalso. clear -Hk. cbn in Hk. repeat (destruct Hk as [Hk|Hk]; [discriminate Hk|]). exact Hk.
  - exfalso. clear -Hk. cbn in Hk. repeat (destruct Hk as [Hk|Hk]; [discriminate Hk|]). exact Hk.
  - split; [constructor; [reflexivity|exact Hw]|discriminate].
Qed.

(** A name, and an address type. *)
Lemma after_ends r : after_type r -> ends_word is_word r.
Proof. destruct r; cbn; tauto. Qed.
Lemma name_code t t' r r' : name_type t -> producible_type t' -> after_type r -> after_type r' ->
  ty_display t ++ r = ty_display t' ++ r' -> same t t' /\ r = r'.
Proof.
  intros Ht Hp' Hr Hr' E. destruct (name_words t Ht) as (c & s & Es & Hc & Hs). rewrite Es in E.
  pose proof Hp' as Hp2. destruct Hp' as [t' Ht'|t' _|t' _|a b _ _|k v _ _|kind fs Hk Hf].
  - destruct (name_words t' Ht') as (c' & s' & Es' & Hc' & Hs'). rewrite Es' in E.
    apply words_split with (p := is_word) in E; [|exact Hs|exact Hs'|apply after_ends, Hr|apply after_ends, Hr'].
    destruct E as [E ->]. split; [|reflexivity].
    apply plain_same; [apply pt_plain, Ht|exact Hp2|apply name_plain, Ht|apply name_plain, Ht'|congruence].
  - exfalso. cbn in E. injection E as -> _. discriminate Hc.
  - exfalso. cbn in E. injection E as -> _. discriminate Hc.
  - exfalso. cbn in E. injection E as -> _. discriminate Hc.
  - exfalso. cbn in E. injection E as -> _. discriminate Hc.
  - exfalso. rewrite address_display in E. rewrite <- !app_assoc in E.
    change (lit "ByStr20 with ") with (lit "ByStr20" ++ lit " with ") in E. rewrite <- app_assoc in E.
    apply words_split with (p := is_word) in E; [|exact Hs|repeat constructor|apply after_ends, Hr|reflexivity].
    destruct E as [_ ->]. cbn in Hr. tauto.
Qed.

(** What follows [with]. *)
Definition body (kind : str) (fs : list field) : str := kind ++ join (lit ", ") (map show_field fs) ++ lit " end".
Lemma body_code kind fs kind' fs' r r' : address_kind kind (fs = []) -> address_kind kind' (fs' = []) -> producible_fields fs' ->
  fcode fs -> body kind fs ++ r = body kind' fs' ++ r' -> kind = kind' /\ map merge_field fs = map merge_field fs' /\ r = r'.
Proof.
  intros Hk Hk' Hf' Hc E. unfold body in E. rewrite <- !app_assoc in E.
  assert (Hsplit : forall kd fs, address_kind kd (fs = []) ->
    exists w y, kd ++ join (lit ", ") (map show_field fs) = w ++ y
      /\ Forall (fun c => is_word c = true) w /\ (forall r, ends_word is_word (y ++ lit " end" ++ r))
      /\ (fs = [] -> w = kd /\ y = []) /\ (fs <> [] -> w = lit "contractfield" /\ kd = lit "contract")).
  { clear. intros kd fs Hk. destruct fs as [|[n t] l].
    - exists kd, []. split; [reflexivity|]. split; [apply (kind_words _ _ Hk)|]. split; [reflexivity|]. split; [auto|congruence].
    - destruct Hk as [-> |(H & _)]; [|discriminate]. rewrite show_start. exists (lit "contractfield").
      eexists. split; [reflexivity|]. split; [repeat constructor|]. split; [reflexivity|]. split; [discriminate|auto]. }
  destruct (Hsplit _ _ Hk) as (w & y & Ew & Hw & He & Hnil & Hcons), (Hsplit _ _ Hk') as (w' & y' & Ew' & Hw' & He' & Hnil' & Hcons').
  assert (Eww : w = w').
  { rewrite !app_assoc in E. rewrite <- !app_assoc with (m := lit " end") in E. rewrite Ew, Ew', <- !app_assoc in E.
    apply words_split with (p := is_word) in E; [tauto|exact Hw|exact Hw'|apply He|apply He']. }
  subst w'. assert (Ek : kind = kind').
  { destruct fs as [|f l], fs' as [|f' l'].
    - destruct (Hnil eq_refl), (Hnil' eq_refl). congruence.
    - exfalso. destruct (Hnil eq_refl) as [-> _], (Hcons' ltac:(discriminate)) as [Hb _]. apply (kind_words _ _ Hk), Hb.
    - exfalso. destruct (Hnil' eq_refl) as [-> _], (Hcons ltac:(discriminate)) as [Hb _]. apply (kind_words _ _ Hk'), Hb.
    - destruct (Hcons ltac:(discriminate)) as [_ ->], (Hcons' ltac:(discriminate)) as [_ ->]. reflexivity. }
  split; [exact Ek|]. subst kind'. apply app_inv_head in E. apply Hc; assumption.
Qed.

Lemma display_code :
  (forall t, producible_type t -> tcode t) /\ (forall fs, producible_fields fs -> fcode fs).
Proof.
  assert (Sy : forall t t' r r', name_type t' -> producible_type t -> after_type r -> after_type r' ->
    ty_display t ++ r = ty_display t' ++ r' -> same t t' /\ r = r').
  { intros t t' r r' Ht' Ht Hr Hr' E. destruct (name_code t' t r' r Ht' Ht Hr' Hr (eq_sym E)) as [H ->]. split; [symmetry; exact H|reflexivity]. }
  assert (Ap : forall r, after_type (41 :: r)) by (intro; split; [reflexivity|discriminate]).
  assert (Ac : forall r, after_type (44 :: r)) by (intro; split; [reflexivity|discriminate]).
  assert (Ab : forall t r, producible_type t -> after_type (32 :: ty_display t ++ r)).
  { intros t r Ht. split; [reflexivity|]. intros _. destruct Ht as [t Ht|t _|t _|a b _ _|k v _ _|kind fs Hk Hf]; try exact I.
    destruct (name_words t Ht) as (c & s & -> & Hc & _). cbn [app]. destruct (N.eq_dec c 119) as [-> |Hn]; [discriminate Hc|].
    destruct c as [|p]; [exact I|]. do 7 (destruct p as [p|p|]; try exact I). congruence. }
  apply producible_mutind.
  - intros t Ht t' r r' Hp' Hr Hr' E. apply (name_code t t' r r'); assumption.
  - intros t Hp IH t' r r' Hp' Hr Hr' E.
    destruct Hp' as [t' Ht'|t' Ht'|t' Ht'|a b Ha Hb|k v Hk Hv|kind fs Hk Hf]; try (cbn in E; discriminate E).
    + apply Sy; try assumption. apply pt_option, Hp.
    + cbn [ty_display] in E. rewrite <- !app_assoc in E. apply app_inv_head in E.
      apply IH in E; [|exact Ht'|apply Ap|apply Ap]. destruct E as [Es E]. cbn in E. injection E as ->. split; [|reflexivity].
      unfold same in *. cbn [merge20]. congruence.
  - intros t Hp IH t' r r' Hp' Hr Hr' E.
    destruct Hp' as [t' Ht'|t' Ht'|t' Ht'|a b Ha Hb|k v Hk Hv|kind fs Hk Hf]; try (cbn in E; discriminate E).
    + apply Sy; try assumption. apply pt_list, Hp.
    + cbn [ty_display] in E. rewrite <- !app_assoc in E. apply app_inv_head in E.
      apply IH in E; [|exact Ht'|apply Ap|apply Ap]. destruct E as [Es E]. cbn in E. injection E as ->. split; [|reflexivity].
      unfold same in *. cbn [merge20]. congruence.
  - intros a b Hpa IHa Hpb IHb t' r r' Hp' Hr Hr' E.
    destruct Hp' as [t' Ht'|t' Ht'|t' Ht'|a' b' Ha Hb|k v Hk Hv|kind fs Hk Hf]; try (cbn in E; discriminate E).
    + apply Sy; try assumption. apply pt_pair; assumption.
    + cbn [ty_display] in E. rewrite <- !app_assoc in E. apply app_inv_head in E.
      apply IHa in E; [|exact Ha|apply Ab, Hpb|apply Ab, Hb]. destruct E as [Ea E]. apply app_inv_head in E.
      apply IHb in E; [|exact Hb|apply Ap|apply Ap]. destruct E as [Eb E]. cbn in E. injection E as ->. split; [|reflexivity].
      unfold same in *. cbn [merge20]. congruence.
  - intros k v Hk Hpv IHv t' r r' Hp' Hr Hr' E.
    destruct Hp' as [t' Ht'|t' Ht'|t' Ht'|a' b' Ha Hb|k' v' Hk' Hv'|kind fs Hk' Hf]; try (cbn in E; discriminate E).
    + apply Sy; try assumption. apply pt_map; assumption.
    + cbn [ty_display] in E. rewrite <- !app_assoc in E. apply app_inv_head in E.
      apply name_code in E; [|exact Hk|apply pt_plain, Hk'|apply Ac|apply Ac]. destruct E as [Ea E]. apply app_inv_head in E.
      apply IHv in E; [|exact Hv'|apply Ap|apply Ap]. destruct E as [Eb E]. cbn in E. injection E as ->. split; [|reflexivity].
      unfold same in *. cbn [merge20]. congruence.
  - intros kind fs Hk Hpf IH t' r r' Hp' Hr Hr' E.
    destruct Hp' as [t' Ht'|t' Ht'|t' Ht'|a' b' Ha Hb|k' v' Hk' Hv'|kind' fs' Hk' Hf']; try (cbn in E; discriminate E).
    + apply Sy; try assumption. apply pt_address; assumption.
    + rewrite !address_display, <- !app_assoc in E. apply app_inv_head in E.
      destruct (body_code kind fs kind' fs' r r') as (-> & Em & ->); try assumption.
      { unfold body. rewrite <- !app_assoc. exact E. }
      split; [|reflexivity]. unfold same. cbn [merge20]. f_equal. exact Em.
  - intros fs' r r' Hf' E. destruct fs' as [|[n t] l].
    + apply app_inv_head in E. apply (app_inv_head (lit " end")) in E. auto.
    + exfalso. rewrite show_start in E. discriminate E.
  - intros n t l Hn Hp IHt Hpf IHl fs' r r' Hf' E. destruct Hf' as [|n' t' l' Hn' Hp' Hf'].
    + exfalso. rewrite show_start in E. discriminate E.
    + rewrite !show_start, <- !app_assoc in E. apply app_inv_head in E.
      apply words_split with (p := is_word) in E; [|apply lower_words, Hn|apply lower_words, Hn'|reflexivity|reflexivity].
      destruct E as [-> E]. apply app_inv_head in E.
      assert (Ae : forall (l : list field) r, after_type (match l with [] => [] | _ => lit ", " ++ join (lit ", ") (map show_field l) end ++ lit " end" ++ r)).
      { intros [|f m] x; [|apply Ac]. split; [reflexivity|]. intros _. exact I. }
      apply IHt in E; [|exact Hp'|apply Ae|apply Ae]. destruct E as [Et E].
      assert (Ef : map merge_field l = map merge_field l' /\ r = r').
      { destruct l as [|f m], l' as [|f' m']; [| | |].
        - apply app_inv_head in E. apply app_inv_head in E. auto.
        - exfalso. discriminate E.
        - exfalso. discriminate E.
        - rewrite <- !app_assoc in E. apply app_inv_head in E. apply IHl; assumption. }
      destruct Ef as [Ef ->]. split; [|reflexivity]. cbn [map merge_field]. rewrite Ef. f_equal. f_equal. exact Et.
Qed.

(** Two types that a parse can give and that are shown alike are the same, except
    for [ByStrX(20)] and [ByStr20]. *)
Theorem C52_display_distinguishes : forall t t', producible_type t -> producible_type t' ->
  (ty_display t = ty_display t' <-> merge20 t = merge20 t').
Proof.
  intros t t' Hp Hp'. split; intro E.
  - destruct (proj1 display_code t Hp t' [] [] Hp' I I) as [H _]; [rewrite !app_nil_r; exact E|exact H].
  - rewrite <- (merge_display t), <- (merge_display t'), E. reflexivity.
Qed.
(** Outside that range it is not so. *)
Theorem C52_all_types_refuted : exists t t', t <> t' /\ merge20 t <> merge20 t' /\ ty_display t = ty_display t'.
Proof. exists Int32, (Other (lit "Int32")). repeat split; discriminate. Qed.
Theorem C52_bystr20_twice : producible_type (ByStrX 20) /\ producible_type ByStr20 /\ ty_display (ByStrX 20) = ty_display ByStr20.
Proof. split; [apply pt_plain, nt_sized; reflexivity|]. split; [apply pt_plain, nt_bystr20|reflexivity]. Qed.

Example C52_witness : let t := TyMap (Other (lit "T")) (TyPair (ByStr20With (lit "contract") [mkField (lit "x") Int32; mkField (lit "y") (TyList TyBool)]) (ByStrX 20)) in
  producible_type t /\ plain t = false /\ merge20 t <> t
  /\ ty_display t = lit "(Map T, (Pair ByStr20 with contractfield x: Int32, field y: (List Bool) end ByStr20))".
Proof.
  cbv zeta. split; [|split; [reflexivity|split; [discriminate|reflexivity]]]. apply pt_map.
  - apply nt_user; [wf|apply base_assoc_none; vm_compute; reflexivity|]. unfold constructor_name. intros [H|[H|[H|[H|H]]]]; discriminate H.
  - apply pt_pair; [|apply pt_plain, nt_sized; reflexivity]. apply pt_address; [left; reflexivity|].
    apply pf_cons; [wf|apply pt_plain, (nt_base _ _ bn_i32)|]. apply pf_cons; [wf|apply pt_list, pt_plain, (nt_base _ _ bn_bool)|constructor].
Qed.
