(** Property C50: the values [from_str] can return. *)
From Verif Require Import Chars Lexer LexerProofs LexSpec LexFacts LexWritten PropLexer Ast Grammar Cfg Parser GrammarLink Types Visitor Emitter
  Contract EmitSpec TypeFacts EmitSig EmitOk EmitSteps Print PrintFacts PrintRead PropPrint DerInv Spell SpellFacts Spaced PropParse2 PropEmit
  PropTypes Names Range EmitRange.

(** ** Everything returned is producible *)
Lemma derived_known A toks v : derives A toks v -> Forall (fun i => item_token i <> TUnknown) toks.
Proof.
  intro H. eapply Forall_impl; [|exact (proj1 der_kinds (Nt A) toks v H)]. cbv beta. intros i Hi E. apply Hi. rewrite E. reflexivity.
Qed.

Lemma matches_ok ps toks : matches ps toks -> Forall wf_lexed toks -> Forall okp ps.
Proof.
  induction 1 as [|t ps toks _ IH|l ps toks _ IH|l ps toks _ IH|s k ps toks Hk _ IH]; intro Hw.
  - constructor.
  - inversion Hw; subst. constructor; auto.
  - constructor; [exact I|auto].
  - apply Forall_app in Hw. constructor; [exact I|]. apply IH, Hw.
  - apply Forall_app in Hw. constructor; [|apply IH, Hw]. cbn [okp]. destruct Hk as [E|E|E|]; [auto|auto|auto|].
    destruct Hw as [Hw _]. inversion Hw as [|? ? Ht _]; subst. auto.
Qed.

Theorem C50_only_producible : forall U debug text c, from_str U debug text = RValue c -> producible c.
Proof.
  intros U debug text c H. destruct (ok_parts _ _ _ _ H) as (items & p & El & _ & Hd & Hp & He).
  pose proof (lex_wf U text items El (derived_known _ _ _ Hd)) as Hw.
  destruct (C41_ast_of_text U Program text p Hp) as (toks & Ht & Hm & Hk).
  assert (toks = map item_token items) as -> by (unfold tokens_of in Ht; rewrite El in Ht; now injection Ht as <-).
  apply matches_ok in Hm; [|apply Forall_map, Hw].
  rewrite emit_steps in He. destruct p as [ver im lib con]. cbv zeta in He.
  destruct (steps debug (node con) (first_state (node con))) as [[u|m] s| |] eqn:Es; try discriminate. injection He as <-.
  eapply contract_range; [|exact Es]. unfold ok_contract, good. cbn [write w_program writable k_program] in Hm, Hk.
  rewrite !andb_true_iff in Hk. split; [|apply Hk]. rewrite Forall_cons_iff, !Forall_app in Hm. apply Hm.
Qed.

(** ** Every producible value is returned, for some text *)
Definition plain_for (t : ty) (n : str) : Prop :=
  denotes (TName n []) t /\ str_eqb n (lit "Map") = false /\ wf_token (name_token n).
Lemma plain_sized ds : ds <> [] -> all_digits ds -> plain_for (bystr_type ds) (lit "ByStr" ++ ds).
Proof.
  intros Hne Hd. split; [now apply bystr_denotes|]. split; [destruct ds; [congruence|reflexivity]|].
  rewrite (sized_token ds Hne Hd). now apply wf_bystr_size.
Qed.
Lemma name_type_plain t : name_type t -> exists n, plain_for t n.
Proof.
  induction 1 as [n t Hb| |n Hl|s Hu Hb Hc|ds Hne Hd Hl].
  - exists n. destruct (wf_name n t Hb) as (H1 & _ & _ & _ & H5). split; [apply d_base; [exact Hb|constructor]|auto].
  - exists (lit "ByStr" ++ lit "20"). apply (plain_sized (lit "20")); [discriminate|repeat constructor].
  - exists (lit "ByStr" ++ lit "0" ++ dec n). assert (Hd : all_digits (lit "0" ++ dec n)) by (apply Forall_app; split; [repeat constructor|apply dec_digits]).
    assert (Hne : lit "0" ++ dec n <> []) by discriminate. pose proof (plain_sized _ Hne Hd) as H.
    assert (E : bystr_type (lit "0" ++ dec n) = ByStrX n); [|rewrite E in H; exact H].
    unfold bystr_type. rewrite C33_leading_zeros, dec_decimal. apply N.ltb_lt in Hl. rewrite Hl. reflexivity.
  - exists s. destruct (custom_name s Hu) as (Hn & Hm & Hs). split; [apply d_other; [exact Hb|exact Hc|exact Hs|constructor]|].
    split; [exact Hm|]. rewrite Hn. exact Hu.
  - exists (lit "ByStr" ++ ds). pose proof (plain_sized ds Hne Hd) as H.
    assert (E : bystr_type ds = Other (lit "ByStr" ++ ds)); [|rewrite E in H; exact H]. unfold bystr_type.
    assert (Nd : str_eqb ds (lit "20") = false). { apply str_eqb_neq. intros ->. vm_compute in Hl. apply Hl. reflexivity. }
    rewrite Nd. apply N.ltb_ge in Hl. rewrite Hl. reflexivity.
Qed.

Definition texp_for (t : ty) (x : texp) : Prop := denotes x t /\ spellable x = true /\ Forall wf_token (spell x).
Definition decls_for (fs : list field) (ds : list (str * texp)) : Prop :=
  denote_fields ds fs /\ decls_ok ds = true /\ Forall (fun d => wf_token (TIdentifier (fst d)) /\ Forall wf_token (spell (snd d))) ds.
Lemma enclose_wf x : Forall wf_token (spell x) -> Forall wf_token (enclose x (spell x)).
Proof.
  intro H. assert (Hp : Forall wf_token (TOpenParen :: spell x ++ [TCloseParen])).
  { constructor; [apply wf_tokenb_sound; reflexivity|]. apply Forall_app. split; [exact H|]. constructor; [apply wf_tokenb_sound; reflexivity|constructor]. }
  destruct x as [n [|a l]| |]; assumption.
Qed.
Lemma commas_wf l : Forall (Forall wf_token) l -> Forall wf_token (commas l).
Proof.
  induction 1 as [|x l Hx Hl IH]; [constructor|]. destruct l as [|y l]; [exact Hx|]. cbn [commas] in *. apply Forall_app. split; [exact Hx|].
  constructor; [apply wf_tokenb_sound; reflexivity|exact IH].
Qed.
Lemma kind_wf kind P : address_kind kind P -> Forall wf_token (canonical_kind kind).
Proof.
  assert (Hc : Forall wf_token (canonical_kind (lit "contract"))) by (apply wf_tokensb; reflexivity).
  intros [-> |[_ [-> |[-> |Hk]]]]; [exact Hc|constructor|apply wf_tokensb; reflexivity|].
  unfold canonical_kind. destruct (str_eqb kind (lit "")); [constructor|].
  destruct (str_eqb kind (lit "contract")); [apply wf_tokensb; reflexivity|].
  destruct (str_eqb kind (lit "library")); [apply wf_tokensb; reflexivity|]. constructor; [exact Hk|constructor].
Qed.
Lemma producible_spelled : (forall t, producible_type t -> exists x, texp_for t x)
  /\ (forall fs, producible_fields fs -> exists ds, decls_for fs ds /\ (fs = [] -> ds = [])).
Proof.
  apply producible_mutind.
  - intros t Hn. destruct (name_type_plain t Hn) as (n & Hd & Hm & Hw). exists (TName n []). split; [exact Hd|]. cbn [spellable forallb spell flat_map].
    rewrite Hm. split; [reflexivity|]. constructor; [exact Hw|constructor].
  - intros t _ (x & Hd & Hs & Hw). exists (TName (lit "Option") [x]). split; [apply (d_option [] x t); [constructor|exact Hd]|].
    cbn [spellable forallb spell flat_map]. rewrite Hs. split; [reflexivity|]. constructor; [apply wf_tokenb_sound; reflexivity|].
    rewrite app_nil_r. now apply enclose_wf.
  - intros t _ (x & Hd & Hs & Hw). exists (TName (lit "List") [x]). split; [apply (d_list [] x t); [constructor|exact Hd]|].
    cbn [spellable forallb spell flat_map]. rewrite Hs. split; [reflexivity|]. constructor; [apply wf_tokenb_sound; reflexivity|].
    rewrite app_nil_r. now apply enclose_wf.
  - intros a b _ (x & Hd & Hs & Hw) _ (y & Hd' & Hs' & Hw'). exists (TName (lit "Pair") [x; y]).
    split; [apply (d_pair [] x y a b); [constructor|exact Hd|exact Hd']|].
    cbn [spellable forallb spell flat_map]. rewrite Hs, Hs'. split; [reflexivity|]. constructor; [apply wf_tokenb_sound; reflexivity|].
    rewrite app_nil_r. apply Forall_app. split; now apply enclose_wf.
  - intros a b Ha _ (y & Hd' & Hs' & Hw'). destruct (name_type_plain a Ha) as (n & Hd & Hm & Hw).
    exists (TName (lit "Map") [TName n []; y]).
    split; [apply (d_map [] (TName n []) y a b); [constructor|exact Hd|exact Hd']|].
    cbn [spellable forallb spell flat_map is_plain]. rewrite Hm, Hs'. split; [reflexivity|]. constructor; [apply wf_tokenb_sound; reflexivity|].
    rewrite app_nil_r. apply Forall_app. split; [|now apply enclose_wf]. constructor; [exact Hw|constructor].
  - intros kind fs Hk _ (ds & (Hd & Hs & Hw) & Hnil). exists (TAddr (lit "ByStr20") kind ds). split; [apply d_address, Hd|]. split.
    + cbn [spellable]. change (negb (str_eqb (lit "ByStr20") (lit "Map"))) with true. change (negb (str_eqb (lit "ByStr20") (lit "ByStr"))) with true.
      cbn [andb]. assert (He : forallb (fun f : str * texp => let '(_, a) := f in spellable a) ds = true).
      { clear -Hs. unfold decls_ok in Hs. revert Hs. induction ds as [|[i a] ds IH]; [reflexivity|]. cbn. rewrite !andb_true_iff. intros [H1 H2]. auto. }
      rewrite He. destruct Hk as [-> |[Hk _]]; [destruct ds; reflexivity|]. rewrite (Hnil Hk). reflexivity.
    + cbn [spell]. constructor; [apply wf_tokenb_sound; reflexivity|]. constructor; [apply wf_tokenb_sound; reflexivity|].
      apply Forall_app. split; [eapply kind_wf, Hk|]. apply Forall_app. split; [|apply wf_tokensb; reflexivity].
      apply commas_wf. apply Forall_map. eapply Forall_impl; [|exact Hw]. intros [i a] [Hi Ha]. cbn [fst snd] in *.
      constructor; [apply wf_tokenb_sound; reflexivity|]. constructor; [exact Hi|]. constructor; [apply wf_tokenb_sound; reflexivity|exact Ha].
  - exists []. split; [|auto]. split; [constructor|]. split; [reflexivity|constructor].
  - intros n t l Hn _ (x & Hd & Hs & Hw) _ (ds & (Hd' & Hs' & Hw') & _). exists ((n, x) :: ds). split; [|discriminate].
    split; [constructor; assumption|]. split; [cbn; rewrite Hs; exact Hs'|]. constructor; [split; assumption|exact Hw'].
Qed.

Lemma head_token n : head_id n -> exists t, type_name_token n t /\ wf_token t.
Proof.
  intros [H|[(ds & Hne & Hd & ->)| ->]].
  - exists (TCustomIdentifier n). split; [constructor|exact H].
  - exists (TByStrWithSize (lit "ByStr" ++ ds)). split; [constructor|now apply wf_bystr_size].
  - exists TEventType. split; [now constructor|apply wf_tokenb_sound; reflexivity].
Qed.
Lemma params_wf ds : Forall (fun d => wf_token (TIdentifier (fst d)) /\ Forall wf_token (spell (snd d))) ds -> Forall wf_token (spell_params ds).
Proof.
  intro H. unfold spell_params. constructor; [apply wf_tokenb_sound; reflexivity|]. apply Forall_app. split; [|apply wf_tokensb; reflexivity].
  apply commas_wf, Forall_map. eapply Forall_impl; [|exact H]. intros d [Hi Ha]. unfold spell_decl. constructor; [exact Hi|].
  constructor; [apply wf_tokenb_sound; reflexivity|exact Ha].
Qed.
Lemma fields_spelled ds : decls_ok ds = true -> Forall (fun d => wf_token (TIdentifier (fst d)) /\ Forall wf_token (spell (snd d))) ds ->
  exists toks, spells_fields ds toks /\ Forall wf_token toks.
Proof.
  intros Hs Hw. induction Hw as [|d ds [Hi Ha] _ IH]; [exists []; split; constructor|]. cbn [decls_ok forallb] in Hs.
  apply andb_true_iff in Hs. destruct Hs as [Hs Hs']. destruct (IH Hs') as (toks & Ht & Htw).
  exists (TField :: spell_decl d ++ TEquals :: canonical (w_expr e_expr) ++ toks). split; [now apply sfs_cons|].
  constructor; [apply wf_tokenb_sound; reflexivity|]. apply Forall_app. split.
  - unfold spell_decl. constructor; [exact Hi|]. constructor; [apply wf_tokenb_sound; reflexivity|exact Ha].
  - constructor; [apply wf_tokenb_sound; reflexivity|]. apply Forall_app. split; [apply wf_tokensb; reflexivity|exact Htw].
Qed.
Lemma transitions_spelled ts : Forall (fun t => (lower_id (t_name t) \/ head_id (t_name t)) /\ producible_fields (t_params t)) ts ->
  exists dts toks, Forall2 (fun dt t => t_name t = fst dt /\ denote_fields (snd dt) (t_params t)) dts ts
    /\ spells_components dts toks /\ Forall wf_token toks.
Proof.
  induction 1 as [|t ts [Hn Hp] _ (dts & toks & H1 & H2 & H3)]; [exists [], []; repeat split; constructor|].
  destruct (proj2 producible_spelled _ Hp) as (ds & (Hd & Hs & Hw) & _).
  assert (Ht : exists k, (k = TIdentifier (t_name t) \/ type_name_token (t_name t) k) /\ wf_token k).
  { destruct Hn as [Hn|Hn]; [exists (TIdentifier (t_name t)); auto|]. destruct (head_token _ Hn) as (k & Hk & Hkw). eauto. }
  destruct Ht as (k & Hk & Hkw). exists ((t_name t, ds) :: dts), (TTransition :: k :: spell_params ds ++ canonical (w_body (mkComponentBody None)) ++ toks).
  split; [constructor; [auto|exact H1]|]. split; [now apply scs_transition|].
  constructor; [apply wf_tokenb_sound; reflexivity|]. constructor; [exact Hkw|]. apply Forall_app. split; [now apply params_wf|].
  apply Forall_app. split; [apply wf_tokensb; reflexivity|exact H3].
Qed.

Theorem C50_every_producible : forall c, producible c -> exists text, forall U debug, from_str U debug text = RValue c.
Proof.
  intros c (Hn & Hp & Hf & Ht). destruct (head_token _ Hn) as (k & Hk & Hkw).
  destruct (proj2 producible_spelled _ Hp) as (ps & (Pd & Ps & Pw) & _).
  destruct (proj2 producible_spelled _ Hf) as (fs & (Fd & Fs & Fw) & _).
  destruct (transitions_spelled _ Ht) as (ts & ttoks & Td & Ts & Tw). destruct (fields_spelled fs Fs Fw) as (ftoks & Fsp & Fsw).
  set (d := mkDescription (c_name c) ps fs ts).
  set (toks := TScillaVersion :: TNumber (lit "0") :: [] ++ [] ++ TContract :: k :: spell_params ps ++ [] ++ ftoks ++ ttoks).
  assert (Hsp : spells d toks).
  { apply (spells_contract d (lit "0") [] [] k [] ftoks ttoks); try (left; reflexivity); assumption. }
  exists (spaced toks). intros U debug. apply (C36_spelled_contract U debug _ d c toks Hsp).
  - repeat split; assumption.
  - apply spaced_written. unfold toks. cbn [app]. do 4 (constructor; [first [exact Hkw|apply wf_tokenb_sound; reflexivity]|]).
    apply Forall_app. split; [now apply params_wf|]. apply Forall_app. auto.
Qed.

(** The values [from_str] returns are exactly the producible ones. *)
Theorem C50_range : forall U debug c, (exists text, from_str U debug text = RValue c) <-> producible c.
Proof.
  intros U debug c. split.
  - intros (text & H). eapply C50_only_producible, H.
  - intro H. destruct (C50_every_producible c H) as (text & Ht). exists text. apply Ht.
Qed.

(** ** Both sides are inhabited *)
Definition odd_contract : contract :=
  mkContract (lit "Event") [mkField (lit "a") (ByStrX 20)]
    [mkField (lit "m") (TyMap (Other (lit "Key")) (TyOption (ByStr20With (lit "contract") [mkField (lit "x") ByStr20])))]
    [mkTransition (lit "lower") []; mkTransition (lit "ByStr32") [mkField (lit "u") (ByStr20With (lit "_codehash") [])]].
Example C50_witness : producible odd_contract.
Proof.
  assert (L : forall n, wf_tokenb (TIdentifier n) = true -> lower_id n) by (intro; apply wf_tokenb_sound).
  split; [right; right; reflexivity|]. split; [|split].
  - constructor; [apply L; reflexivity|apply pt_plain, nt_sized; reflexivity|constructor].
  - constructor; [apply L; reflexivity| |constructor]. apply pt_map.
    + apply nt_user; [apply wf_tokenb_sound; reflexivity|apply base_assoc_none; reflexivity|].
      intros [H|[H|[H|[H|H]]]]; discriminate H.
    + apply pt_option, pt_address; [left; reflexivity|]. constructor; [apply L; reflexivity|apply pt_plain, nt_bystr20|constructor].
  - constructor; [|constructor; [|constructor]].
    + split; [left; apply L; reflexivity|constructor].
    + split; [right; right; left; exists (lit "32"); repeat split; [discriminate|repeat constructor]|].
      constructor; [apply L; reflexivity| |constructor]. apply pt_address; [|constructor]. right. split; [reflexivity|].
      right. right. apply wf_tokenb_sound. reflexivity.
Qed.
(** No text has these as its value: a map with a compound key; a size of 64 bits
    or more as [ByStrX]; a type or a name that is a keyword. *)
Lemma one_field_type c f t : producible c -> c_fields c = [mkField f t] -> producible_type t /\ lower_id f.
Proof. intros (_ & _ & H & _) E. rewrite E in H. inversion H; subst. auto. Qed.
Theorem C50_excluded : forall U debug text c f t,
  from_str U debug text = RValue c -> c_fields c = [mkField f t] ->
  (forall a v, t <> TyMap (TyOption a) v) /\ (forall n, 2 ^ 64 <= n -> t <> ByStrX n)
  /\ (forall n, is_keyword n -> t <> Other n /\ f <> n) /\ t <> Other (lit "Option").
Proof.
  intros U debug text c f t H E. apply C50_only_producible in H. destruct (one_field_type c f t H E) as [Ht Hf].
  assert (Hb : forall n t', base_name n t' -> t = t' -> (forall a v, t <> TyMap a v) /\ (forall n, t <> ByStrX n) /\ (forall n, t <> Other n))
    by (intros n t' Hn ->; destruct Hn; repeat split; discriminate).
  split; [|split; [|split]].
  - intros a v ->. inversion Ht as [t' Hn| | | |k v' Hk Hv|]; subst.
    + inversion Hn as [n t' Hn'| | | |]; subst. destruct (Hb _ _ Hn' eq_refl) as [Hx _]. now apply (Hx (TyOption a) v).
    + inversion Hk as [n t' Hn'| | | |]; subst. inversion Hn'.
  - intros n Hn ->. inversion Ht as [t' Hn'| | | | |]; subst. inversion Hn' as [m t' Hb'| |m Hm| |]; subst; [inversion Hb'|lia].
  - intros n Hn. split.
    + intros ->. inversion Ht as [t' Hn'| | | | |]; subst. inversion Hn' as [m t' Hb'| | |m Hm|ds Hne Hd Hl]; subst; [inversion Hb'| |].
      * inversion Hm as [w t Hk|w t Hk| | | | | | |c' s Hu Hw Hkw Hby| | |]; subst; [| |auto].
        -- clear -Hk. cbn in Hk. repeat (destruct Hk as [Hk|Hk]; [discriminate Hk|]). exact Hk.
        -- clear -Hk. cbn in Hk. repeat (destruct Hk as [Hk|Hk]; [discriminate Hk|]). exact Hk.
      * clear -Hn. cbn in Hn. repeat (destruct Hn as [Hn|Hn]; [discriminate Hn|]). exact Hn.
    + intros ->. inversion Hf as [w t' Hk|w t' Hk| | | | | |c' s Hu Hw Hkw| | | |]; subst; [| |auto].
      * clear -Hk. cbn in Hk. repeat (destruct Hk as [Hk|Hk]; [discriminate Hk|]). exact Hk.
      * clear -Hk. cbn in Hk. repeat (destruct Hk as [Hk|Hk]; [discriminate Hk|]). exact Hk.
  - intros ->. inversion Ht as [t' Hn'| | | | |]; subst. inversion Hn' as [m t' Hb'| | |m Hm Hb' Hc|ds Hne Hd Hl Heq]; subst; [inversion Hb'|].
    apply Hc. left. reflexivity.
Qed.
