(** What is spelled is a writable program that says what was described. *)
From Verif Require Import Chars Lexer Ast Grammar Types EmitSpec TypeFacts EmitSig Print Spell LexerProofs.

Fixpoint texp_ind' (P : texp -> Prop)
  (Hn : forall n args, Forall P args -> P (TName n args))
  (Ha : forall n k fs, Forall (fun f => P (snd f)) fs -> P (TAddr n k fs))
  (Hu : P TUnsupported) (x : texp) : P x :=
  match x with
  | TName n args => Hn n args ((fix go l : Forall P l :=
      match l with [] => Forall_nil _ | a :: r => Forall_cons _ (texp_ind' P Hn Ha Hu a) (go r) end) args)
  | TAddr n k fs => Ha n k fs ((fix go l : Forall (fun f => P (snd f)) l :=
      match l with [] => Forall_nil _ | (i, a) :: r => Forall_cons (i, a) (texp_ind' P Hn Ha Hu a) (go r) end) fs)
  | TUnsupported => Hu
  end.

Lemma canonical_app p q : canonical (p ++ q) = canonical p ++ canonical q.
Proof. apply flat_map_app. Qed.
Lemma canonical_cons p q : canonical (P p :: q) = p :: canonical q.
Proof. reflexivity. Qed.
Lemma canonical_flat {A} (f : A -> list piece) (g : A -> list token) l :
  Forall (fun a => canonical (f a) = g a) l -> canonical (flat_map f l) = flat_map g l.
Proof. induction 1 as [|a l H _ IH]; [reflexivity|]. cbn [flat_map]. rewrite canonical_app, H, IH. reflexivity. Qed.
Lemma canonical_sep c l : c = TComma -> canonical (sep c l) = commas (map canonical l).
Proof.
  intros ->. destruct l as [|x l]; [reflexivity|]. cbn [sep map commas]. rewrite canonical_app. revert x.
  induction l as [|y l IH]; intro x; [cbn; apply app_nil_r|]. cbn [flat_map map commas]. f_equal.
  change ((P TComma :: y) ++ flat_map (fun y0 => P TComma :: y0) l) with (P TComma :: (y ++ flat_map (fun y0 => P TComma :: y0) l)).
  rewrite canonical_cons, canonical_app. f_equal. apply IH.
Qed.

(** ** Names *)
Definition tni_of (n : str) : NodeTypeNameIdentifier :=
  if is_sized n then ByteStringType (BSType (w0 n)) else TypeOrEnumLikeIdentifier (w0 n).
Definition head_of (n : str) : NodeMetaIdentifier :=
  if str_eqb n (lit "ByStr") then MetaByteString else MetaName (w0 (tni_of n)).
Lemma tni_plain n : plain_name (tni_of n) n.
Proof. unfold tni_of. destruct (is_sized n); [apply (pn_bystr_type (w0 n))|apply (pn_type (w0 n))]. Qed.
Lemma tni_ok n : k_tni (tni_of n) = true.
Proof. unfold tni_of. destruct (is_sized n); reflexivity. Qed.
Lemma head_plain n : plain_head (head_of n) n.
Proof.
  unfold head_of. destruct (str_eqb n (lit "ByStr")) eqn:E; [apply str_eqb_eq in E; subst; constructor|].
  constructor. apply tni_plain.
Qed.
Lemma head_ok n : k_meta (head_of n) = true.
Proof. unfold head_of. destruct (str_eqb n (lit "ByStr")); [reflexivity|apply tni_ok]. Qed.
Lemma tni_written n : str_eqb n (lit "Map") = false -> str_eqb n (lit "ByStr") = false -> canonical (w_tni (tni_of n)) = [name_token n].
Proof. intros H1 H2. unfold name_token, tni_of. rewrite H1, H2. destruct (is_sized n); reflexivity. Qed.
Lemma head_written n : str_eqb n (lit "Map") = false -> canonical (w_meta (head_of n)) = [name_token n].
Proof.
  intro H. unfold head_of. destruct (str_eqb n (lit "ByStr")) eqn:E; [|apply tni_written; assumption].
  unfold name_token. rewrite H, E. reflexivity.
Qed.

(** ** Types *)
Definition as_type (x : texp) : Prop := exists t, k_type t = true /\ says_type t x /\ canonical (w_type t) = spell x.
Definition as_tva (x : texp) : Prop := exists t, k_tva t = true /\ says_tva t x /\ canonical (w_tva t) = spell x.

Lemma plain_map x : spellable x = true -> forall n, x = TName n [] -> str_eqb n (lit "Map") = false.
Proof. intros H n ->. cbn [spellable forallb] in H. destruct (str_eqb n (lit "Map")); [discriminate|reflexivity]. Qed.
Lemma plain_or x : (exists n, x = TName n []) \/ (forall toks, enclose x toks = TOpenParen :: toks ++ [TCloseParen]).
Proof. destruct x as [n [|a l]|n k fs|]; [left; eauto|right; reflexivity..]. Qed.

Lemma as_arg x : spellable x = true -> as_type x ->
  exists a, k_arg a = true /\ says_arg a x /\ canonical (w_arg a) = enclose x (spell x).
Proof.
  intros Hs (t & Hk & Hx & Hw). destruct (plain_or x) as [(n & ->)|He].
  - pose proof (plain_map _ Hs n eq_refl) as Hn. exists (GenericTypeArgument (w0 (head_of n))).
    split; [apply head_ok|]. split; [constructor; apply head_plain|]. exact (head_written n Hn).
  - exists (EnclosedTypeArgument (w0 t)). split; [exact Hk|]. split; [constructor; exact Hx|]. rewrite He.
    cbn [w_arg w0 node]. rewrite canonical_cons, canonical_app, Hw. reflexivity.
Qed.
Lemma as_tvarg x : spellable x = true -> as_tva x ->
  exists a, k_tvarg a = true /\ says_tvarg a x /\ canonical (w_tvarg a) = enclose x (spell x).
Proof.
  intros Hs (t & Hk & Hx & Hw). destruct (plain_or x) as [(n & ->)|He].
  - pose proof (plain_map _ Hs n eq_refl) as Hn. exists (GenericMapValueArgument (w0 (head_of n))).
    split; [apply head_ok|]. split; [constructor; apply head_plain|]. exact (head_written n Hn).
  - exists (EnclosedTypeMapValue (w0 t)). split; [exact Hk|]. split; [constructor; exact Hx|]. rewrite He.
    cbn [w_tvarg w0 node]. rewrite canonical_cons, canonical_app, Hw. reflexivity.
Qed.
Lemma as_value x : spellable x = true -> as_tva x ->
  exists a, k_value a = true /\ says_value a x /\ canonical (w_value a) = enclose x (spell x).
Proof.
  intros Hs (t & Hk & Hx & Hw). destruct (plain_or x) as [(n & ->)|He].
  - pose proof (plain_map _ Hs n eq_refl) as Hn. exists (MapValueTypeOrEnumLikeIdentifier (w0 (head_of n))).
    split; [apply head_ok|]. split; [constructor; apply head_plain|]. exact (head_written n Hn).
  - exists (MapValueParenthesizedType (w0 t)). split; [exact Hk|]. split; [constructor; exact Hx|]. rewrite He.
    cbn [w_value w0 node]. rewrite canonical_cons, canonical_app, Hw. reflexivity.
Qed.

Lemma as_args args : forallb spellable args = true -> Forall as_type args ->
  exists l, forallb (fun a => k_arg (node a)) l = true /\ says_args l args
    /\ canonical (flat_map (fun a => w_arg (node a)) l) = flat_map (fun a => enclose a (spell a)) args.
Proof.
  intros Hs H. induction H as [|a args Ha _ IH]; [exists []; repeat split; constructor|].
  cbn [forallb] in Hs. apply andb_prop in Hs. destruct Hs as [H1 H2]. destruct (IH H2) as (l & Hl & Hsl & Hw).
  destruct (as_arg a H1 Ha) as (b & Hb & Hsb & Hwb). exists (w0 b :: l). split; [cbn; rewrite Hb; exact Hl|].
  split; [constructor; assumption|]. cbn [flat_map w0 node]. rewrite canonical_app, Hwb, Hw. reflexivity.
Qed.
Lemma as_tvargs args : forallb spellable args = true -> Forall as_tva args ->
  exists l, forallb (fun a => k_tvarg (node a)) l = true /\ says_tvargs l args /\ List.length l = List.length args
    /\ canonical (flat_map (fun a => w_tvarg (node a)) l) = flat_map (fun a => enclose a (spell a)) args.
Proof.
  intros Hs H. induction H as [|a args Ha _ IH]; [exists []; repeat split; constructor|].
  cbn [forallb] in Hs. apply andb_prop in Hs. destruct Hs as [H1 H2]. destruct (IH H2) as (l & Hl & Hsl & Hlen & Hw).
  destruct (as_tvarg a H1 Ha) as (b & Hb & Hsb & Hwb). exists (w0 b :: l). split; [cbn; rewrite Hb; exact Hl|].
  split; [constructor; assumption|]. split; [cbn; congruence|]. cbn [flat_map w0 node]. rewrite canonical_app, Hwb, Hw. reflexivity.
Qed.

Lemma as_address n k fs : spellable (TAddr n k fs) = true -> Forall (fun f => as_type (snd f)) fs ->
  exists a, k_addr a = true /\ says_address a (TAddr n k fs) /\ canonical (w_addr a) = spell (TAddr n k fs).
Proof.
  intros H Hf. cbn [spellable] in H. apply andb_prop in H. destruct H as [H Hs]. apply andb_prop in H. destruct H as [H Hk].
  apply andb_prop in H. destruct H as [Hm Hb]. apply Bool.negb_true_iff in Hm, Hb.
  assert (Hl : exists l, forallb (fun f => k_afield (node f)) l = true /\ says_fields l fs /\ List.length l = List.length fs
    /\ map canonical (map (fun f => w_afield (node f)) l)
       = map (fun f : str * texp => let '(i, a) := f in TField :: TIdentifier i :: TColon :: spell a) fs).
  { clear Hk. induction Hf as [|[i x] fs (t & Ht & Hst & Hwt) _ IH]; [exists []; repeat split; constructor|].
    cbn [forallb] in Hs. apply andb_prop in Hs. destruct Hs as [_ Hs]. destruct (IH Hs) as (l & H1 & H2 & H3 & H4). cbn [snd] in *.
    exists (w0 (mkAddressTypeField (w0 (VariableName (w0 i))) (w0 t)) :: l). split; [cbn; rewrite Ht; exact H1|].
    split; [apply (sf_cons _ (w0 (VariableName (w0 i))) (w0 i) (w0 t)); auto|]. split; [cbn; congruence|].
    cbn [map]. rewrite H4. f_equal. cbn. f_equal. f_equal. f_equal. exact Hwt. }
  destruct Hl as (l & H1 & H2 & H3 & H4). exists (mkAddressType (w0 (tni_of n)) (w0 k) l). split; [|split].
  - cbn [k_addr w0 node]. rewrite tni_ok, H1. destruct l as [|f l]; [reflexivity|]. destruct fs; [discriminate|]. rewrite Hk. reflexivity.
  - apply (sd_address (w0 (tni_of n)) n (w0 k)); [apply tni_plain|exact H2].
  - cbn [w_addr spell w0 node]. rewrite canonical_app, (tni_written n Hm Hb). cbn [app]. rewrite canonical_cons. do 2 f_equal.
    match goal with |- canonical (AddressKind k :: ?r) = _ => change (canonical (AddressKind k :: r)) with (canonical_kind k ++ canonical r) end.
    f_equal. rewrite canonical_app, canonical_sep, H4 by reflexivity. reflexivity.
Qed.

Theorem spell_says x : spellable x = true -> as_type x /\ as_tva x.
Proof.
  revert x. apply (texp_ind' (fun x => spellable x = true -> as_type x /\ as_tva x)).
  - intros n args IH H. cbn [spellable] in H. apply andb_prop in H. destruct H as [Hs Hm].
    assert (Ht : Forall as_type args /\ Forall as_tva args).
    { clear Hm. induction IH as [|a args Ha _ IH]; [split; constructor|]. cbn [forallb] in Hs. apply andb_prop in Hs. destruct Hs as [H1 H2].
      destruct (IH H2), (Ha H1). split; constructor; assumption. }
    destruct Ht as [Ht Hv]. destruct (str_eqb n (lit "Map")) eqn:En.
    + apply str_eqb_eq in En. subst n. destruct args as [|key [|v [|]]]; try discriminate. destruct key as [k [|]| |]; try discriminate.
      cbn [forallb] in Hs. apply andb_prop in Hs. destruct Hs as [Hk Hs]. apply andb_prop in Hs. destruct Hs as [Hsv _].
      pose proof (plain_map _ Hk k eq_refl) as Hkm. inversion Hv as [|? ? _ Hv1]; subst. inversion Hv1 as [|? ? Hv2 _]; subst.
      destruct (as_value v Hsv Hv2) as (b & Hb & Hsb & Hwb).
      assert (Hw : canonical (P TMap :: w_key (GenericMapKey (w0 (head_of k))) ++ w_value b) = spell (TName (lit "Map") [TName k []; v])).
      { rewrite canonical_cons, canonical_app, Hwb. cbn [w_key w0 node]. rewrite (head_written k Hkm). cbn. rewrite app_nil_r. reflexivity. }
      split.
      * exists (MapType (w0 (GenericMapKey (w0 (head_of k)))) (w0 b)). split; [cbn; rewrite head_ok; exact Hb|].
        split; [constructor; [constructor; apply head_plain|exact Hsb]|exact Hw].
      * exists (TypeMapValueNoArgs (w0 (MapKeyValue (w0 (mkTypeMapEntry (w0 (GenericMapKey (w0 (head_of k)))) (w0 b)))))).
        split; [cbn; rewrite head_ok; exact Hb|]. split; [|exact Hw].
        constructor. cbn. eapply sv_map; [reflexivity|constructor; apply head_plain|exact Hsb].
    + clear Hm. destruct (as_args args Hs Ht) as (l & H1 & H2 & H3). destruct (as_tvargs args Hs Hv) as (l' & H1' & H2' & Hlen & H3').
      split.
      * exists (GenericTypeWithArgs (w0 (head_of n)) l). split; [cbn; rewrite head_ok; exact H1|]. split; [constructor; [apply head_plain|exact H2]|].
        cbn [w_type w0 node]. rewrite canonical_app, (head_written n En), H3. reflexivity.
      * destruct args as [|a args].
        { exists (TypeMapValueNoArgs (w0 (MapValueTypeOrEnumLikeIdentifier (w0 (head_of n))))). split; [apply head_ok|].
          split; [constructor; constructor; apply head_plain|]. cbn [w_tva w_value w0 node]. rewrite (head_written n En). reflexivity. }
        { exists (TypeMapValueWithArgs (w0 (head_of n)) l'). split; [cbn; rewrite head_ok, H1'; destruct l'; [discriminate|reflexivity]|].
          split; [constructor; [apply head_plain|exact H2']|]. cbn [w_tva w0 node]. rewrite canonical_app, (head_written n En), H3'. reflexivity. }
  - intros n k fs IH H.
    assert (Hf : Forall (fun f => as_type (snd f)) fs).
    { cbn [spellable] in H. apply andb_prop in H. destruct H as [_ Hs]. induction IH as [|[i x] fs Hx _ IH]; [constructor|].
      cbn [forallb] in Hs. apply andb_prop in Hs. destruct Hs as [H1 H2]. constructor; [apply Hx, H1|apply IH, H2]. }
    destruct (as_address n k fs H Hf) as (a & Ha & Hsa & Hwa). split.
    + exists (ScillaAddresseType (w0 a)). split; [exact Ha|]. split; [constructor; exact Hsa|exact Hwa].
    + exists (TypeMapValueNoArgs (w0 (MapValueAddressType (w0 a)))). split; [exact Ha|]. split; [constructor; constructor; exact Hsa|exact Hwa].
  - intro H. discriminate H.
Qed.

(** ** Contracts *)
Definition typed_of (n : str) (t : NodeScillaType) : NodeTypedIdentifier :=
  mkTypedIdentifier (w0 n) (w0 (mkTypeAnnotation (w0 t))).
Lemma decl_says d : spellable (snd d) = true ->
  exists t, k_typed (typed_of (fst d) t) = true /\ says_decl (typed_of (fst d) t) d /\ canonical (w_typed (typed_of (fst d) t)) = spell_decl d.
Proof.
  intro H. destruct (spell_says _ H) as [(t & Hk & Hs & Hw) _]. exists t. split; [exact Hk|]. split; [split; [reflexivity|exact Hs]|].
  change (TIdentifier (fst d) :: TColon :: canonical (w_type t) = spell_decl d). rewrite Hw. reflexivity.
Qed.
Lemma params_says ps : decls_ok ps = true ->
  exists n, k_params n = true /\ Forall2 says_decl (param_decls n) ps /\ canonical (w_params n) = spell_params ps.
Proof.
  intro H.
  assert (Hl : exists l, all k_pair l = true /\ Forall2 says_decl (param_decls (mkComponentParameters l)) ps
    /\ map canonical (map (fun p => w_pair (node p)) l) = map spell_decl ps).
  { unfold decls_ok in H. induction ps as [|d ps IH]; [exists []; repeat split; constructor|].
    cbn [forallb] in H. apply andb_prop in H. destruct H as [H1 H2]. destruct (IH H2) as (l & Hl & Hs & Hw).
    destruct (decl_says d H1) as (t & Hk & Hd & Hwd). exists (w0 (mkParameterPair (w0 (typed_of (fst d) t))) :: l).
    split; [unfold all in *; cbn [forallb w0 node k_pair]; rewrite Hk; exact Hl|].
    split; [cbn; constructor; assumption|]. cbn [map w0 node w_pair]. rewrite Hw, Hwd. reflexivity. }
  destruct Hl as (l & Hl & Hs & Hw). exists (mkComponentParameters l). split; [exact Hl|]. split; [exact Hs|].
  unfold spell_params. rewrite <- Hw. destruct l as [|p l]; [reflexivity|].
  cbn [w_params]. rewrite canonical_cons. f_equal.
  match goal with |- canonical (Maybe _ :: ?r) = _ => change (canonical r = commas (map canonical (map (fun p => w_pair (node p)) (p :: l))) ++ [TCloseParen]) end.
  rewrite canonical_app, canonical_sep by reflexivity. reflexivity.
Qed.
Lemma fields_says l toks : spells_fields l toks ->
  exists fs, all k_cfield fs = true
    /\ Forall2 says_decl (map (fun f => match node f with mkContractField i _ => node i end) fs) l
    /\ canonical (flat_map (fun f => w_cfield (node f)) fs) = toks.
Proof.
  induction 1 as [|d e l toks Hd He _ (fs & Hk & Hs & Hw)]; [exists []; repeat split; constructor|].
  destruct (decl_says d Hd) as (t & Hkt & Hdt & Hwt). exists (w0 (mkContractField (w0 (typed_of (fst d) t)) (w0 e)) :: fs).
  split; [unfold all in *; cbn [forallb w0 node k_cfield]; rewrite Hkt, He; exact Hk|].
  split; [cbn; constructor; assumption|]. cbn [flat_map w_cfield w0 node]. rewrite canonical_app, Hw, canonical_cons, canonical_app, Hwt, canonical_cons.
  cbn [app]. rewrite <- app_assoc. reflexivity.
Qed.
Lemma type_name_says n t : type_name_token n t ->
  exists x, k_tni x = true /\ type_name_identifier_display x = n /\ canonical (w_tni x) = [t].
Proof.
  intros []; [exists (TypeOrEnumLikeIdentifier (w0 n))|exists (ByteStringType (BSType (w0 n)))|exists EventType]; repeat split. now symmetry.
Qed.
Lemma components_says l toks : spells_components l toks ->
  exists cs, all k_comp cs = true
    /\ Forall2 (fun t dt => fst dt = fst t /\ Forall2 says_decl (snd t) (snd dt))
         (flat_map (fun d => match node d with
                         | TransitionComponent t =>
                             match node t with
                             | mkTransitionDefinition n ps _ => [(component_name (node n), param_decls (node ps))]
                             end
                         | ProcedureComponent _ => []
                         end) cs) l
    /\ canonical (flat_map (fun c => w_comp (node c)) cs) = toks.
Proof.
  induction 1 as [|n t ps b l toks Ht Hps Hb _ (cs & Hk & Hs & Hw)|p l toks Hp _ (cs & Hk & Hs & Hw)]; [exists []; repeat split; constructor| |].
  - destruct (params_says ps Hps) as (np & Hkp & Hsp & Hwp).
    assert (Hc : exists c, k_cid c = true /\ component_name c = n /\ canonical (w_cid c) = [t]).
    { destruct Ht as [->|Ht].
      - exists (WithRegularId (w0 n)). repeat split.
      - destruct (type_name_says n t Ht) as (x & Hkx & Hnx & Hwx). exists (WithTypeLikeName (w0 x)). repeat split; assumption. }
    destruct Hc as (c & Hkc & Hnc & Hwc).
    exists (w0 (TransitionComponent (w0 (mkTransitionDefinition (w0 c) (w0 np) (w0 b)))) :: cs).
    split; [unfold all in *; cbn [forallb w0 node k_comp k_trans]; rewrite Hkc, Hkp, Hb; exact Hk|].
    split; [cbn; constructor; [cbn; split; [congruence|exact Hsp]|exact Hs]|].
    cbn [flat_map w_comp w_trans w0 node]. rewrite canonical_app, Hw, canonical_cons, !canonical_app, Hwc, Hwp.
    cbn [app]. rewrite <- !app_assoc. reflexivity.
  - exists (w0 (ProcedureComponent (w0 p)) :: cs). split; [unfold all in *; cbn [forallb w0 node k_comp]; rewrite Hp; exact Hk|].
    split; [exact Hs|]. cbn [flat_map w_comp w0 node]. rewrite canonical_app, Hw. reflexivity.
Qed.
Lemma optional_node {A} (k : A -> bool) (w : A -> list piece) toks : optional k w toks ->
  exists o : option (wm A), maybe (k_wm k) o = true /\ canonical (opt (fun a => w (node a)) o) = toks.
Proof.
  intros [->|(a & Hk & ->)]; [exists None; split; reflexivity|]. exists (Some (w0 a)). split; [exact Hk|reflexivity].
Qed.

Theorem spells_program d toks : spells d toks ->
  exists p, writable Program p = true /\ described (match p with mkProgram _ _ _ c => node c end) d
    /\ canonical (write Program p) = toks.
Proof.
  intros [version imports library nm constraint fields components Hi Hl Hn Hp Hc Hf Hcs].
  destruct (type_name_says _ _ Hn) as (x & Hkx & Hnx & Hwx).
  destruct (optional_node _ _ _ Hi) as (oi & Hki & Hwi). destruct (optional_node _ _ _ Hl) as (ol & Hkl & Hwl).
  destruct (optional_node _ _ _ Hc) as (oc & Hkc & Hwc). destruct (params_says _ Hp) as (ps & Hkp & Hsp & Hwp).
  destruct (fields_says _ _ Hf) as (fs & Hkf & Hsf & Hwf). destruct (components_says _ _ Hcs) as (cs & Hkcs & Hscs & Hwcs).
  exists (mkProgram (w0 version) oi ol (w0 (mkContractDefinition (w0 x) (w0 ps) oc fs cs))).
  split; [|split].
  - cbn [writable k_program k_contract w0 node]. rewrite Hkx, Hki, Hkl, Hkp, Hkc, Hkf, Hkcs. reflexivity.
  - repeat split; try assumption. now symmetry.
  - cbn [write w_program w_contract w0 node w_number]. cbn [app]. rewrite !canonical_cons, !canonical_app, Hwi, Hwl, canonical_cons.
    rewrite !canonical_app, Hwx, Hwp, Hwc, Hwf, Hwcs. reflexivity.
Qed.
