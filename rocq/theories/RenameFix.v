(** Renamings that keep every name: what the emitter does with a program does not
    change, although literals in it do. *)
From Verif Require Import Chars Lexer LexSpec LexerProofs LexFacts Ast Grammar Types Visitor Emitter EmitSpec EmitProgram EmitTypes EmitRange Print Names
  Machine MachineFacts Rename.
From Coq Require Import PeanoNat Lia.
Local Open Scope nat_scope.

(** The texts of identifiers, of sized byte strings and of the kinds of address types stay as they are. *)
Record keeps_names (r : str -> str) : Prop := mkKeeps
  { keeps_id : forall s, wf_token (TIdentifier s) -> r s = s;
    keeps_custom : forall s, wf_token (TCustomIdentifier s) -> r s = s;
    keeps_sized : forall s, wf_token (TByStrWithSize s) -> r s = s;
    keeps_special : forall s, wf_token (TSpecialIdentifier s) -> r s = s;
    keeps_none : r (lit "") = lit "";
    keeps_contract_kind : r (lit "contract") = lit "contract";
    keeps_library_kind : r (lit "library") = lit "library" }.

Section Fix.
  Context (r : str -> str) (R : keeps_names r).
  Notation oks := (Forall okp).

  Lemma kept_kind s : okp (AddressKind s) -> r s = s.
  Proof. destruct R. intros [->|[->|[->|H]]]; auto. Qed.
  Lemma tni_fix n : oks (w_tni n) -> code_name (r_tni r n) = code_name n /\ type_name_identifier_display (r_tni r n) = type_name_identifier_display n.
  Proof.
    destruct n as [[s|s]| |s]; cbn; intro H; try (split; reflexivity); inversion H as [|? ? H1 _]; subst; cbn in H1;
      rewrite ?(keeps_sized r R _ H1), ?(keeps_custom r R _ H1); split; reflexivity.
  Qed.
  Lemma code_name_fix n : oks (w_tni n) -> code_name (r_tni r n) = code_name n.
  Proof. apply tni_fix. Qed.
  Lemma meta_fix m : oks (w_meta m) -> code_meta (r_meta r m) = code_meta m.
  Proof.
    destruct m as [n|a b|h n|]; cbn [w_meta r_meta code_meta on node]; intro H; repeat rewrite ?Forall_app, ?Forall_cons_iff in H.
    - apply code_name_fix, H.
    - rewrite !code_name_fix; tauto.
    - cbn in H. apply code_name_fix. tauto.
    - reflexivity.
  Qed.
  Lemma map_fix {A B} (g : A -> A) (code : A -> B) (l : list (wm A)) : (forall x, In x l -> code (g (node x)) = code (node x)) ->
    map (fun a => code (node a)) (map (on g) l) = map (fun a => code (node a)) l.
  Proof. intro H. rewrite map_map. apply map_ext_in. exact H. Qed.
  Lemma flat_oks {A} (f : A -> list piece) l : oks (flat_map f l) -> forall x, In x l -> oks (f x).
  Proof. rewrite Forall_flat_map, Forall_forall. auto. Qed.
  Lemma sep_oks {A} (f : A -> list piece) c l : oks (sep c (map f l)) -> forall x, In x l -> oks (f x).
  Proof. intros H x Hx. apply sep_forall in H. rewrite Forall_map, Forall_forall in H. auto. Qed.

  (** the equations of the renaming *)
  Lemma r_key_eq k : r_key r k =
    match k with
  | GenericMapKey m => GenericMapKey (on (r_meta r) m)
  | EnclosedGenericId m => EnclosedGenericId (on (r_meta r) m)
  | EnclosedAddressMapKeyType a => EnclosedAddressMapKeyType (on (r_addr r) a)
  | AddressMapKeyType a => AddressMapKeyType (on (r_addr r) a)
  end.
  Proof. destruct k; reflexivity. Qed.
  Lemma r_value_eq x : r_value r x =
    match x with
  | MapValueTypeOrEnumLikeIdentifier m => MapValueTypeOrEnumLikeIdentifier (on (r_meta r) m)
  | MapKeyValue e => MapKeyValue (on (r_entry r) e)
  | MapValueParenthesizedType t => MapValueParenthesizedType (on (r_tva r) t)
  | MapValueAddressType a => MapValueAddressType (on (r_addr r) a)
  end.
  Proof. destruct x; reflexivity. Qed.
  Lemma r_arg_eq x : r_arg r x =
    match x with
  | EnclosedTypeArgument t => EnclosedTypeArgument (on (r_type r) t)
  | GenericTypeArgument m => GenericTypeArgument (on (r_meta r) m)
  | TemplateTypeArgument s => TemplateTypeArgument (on r s)
  | AddressTypeArgument a => AddressTypeArgument (on (r_addr r) a)
  | MapTypeArgument k v => MapTypeArgument (on (r_key r) k) (on (r_value r) v)
  end.
  Proof. destruct x; reflexivity. Qed.
  Lemma r_type_eq t : r_type r t =
    match t with
  | GenericTypeWithArgs m args => GenericTypeWithArgs (on (r_meta r) m) (map (on (r_arg r)) args)
  | MapType k v => MapType (on (r_key r) k) (on (r_value r) v)
  | FunctionType a b => FunctionType (on (r_type r) a) (on (r_type r) b)
  | EnclosedType t => EnclosedType (on (r_type r) t)
  | ScillaAddresseType a => ScillaAddresseType (on (r_addr r) a)
  | PolyFunctionType v t => PolyFunctionType (on r v) (on (r_type r) t)
  | TypeVarType v => TypeVarType (on r v)
  end.
  Proof. destruct t; reflexivity. Qed.
  Lemma r_entry_eq e : r_entry r e =
    match e with mkTypeMapEntry k v => mkTypeMapEntry (on (r_key r) k) (on (r_value r) v) end.
  Proof. destruct e; reflexivity. Qed.
  Lemma r_afield_eq f : r_afield r f =
    match f with mkAddressTypeField i t => mkAddressTypeField (on (r_var r) i) (on (r_type r) t) end.
  Proof. destruct f; reflexivity. Qed.
  Lemma r_addr_eq a : r_addr r a =
  match a with
  | mkAddressType i tn fs => mkAddressType (on (r_tni r) i) (on r tn) (map (on (r_afield r)) fs)
  end.
  Proof. destruct a; reflexivity. Qed.
  Lemma r_tvarg_eq x : r_tvarg r x =
    match x with
  | EnclosedTypeMapValue t => EnclosedTypeMapValue (on (r_tva r) t)
  | GenericMapValueArgument m => GenericMapValueArgument (on (r_meta r) m)
  | MapKeyValueType k v => MapKeyValueType (on (r_key r) k) (on (r_value r) v)
  end.
  Proof. destruct x; reflexivity. Qed.
  Lemma r_tva_eq x : r_tva r x =
    match x with
  | TypeMapValueNoArgs t => TypeMapValueNoArgs (on (r_value r) t)
  | TypeMapValueWithArgs m args => TypeMapValueWithArgs (on (r_meta r) m) (map (on (r_tvarg r)) args)
  end.
  Proof. destruct x; reflexivity. Qed.

  Definition fixed_at (f : nat) : Prop :=
    (forall t, depth_type t <= f -> oks (w_type t) -> code_type (r_type r t) = code_type t) /\
    (forall t, depth_key t <= f -> oks (w_key t) -> code_key (r_key r t) = code_key t) /\
    (forall t, depth_value t <= f -> oks (w_value t) -> code_value (r_value r t) = code_value t) /\
    (forall t, depth_arg t <= f -> oks (w_arg t) -> code_arg (r_arg r t) = code_arg t) /\
    (forall t, depth_entry t <= f -> oks (w_entry t) -> code_entry (r_entry r t) = code_entry t) /\
    (forall t, depth_afield t <= f -> oks (w_afield t) -> code_afield (r_afield r t) = code_afield t) /\
    (forall t, depth_addr t <= f -> oks (w_addr t) -> code_addr (r_addr r t) = code_addr t) /\
    (forall t, depth_tvarg t <= f -> oks (w_tvarg t) -> code_tvarg (r_tvarg r t) = code_tvarg t) /\
    (forall t, depth_tva t <= f -> oks (w_tva t) -> code_tva (r_tva r t) = code_tva t).

  Lemma fixed_all f : fixed_at f.
  Proof.
    induction f as [|f IH].
    { unfold fixed_at. repeat apply conj; intros [] H; cbn in H; lia. }
    destruct IH as (IHt & IHk & IHv & IHa & IHe & IHf & IHd & IHg & IHw).
    unfold fixed_at. repeat apply conj; intros t H Ho.
    - destruct t; rewrite r_type_eq; cbn [depth_type w_type] in H, Ho; cbn [code_type on node]; repeat rewrite ?Forall_app, ?Forall_cons_iff in Ho; try reflexivity.
      + rewrite meta_fix by tauto. f_equal. apply map_fix. intros x Hx. apply IHa; [apply (list_in depth_arg args); [lia|exact Hx]|].
        apply (flat_oks (fun a => w_arg (node a)) args); tauto.
      + rewrite IHk, IHv; [reflexivity|lia|tauto|lia|tauto].
      + apply IHt; [lia|tauto].
      + apply IHd; [lia|tauto].
    - destruct t; rewrite r_key_eq; cbn [depth_key w_key] in H, Ho; cbn [code_key on node]; repeat rewrite ?Forall_app, ?Forall_cons_iff in Ho.
      + rewrite meta_fix by tauto. reflexivity.
      + rewrite meta_fix by tauto. reflexivity.
      + rewrite IHd; [reflexivity|lia|tauto].
      + rewrite IHd; [reflexivity|lia|tauto].
    - destruct t; rewrite r_value_eq; cbn [depth_value w_value] in H, Ho; cbn [code_value on node]; repeat rewrite ?Forall_app, ?Forall_cons_iff in Ho.
      + rewrite meta_fix by tauto. reflexivity.
      + rewrite IHe; [reflexivity|lia|tauto].
      + apply IHw; [lia|tauto].
      + apply IHd; [lia|tauto].
    - destruct t; rewrite r_arg_eq; cbn [depth_arg w_arg] in H, Ho; cbn [code_arg on node]; repeat rewrite ?Forall_app, ?Forall_cons_iff in Ho.
      + apply IHt; [lia|tauto].
      + rewrite meta_fix by tauto. reflexivity.
      + reflexivity.
      + apply IHd; [lia|tauto].
      + rewrite IHk, IHv; [reflexivity|lia|tauto|lia|tauto].
    - destruct t as [k x]. rewrite r_entry_eq. cbn [depth_entry w_entry] in H, Ho. cbn [code_entry on node]. rewrite Forall_app in Ho.
      rewrite IHk, IHv; [reflexivity|lia|tauto|lia|tauto].
    - destruct t as [i x]. rewrite r_afield_eq. cbn [depth_afield w_afield] in H, Ho. cbn [code_afield on node]. repeat rewrite ?Forall_app, ?Forall_cons_iff in Ho.
      destruct (node i) as [n|n|a n]; cbn [r_var on node]; try reflexivity.
      destruct Ho as (_ & Hn & _ & H3). assert (H1 : okp (P (TIdentifier (node n)))) by (inversion Hn; assumption).
      rewrite (keeps_id r R (node n) H1). rewrite IHt; [reflexivity|lia|]. exact H3.
    - destruct t as [i tn fs]. rewrite r_addr_eq. cbn [depth_addr w_addr] in H, Ho. cbn [code_addr on node]. repeat rewrite ?Forall_app, ?Forall_cons_iff in Ho.
      rewrite code_name_fix, (kept_kind (node tn)) by tauto. do 6 f_equal. apply (map_fix (r_afield r)). intros x Hx.
      apply IHf; [apply (list_in depth_afield fs); [lia|exact Hx]|]. apply (sep_oks (fun a => w_afield (node a)) TComma fs); tauto.
    - destruct t; rewrite r_tvarg_eq; cbn [depth_tvarg w_tvarg] in H, Ho; cbn [code_tvarg on node]; repeat rewrite ?Forall_app, ?Forall_cons_iff in Ho.
      + apply IHw; [lia|tauto].
      + rewrite meta_fix by tauto. reflexivity.
      + reflexivity.
    - destruct t; rewrite r_tva_eq; cbn [depth_tva w_tva] in H, Ho; cbn [code_tva on node]; repeat rewrite ?Forall_app, ?Forall_cons_iff in Ho.
      + apply IHv; [lia|tauto].
      + rewrite meta_fix by tauto. f_equal. apply map_fix. intros x Hx. apply IHg; [apply (list_in depth_tvarg args); [lia|exact Hx]|].
        apply (flat_oks (fun a => w_tvarg (node a)) args); tauto.
  Qed.
  Lemma type_fix t : oks (w_type t) -> code_type (r_type r t) = code_type t.
  Proof. apply (fixed_all (depth_type t)). lia. Qed.

  Lemma decl_fix d : oks (w_typed d) -> code_decl (r_typed r d) = code_decl d.
  Proof.
    destruct d as [n a]. unfold code_decl. intro H. assert (Hn : okp (P (TIdentifier (node n))) /\ Forall okp (w_annot (node a))) by (inversion H; subst; split; assumption). clear H.
    destruct Hn as [Hn Ha]. cbn [r_typed typed_type typed_name on node].
    cbn [okp wf_lexed] in Hn. rewrite (keeps_id r R _ Hn). destruct (node a) as [t]. cbn [r_annot w_annot on node] in *. inversion Ha as [|? ? _ Ht]; subst.
    rewrite (type_fix _ Ht). reflexivity.
  Qed.
  Lemma params_fix ps : oks (w_params ps) -> map code_decl (param_decls (r_params r ps)) = map code_decl (param_decls ps).
  Proof.
    destruct ps as [l]. intro H. cbn [r_params param_decls]. rewrite !map_map.
    apply map_ext_in. intros x Hx. assert (Hp : oks (w_pair (node x))).
    { destruct l as [|a l]; [destruct Hx|]. cbn [w_params] in H. repeat rewrite ?Forall_app, ?Forall_cons_iff in H.
      apply (sep_oks (fun p => w_pair (node p)) TComma (a :: l)); [|exact Hx]. tauto. }
    cbn [on node]. destruct (node x) as [d]. cbn [r_pair on node w_pair] in *. apply decl_fix, Hp.
  Qed.
  Lemma cid_fix c : oks (w_cid c) -> component_name (r_cid r c) = component_name c.
  Proof.
    destruct c as [n|s]; cbn [w_cid r_cid component_name on node w_id]; intro H; [apply tni_fix, H|].
    inversion H as [|? ? H1 _]; subst. apply (keeps_id r R), H1.
  Qed.
  Lemma code_flat {A} (code : list cmd -> list cmd) (d : A -> list cmd) l : flat_map (fun x => code (d x)) l = flat_map code (map d l).
  Proof. induction l as [|x l IH]; [reflexivity|]. cbn. rewrite IH. reflexivity. Qed.

  Theorem contract_code_fix c : oks (w_contract c) -> code_contract (r_contract r c) = code_contract c.
  Proof.
    destruct c as [n ps w fs cs]. cbn [w_contract]. repeat rewrite ?Forall_app, ?Forall_cons_iff. intros (_ & Hn & Hp & _ & Hf & Hc).
    unfold code_contract. cbn [r_contract contract_param_decls field_decls transition_decls declared_name on node].
    destruct (tni_fix _ Hn) as [-> ->]. f_equal. f_equal.
    assert (F : forall (code : list cmd -> list cmd) l l', map code_decl l = map code_decl l' -> flat_map (fun d => code (code_decl d)) l = flat_map (fun d => code (code_decl d)) l').
    { intros code l l' E. rewrite !(code_flat code code_decl), E. reflexivity. }
    assert (A : flat_map code_decl (param_decls (r_params r (node ps))) = flat_map code_decl (param_decls (node ps))) by apply (F (fun x => x)), params_fix, Hp.
    rewrite (F (fun x => x ++ [AddParam]) _ _ (params_fix _ Hp)), A. do 2 apply (f_equal (app _)). f_equal; [apply (F (fun x => x ++ [AddField]))|].
    - rewrite !map_map. apply map_ext_in. intros f Hin. pose proof (flat_oks (fun f => w_cfield (node f)) fs Hf f Hin) as H. cbv beta in H. cbn [on node].
      destruct (node f) as [t e]. cbn [w_cfield r_cfield on node] in *. apply Forall_inv_tail, Forall_app in H. apply decl_fix, H.
    - revert Hc. clear - R. induction cs as [|x cs IH]; [reflexivity|]. cbn [flat_map map]. rewrite Forall_app. intros [Hx Hc]. specialize (IH Hc).
      rewrite !flat_map_app, IH. f_equal. cbn [on node]. destruct (node x) as [t|p]; cbn [r_comp on node w_comp] in *; [|reflexivity].
      destruct (node t) as [m ps b]. cbn [w_trans r_trans on node flat_map fst snd app] in *. repeat rewrite ?Forall_app, ?Forall_cons_iff in Hx.
      rewrite cid_fix, params_fix by tauto. reflexivity.
  Qed.
  Theorem program_emit_fix debug p : oks (match p with mkProgram _ _ _ c => w_contract (node c) end) ->
    emit_program debug (r_program r p) = emit_program debug p.
  Proof.
    destruct p as [ver imps lib c]. intro H. cbn [r_program]. rewrite !emit_machine. cbn [code_program on node]. rewrite (contract_code_fix _ H). reflexivity.
  Qed.
End Fix.
