(** Which contracts the emitter can return: an invariant of its stack. *)
From Verif Require Import Chars Lexer LexSpec Ast Grammar Types Visitor Emitter EmitSpec TypeFacts EmitTypes EmitProgram EmitInv EmitErase EmitSig EmitOk EmitSteps
  Print Names Range PropTypes.
Local Open Scope nat_scope.

(** ** Types on the stack *)
Definition tname (n : str) : Prop := upper_id n \/ sized_id n \/ n = lit "ByStr".
Definition simple_sr (t : sr_type) : Prop := exists n, t = mkSr n [] None /\ tname n.
Inductive wf_sr : sr_type -> Prop :=
| ws_name n subs addr : tname n -> wf_srs subs ->
    (forall a, addr = Some a -> address_kind (a_type_name a) (a_fields a = []) /\ producible_fields (a_fields a)) ->
    wf_sr (mkSr n subs addr)
| ws_map k v : simple_sr k -> wf_sr v -> wf_sr (mkSr (lit "Map") [k; v] None)
with wf_srs : list sr_type -> Prop :=
| wss_nil : wf_srs []
| wss_cons t l : wf_sr t -> wf_srs l -> wf_srs (t :: l).
Scheme wf_sr_ind2 := Induction for wf_sr Sort Prop with wf_srs_ind2 := Induction for wf_srs Sort Prop.
Combined Scheme wf_sr_mutind from wf_sr_ind2, wf_srs_ind2.

Lemma wf_srs_forall l : wf_srs l <-> Forall wf_sr l.
Proof. split; induction 1; constructor; auto. Qed.
Lemma simple_wf t : simple_sr t -> wf_sr t.
Proof. intros (n & -> & Hn). apply ws_name; [exact Hn|constructor|discriminate]. Qed.

Lemma upper_not n : upper_id n -> n <> lit "Map" /\ n <> lit "ByStr20" /\ (forall k, ~ sized_bystr n k).
Proof.
  intro H. destruct (custom_name n H) as (_ & Hm & Hs). split; [intros ->; discriminate Hm|]. split; [|exact Hs].
  intros ->. inversion H as [w t Hk|w t Hk| | | | | | |c s Hu Hw Hkw Hb| | |].
  - clear -Hk. cbn in Hk. repeat (destruct Hk as [Hk|Hk]; [discriminate Hk|]). exact Hk.
  - clear -Hk. cbn in Hk. repeat (destruct Hk as [Hk|Hk]; [discriminate Hk|]). exact Hk.
  - subst. exact (Hb (lit "20") eq_refl).
Qed.
Lemma sized_cases ds : ds <> [] -> all_digits ds -> name_type (bystr_type ds).
Proof.
  intros Hne Hd. unfold bystr_type. destruct (str_eqb ds (lit "20")); [constructor|].
  destruct (N.ltb_spec (decimal ds) (2 ^ 64)) as [Hl|Hl]; [now apply nt_sized|now apply nt_big].
Qed.
(** a name, whatever its arguments *)
Lemma name_cases n subs : tname n ->
  (exists t, name_type t /\ (forall addr, type_from (mkSr n subs addr) = Some t) /\ n <> lit "ByStr20")
  \/ n = lit "ByStr20"
  \/ (n = lit "Option" \/ n = lit "List" \/ n = lit "Pair") /\ upper_id n.
Proof.
  intros [H|[(ds & Hne & Hd & ->)| ->]].
  - destruct (upper_not n H) as (Hm & H20 & Hs). destruct (constructor_dec n) as [Hc|Hc].
    + destruct Hc as [Hc|[Hc|[Hc|[Hc|Hc]]]]; try contradiction; right; right; auto.
    + left. destruct (str_assoc n base_types) as [t|] eqn:Eb.
      * apply base_assoc in Eb. exists t. split; [eapply nt_base, Eb|]. split; [intro; now apply type_from_base|exact H20].
      * rewrite base_assoc_none in Eb. exists (Other n). split; [now apply nt_user|]. split; [|exact H20].
        intro addr. rewrite type_from_other by assumption. destruct (size_of n) eqn:Es; [|reflexivity].
        apply size_of_spec in Es; [|exact H20]. destruct (Hs _ Es).
  - destruct (str_eqb ds (lit "20")) eqn:E20; [apply LexerProofs.str_eqb_eq in E20; subst; right; left; reflexivity|]. left.
    exists (bystr_type ds). split; [now apply sized_cases|].
    assert (N20 : lit "ByStr" ++ ds <> lit "ByStr20").
    { intro E. apply (bystr_inj ds (lit "20")) in E. subst. discriminate. } split; [|exact N20].
    intro addr. pose proof (bystr_denotes ds Hne Hd) as Hx. apply denotes_iff in Hx. destruct Hx as [_ Hx]. cbn [sr map] in Hx.
    assert (Hb : (forall t, ~ base_name (lit "ByStr" ++ ds) t) /\ ~ constructor_name (lit "ByStr" ++ ds)).
    { assert (Hex : exists c r, ds = c :: r) by (destruct ds; [congruence|eauto]). destruct Hex as (c & r & ->). split.
      - intros t Hb. remember (lit "ByStr" ++ c :: r) as n eqn:En. destruct Hb; discriminate En.
      - intros [H|[H|[H|[H|H]]]]; try discriminate H. exact (N20 H). }
    destruct Hb as [Hb Hc]. rewrite type_from_other in Hx |- * by assumption. exact Hx.
  - left. exists ByStr. split; [eapply nt_base, bn_bystr|]. split; [reflexivity|discriminate].
Qed.

Lemma simple_type t ty : simple_sr t -> type_from t = Some ty -> name_type ty.
Proof.
  intros (n & -> & Hn) H. destruct (name_cases n [] Hn) as [(t & Ht & He & _)|[-> |[[-> |[-> | ->]] _]]].
  - rewrite He in H. now injection H as <-.
  - cbn in H. injection H as <-. constructor.
  - discriminate.
  - discriminate.
  - discriminate.
Qed.
Lemma wf_sr_types : (forall t, wf_sr t -> forall ty, type_from t = Some ty -> producible_type ty)
  /\ (forall l, wf_srs l -> Forall (fun o => forall ty, o = Some ty -> producible_type ty) (map type_from l)).
Proof.
  apply wf_sr_mutind.
  - intros n subs addr Hn Hs IH Ha ty H. destruct (name_cases n subs Hn) as [(t & Ht & He & _)|[-> |[Hc _]]].
    + rewrite He in H. injection H as <-. now apply pt_plain.
    + rewrite type_from_bystr20 in H. injection H as <-. destruct addr as [a|]; [|apply pt_plain, nt_bystr20].
      destruct (Ha a eq_refl). now apply pt_address.
    + apply Forall_rev in IH. destruct Hc as [-> |[-> | ->]].
      * rewrite type_from_option in H. destruct (rev (map type_from subs)) as [|[x|] r]; try discriminate. injection H as <-.
        inversion IH as [|? ? Hx _]; subst. apply pt_option, Hx, eq_refl.
      * rewrite type_from_list in H. destruct (rev (map type_from subs)) as [|[x|] r]; try discriminate. injection H as <-.
        inversion IH as [|? ? Hx _]; subst. apply pt_list, Hx, eq_refl.
      * rewrite type_from_pair in H. destruct (rev (map type_from subs)) as [|[x|] [|[y|] r]]; try discriminate. injection H as <-.
        inversion IH as [|? ? Hx IH']; subst. inversion IH' as [|? ? Hy _]; subst. apply pt_pair; [apply Hy|apply Hx]; reflexivity.
  - intros k v Hk Hv IH ty H. rewrite type_from_map in H. cbn [map rev app] in H.
    destruct (type_from v) as [tv|] eqn:Ev; [|discriminate]. destruct (type_from k) as [tk|] eqn:Ek; [|discriminate].
    injection H as <-. apply pt_map; [eapply simple_type; eassumption|apply IH; reflexivity].
  - constructor.
  - intros t l _ IHt _ IHl. constructor; assumption.
Qed.

(** ** The stack *)
Definition ok_field (f : field) : Prop := lower_id (field_name f) /\ producible_type (field_type f).
Definition okst (o : stack_object) : Prop :=
  match o with
  | IrIdentifier i => kind i = KComponentName \/ tname (unresolved i)
  | VariableDeclaration f => ok_field f
  | SoTypeDefinition t => simple_sr t
  end.
Definition clean (s : sr_state) : Prop := Forall okst (es_stack s).
Definition almost (s : sr_state) : Prop :=
  clean s \/ exists t r, es_stack s = SoTypeDefinition t :: r /\ wf_sr t /\ Forall okst r.
Definition ncomps (s : sr_state) : nat := List.length (comps s).

Lemma producible_fields_iff l : producible_fields l <-> Forall ok_field l.
Proof.
  split; [induction 1; constructor; auto; split; assumption|].
  induction 1 as [|[n t] l [H1 H2] _ IH]; constructor; assumption.
Qed.
Lemma quiet_ncomps {A} (m : EM A) s r s' : quiet m -> m s = Ret r s' -> ncomps s' <= ncomps s.
Proof. intros Hq H. destruct (Hq _ _ _ H) as [_ (l & El)]. unfold ncomps. rewrite El, app_length. lia. Qed.

(** Started with [k] component names on the stack, [m] loses one of them or
    establishes [Q]; a failure leaves a clean stack. *)
Definition tri {A} (k : nat) (P : sr_state -> Prop) (m : EM A) (Q : A -> sr_state -> Prop) : Prop :=
  forall s r s', P s -> ncomps s = k -> m s = Ret r s' ->
  ncomps s' < k \/ ncomps s' = k /\ match r with Ok a => Q a s' | Err _ => clean s' end.

Lemma tri_ret {A} k (P : sr_state -> Prop) (a : A) (Q : A -> sr_state -> Prop) : (forall s, P s -> Q a s) -> tri k P (ret a) Q.
Proof. intros H s r s' Hp Hk E. injection E as <- <-. right. auto. Qed.
Lemma tri_raise {A} k (P : sr_state -> Prop) e (Q : A -> sr_state -> Prop) : (forall s, P s -> clean s) -> tri k P (raise e) Q.
Proof. intros H s r s' Hp Hk E. injection E as <- <-. right. auto. Qed.
Lemma tri_panic {A} k P (Q : A -> sr_state -> Prop) : tri k P panic Q.
Proof. intros s r s' _ _ E. discriminate. Qed.
Lemma tri_bind_res {A B} k P R Q (m : EM A) (f : result A -> EM B) : tri k P m R ->
  (forall a, tri k (R a) (f (Ok a)) Q) -> (forall e, tri k clean (f (Err e)) Q) -> (forall r, quiet (f r)) ->
  tri k P (bind_res m f) Q.
Proof.
  intros Hm Hk He Hq s r s' Hp Hn E. unfold bind_res in E. destruct (m s) as [r1 s1| |] eqn:E1; try discriminate.
  destruct (Hm _ _ _ Hp Hn E1) as [Hl|[Hn1 Hr]].
  - left. pose proof (quiet_ncomps _ _ _ _ (Hq r1) E). lia.
  - destruct r1 as [a|e]; [exact (Hk a _ _ _ Hr Hn1 E)|exact (He e _ _ _ Hr Hn1 E)].
Qed.
Lemma tri_bind {A B} k P R Q (m : EM A) (f : A -> EM B) : tri k P m R ->
  (forall a, tri k (R a) (f a) Q) -> (forall r, quiet (f r)) -> tri k P (bind m f) Q.
Proof.
  intros Hm Hk Hq. unfold bind. eapply tri_bind_res; [exact Hm|exact Hk| |].
  - intro e. apply tri_raise. auto.
  - intros [a|e]; [apply Hq|apply quiet_raise].
Qed.
Lemma tri_pre {A} k (P P' : sr_state -> Prop) (m : EM A) Q : (forall s, P' s -> P s) -> tri k P m Q -> tri k P' m Q.
Proof. intros H Ht s r s' Hp. apply Ht. auto. Qed.
Lemma tri_post {A} k P (m : EM A) (Q Q' : A -> sr_state -> Prop) : (forall a s, Q a s -> Q' a s) -> tri k P m Q -> tri k P m Q'.
Proof.
  intros H Ht s r s' Hp Hk E. destruct (Ht _ _ _ Hp Hk E) as [Hl|[Hn Hr]]; [left; exact Hl|right]. split; [exact Hn|].
  destruct r; [apply H, Hr|exact Hr].
Qed.
Lemma tri_fact {A} k (H : Prop) P (m : EM A) Q : (H -> tri k P m Q) -> tri k (fun s => H /\ P s) m Q.
Proof. intros Ht s r s' [Hh Hp]. exact (Ht Hh s r s' Hp). Qed.
Lemma tri_false {A} k (m : EM A) Q : tri k (fun _ => False) m Q.
Proof. intros s r s' []. Qed.
Lemma clean_almost s : clean s -> almost s.
Proof. left. assumption. Qed.

Lemma tri_push_type k t : wf_sr t -> tri k clean (push (SoTypeDefinition t)) (fun _ => almost).
Proof.
  intros Ht s r s' Hc Hk E. injection E as <- <-. right. split; [exact Hk|]. right. exists t, (es_stack s). auto.
Qed.
Lemma tri_push k o : comp o = [] -> okst o -> tri k clean (push o) (fun _ => clean).
Proof.
  intros Hco Ho s r s' Hc Hk E. injection E as <- <-. right. split; [|constructor; assumption].
  unfold ncomps, comps. cbn [es_stack flat_map]. rewrite Hco. exact Hk.
Qed.

Section Range.
  Context (debug : stack_object -> str) (k : nat).
  Notation E := (sr_emitter debug).
  Notation vis := (visit E).

  Lemma tri_pop_type : tri k clean (pop_type_definition debug) (fun t s => simple_sr t /\ clean s).
  Proof.
    intros [st c] r s' Hc Hk E. unfold clean in *. cbn in *. destruct Hc as [|[i|d|t] st Ho Hc]; injection E as <- <-; cbn in *.
    - right. split; [exact Hk|constructor].
    - unfold ncomps, comps in *. cbn [es_stack flat_map comp] in *. destruct (kind i); cbn in *; [right; auto|left; lia|right; auto].
    - right. auto.
    - right. auto.
  Qed.
  Lemma tri_pop_wf : tri k almost (pop_type_definition debug) (fun t s => wf_sr t /\ clean s).
  Proof.
    intros s r s' [Hc|(t & st & Es & Ht & Hr)] Hk E.
    - destruct (tri_pop_type s r s' Hc Hk E) as [H|[H H']]; [left; exact H|right]. split; [exact H|].
      destruct r; [|exact H']. destruct H'. split; [now apply simple_wf|assumption].
    - unfold pop_type_definition in E. rewrite Es in E. injection E as <- <-. right. split; [|split; assumption].
      unfold ncomps, comps in *. rewrite Es in Hk. exact Hk.
  Qed.
  Lemma tri_pop_ident : tri k almost (pop_ir_identifier debug) (fun i s => tname (unresolved i) /\ clean s).
  Proof.
    intros [st c] r s' Ha Hk E. assert (Hr : Forall okst (match st with [] => [] | _ :: r => r end)).
    { destruct Ha as [Hc|(t & r' & Es & _ & Hr)]; [unfold clean in Hc; cbn in Hc; destruct Hc; [constructor|assumption]|].
      cbn in Es. subst st. exact Hr. }
    cbn in E. destruct st as [|[i|d|t] st]; injection E as <- <-; unfold ncomps, comps in *; cbn in *.
    - right. split; [exact Hk|constructor].
    - destruct Ha as [Hc|(t & r' & Es & _)]; [|discriminate]. unfold clean in Hc. inversion Hc as [|? ? Ho _]; subst. cbn in Ho.
      destruct (kind i); cbn in *; [right|left; lia|right]; (destruct Ho as [Ho|Ho]; [discriminate|]; split; [reflexivity|split; assumption]).
    - right. auto.
    - right. auto.
  Qed.
  Lemma tri_pop_decl : tri k clean (pop_variable_declaration debug) (fun f s => ok_field f /\ clean s).
  Proof.
    intros [st c] r s' Hc Hk E. unfold clean in *. cbn in *. destruct Hc as [|[i|d|t] st Ho Hc]; injection E as <- <-; cbn in *.
    - right. split; [exact Hk|constructor].
    - unfold ncomps, comps in *. cbn [es_stack flat_map comp] in *. destruct (kind i); cbn in *; [right; auto|left; lia|right; auto].
    - right. auto.
    - right. auto.
  Qed.
  Lemma tri_ident : tri k almost (ident_to_type debug) (fun _ => clean).
  Proof.
    unfold ident_to_type. eapply tri_bind; [apply tri_pop_ident| |].
    - intro i. apply tri_fact. intro Hi. apply tri_push; [reflexivity|]. cbn. exists (unresolved i). split; [reflexivity|exact Hi].
    - intro. apply quiet_push. reflexivity.
  Qed.
  Lemma tri_map : tri k almost (pops_to_map debug) (fun _ => almost).
  Proof.
    unfold pops_to_map. eapply tri_bind; [apply tri_pop_wf| |].
    - intro v. apply tri_fact. intro Hv. eapply tri_bind; [apply tri_pop_type| |].
      + intro x. apply tri_fact. intro Hx. apply tri_push_type. now apply ws_map.
      + intro. apply quiet_push. reflexivity.
    - intro. apply quiet_bind; [apply quiet_pop_type|]. intro. apply quiet_push. reflexivity.
  Qed.
  Lemma tri_field n t : lower_id n -> wf_sr t -> tri k clean (field_of n t) (fun f s => ok_field f /\ clean s).
  Proof.
    intros Hn Ht. unfold field_of. destruct (type_from t) as [ty|] eqn:Ety; [|apply tri_panic]. apply tri_ret. intros s Hs.
    split; [split; [exact Hn|eapply wf_sr_types; eassumption]|exact Hs].
  Qed.

  (** ** Nodes *)
  Definition okp (p : piece) : Prop :=
    match p with
    | P t => wf_lexed t
    | Maybe _ => True
    | AddressKind s => s = [] \/ s = lit "contract" \/ s = lit "library" \/ wf_token (TSpecialIdentifier s)
    end.
  Definition good (ps : list piece) (b : bool) : Prop := Forall okp ps /\ b = true.
  Definition ok_node (n : anynode) : Prop :=
    match n with
    | AByteStr x => good (w_bystr x) (k_bystr x)
    | ATypeNameIdentifier x => good (w_tni x) (k_tni x)
    | AMetaIdentifier x => good (w_meta x) (k_meta x)
    | ATypeMapKey x => good (w_key x) (k_key x)
    | ATypeMapValue x => good (w_value x) (k_value x)
    | ATypeArgument x => good (w_arg x) (k_arg x)
    | AScillaType x => good (w_type x) (k_type x)
    | ATypeMapEntry x => good (w_entry x) (k_entry x)
    | AAddressTypeField x => good (w_afield x) (k_afield x)
    | AAddressType x => good (w_addr x) (k_addr x)
    | ATypeMapValueArguments x => good (w_tvarg x) (k_tvarg x)
    | ATypeMapValueAllowingTypeArguments x => good (w_tva x) (k_tva x)
    | _ => False
    end.
  Definition post (n : anynode) : sr_state -> Prop :=
    match n with
    | AByteStr _ | ATypeNameIdentifier _ | AMetaIdentifier _ | ATypeMapKey _ | AAddressTypeField _ => clean
    | _ => almost
    end.
  Lemma ok_quiet n : ok_node n -> quiet_kind n = true.
  Proof. destruct n; cbn; tauto. Qed.
  Lemma post_almost n s : post n s -> almost s.
  Proof. destruct n; cbn; auto using clean_almost. Qed.

  Lemma upper_of s : wf_lexed (TCustomIdentifier s) -> tname s.
  Proof. intro H. left. exact H. Qed.
  Lemma sized_of s : wf_lexed (TByStrWithSize s) -> sized_id s.
  Proof.
    intro H. cbn in H. inversion H as [w t Hk|w t Hk| |ds0 Hne Hd Ex| | | | | | | | ]; subst.
    - clear -Hk. cbn in Hk. repeat (destruct Hk as [Hk|Hk]; [discriminate Hk|]). contradiction.
    - clear -Hk. cbn in Hk. repeat (destruct Hk as [Hk|Hk]; [discriminate Hk|]). contradiction.
    - exists ds0. auto.
  Qed.
  Lemma tni_name n : good (w_tni n) (k_tni n) -> n = EventType \/ tname (type_name_identifier_display n).
  Proof.
    intros [Hw Hk]. destruct n as [b| |s]; [right|left; reflexivity|right].
    - destruct b; [discriminate|]. cbn in *. inversion Hw as [|? ? H _]; subst. right. left. apply sized_of, H.
    - cbn in *. inversion Hw as [|? ? H _]; subst. apply upper_of, H.
  Qed.

  Lemma good_app a b x : good (a ++ b) x <-> good a x /\ good b x.
  Proof. unfold good. rewrite Forall_app. tauto. Qed.
  Lemma good_and a x y : good a (x && y) <-> good a x /\ good a y.
  Proof. unfold good. rewrite andb_true_iff. tauto. Qed.
  Lemma sep_forall c l : Forall okp (sep c l) -> Forall (Forall okp) l.
  Proof.
    destruct l as [|x l]; [constructor|]. cbn [sep]. rewrite Forall_app. intros [H1 H2]. constructor; [exact H1|].
    revert H2. induction l as [|y l IH]; [constructor|]. cbn [flat_map app]. intro H. inversion H as [|? ? _ H']; subst.
    rewrite Forall_app in H'. destruct H'. constructor; auto.
  Qed.
  Lemma flat_forall {A} (f : wm A -> list piece) l : Forall okp (flat_map f l) -> Forall (fun a => Forall okp (f a)) l.
  Proof. rewrite Forall_flat_map. auto. Qed.
  Lemma forall_and {A} (f : A -> list piece) (g : A -> bool) l :
    Forall (fun a => Forall okp (f a)) l -> forallb g l = true -> Forall (fun a => good (f a) (g a)) l.
  Proof.
    induction 1 as [|a l Ha _ IH]; [constructor|]. cbn [forallb]. rewrite andb_true_iff. intros [H1 H2].
    constructor; [split; assumption|apply IH, H2].
  Qed.

  Section Level.
    Context (v : anynode -> EM tr) (Hq : forall n, quiet_kind n = true -> quiet (v n))
      (Hv : forall n, ok_node n -> tri k clean (v n) (fun _ => post n)).

    Lemma tri_w {A} (inj : A -> anynode) w : ok_node (inj (node w)) -> tri k clean (wvisit v inj w) (fun _ => post (inj (node w))).
    Proof. intros Hi s r s'. rewrite wvisit_eq. apply Hv, Hi. Qed.
    Lemma tri_wm {A} (inj : A -> anynode) w : ok_node (inj (node w)) -> tri k clean (visit_wm E v inj w) (fun _ => post (inj (node w))).
    Proof. intros Hi s r s'. rewrite visit_wm_eq. apply Hv, Hi. Qed.
    Lemma tri_wa {A} (inj : A -> anynode) w : ok_node (inj (node w)) -> tri k clean (wvisit v inj w) (fun _ => almost).
    Proof. intro Hi. eapply tri_post; [|apply tri_w, Hi]. intros a s. apply post_almost. Qed.

    Ltac qt :=
      repeat first
        [ apply quiet_ret | apply quiet_raise | apply quiet_panic | apply quiet_pop_type | apply quiet_pop_ident
        | apply quiet_pop_decl | apply quiet_push; reflexivity | apply quiet_field
        | apply quiet_wm; [exact Hq|reflexivity] | apply quiet_w; [exact Hq|reflexivity]
        | apply Hq; reflexivity
        | match goal with |- quiet (bind _ _) => apply quiet_bind; [|intro] end
        | match goal with |- quiet (bind_res _ _) => apply quiet_bind_res; [|intro] end
        | match goal with |- quiet (match ?x with _ => _ end) => destruct x end
        | apply quiet_collect; [exact Hq|reflexivity] | apply quiet_generic; [exact Hq|reflexivity] | apply quiet_afields, Hq
        | progress unfold ident_to_type, pops_to_map, kid_of, kcont ].

    Lemma tri_collect {A} (inj : A -> anynode) l main : (forall x, quiet_kind (inj x) = true) ->
      Forall (fun a => ok_node (inj (node a))) l -> (exists n subs, main = mkSr n subs None /\ tname n /\ wf_srs subs) ->
      tri k clean (collect_sub_types debug v inj l main) (fun t s => wf_sr t /\ clean s).
    Proof.
      intros Hi Hl. revert main. induction Hl as [|a l Ha Hl IH]; intros main (n & subs & -> & Hn & Hs); cbn [collect_sub_types].
      - apply tri_ret. intros s Hc. split; [|exact Hc]. apply ws_name; [exact Hn|exact Hs|discriminate].
      - eapply tri_bind; [apply tri_wa, Ha| |].
        + intros ?; cbv beta. eapply tri_bind; [apply tri_pop_wf| |].
          * intro t. apply tri_fact. intro Ht. apply IH. exists n, (subs ++ [t]). split; [reflexivity|]. split; [exact Hn|].
            apply wf_srs_forall. apply Forall_app. split; [apply wf_srs_forall, Hs|]. constructor; [exact Ht|constructor].
          * intro. apply quiet_collect; [exact Hq|exact Hi].
        + intro. apply quiet_bind; [apply quiet_pop_type|]. intro. apply quiet_collect; [exact Hq|exact Hi].
    Qed.
    Lemma tri_generic {A} (inj : A -> anynode) m l : (forall x, quiet_kind (inj x) = true) ->
      ok_node (AMetaIdentifier (node m)) -> Forall (fun a => ok_node (inj (node a))) l ->
      tri k clean (generic_type debug v inj m l) (fun _ => almost).
    Proof.
      intros Hi Hm Hl. unfold generic_type. eapply tri_bind; [apply tri_wa, Hm| |].
      - intros ?; cbv beta. eapply tri_bind; [apply tri_ident| |].
        + intros ?; cbv beta. destruct l as [|b l]; [apply tri_ret; intros s; apply clean_almost|].
          eapply tri_bind; [apply tri_pop_type| |].
          * intro main. apply tri_fact. intros (n & -> & Hn). eapply tri_bind; [apply tri_collect; [exact Hi|exact Hl|]| |].
            -- exists n, []. repeat split; [exact Hn|constructor].
            -- intro t. apply tri_fact. apply tri_push_type.
            -- intro. qt.
          * intro. apply quiet_bind; [apply quiet_collect; [exact Hq|exact Hi]|]. intro. qt.
        + intro. destruct l; [qt|]. apply quiet_bind; [qt|]. intro. apply quiet_bind; [apply quiet_collect; [exact Hq|exact Hi]|]. intro. qt.
      - intro. apply quiet_bind; [qt|]. intro. destruct l; [qt|]. apply quiet_bind; [qt|]. intro.
        apply quiet_bind; [apply quiet_collect; [exact Hq|exact Hi]|]. intro. qt.
    Qed.
    Lemma tri_afields l : Forall (fun a => ok_node (AAddressTypeField (node a))) l ->
      tri k clean (collect_address_fields debug v l) (fun fs s => (Forall ok_field fs /\ (l = [] -> fs = [])) /\ clean s).
    Proof.
      induction 1 as [|a l Ha Hl IH]; cbn [collect_address_fields].
      - apply tri_ret. intros s Hs. repeat split; [constructor|exact Hs].
      - eapply tri_bind; [apply tri_w, Ha| |].
        + intros ?; cbn [post]; cbv beta. eapply tri_bind; [apply tri_pop_decl| |].
          * intro f. apply tri_fact. intro Hf. eapply tri_bind; [apply IH| |].
            -- intro fs. apply tri_fact. intros [Hfs _]. apply tri_ret. intros s Hs. repeat split; [constructor; assumption|discriminate|exact Hs].
            -- intro. qt.
          * intro. qt.
        + intro. qt.
    Qed.

    Definition cpost (n : anynode) : sr_state -> Prop :=
      match n with
      | AByteStr _ | ATypeNameIdentifier _ | AMetaIdentifier _ | ATypeMapEntry _ => clean
      | _ => fun _ => False
      end.
    Definition epost (n : anynode) (t : tr) : sr_state -> Prop := match t with SkipChildren => post n | Continue => cpost n end.

    Ltac gd H := cbn [w_bystr w_tni w_meta w_key w_value w_arg w_type w_entry w_afield w_addr w_tvarg w_tva w_var w_id w_special
        k_bystr k_tni k_meta k_key k_value k_arg k_type k_entry k_afield k_addr k_tvarg k_tva k_var] in H; unfold good in H;
      repeat rewrite ?Forall_app, ?Forall_cons_iff, ?andb_true_iff in H.
    Ltac step := eapply tri_bind; [|intros ?; cbv beta|intro; qt].
    Ltac node := apply tri_wa; cbn [ok_node]; unfold good; tauto.
    Ltac noded := eapply tri_post; [|apply tri_w; cbn [ok_node]; unfold good; tauto]; intros ?; cbn [post]; auto using clean_almost.
    Ltac fin := apply tri_ret; intros ?; cbn [epost post cpost]; auto using clean_almost.

    Ltac last := match goal with |- tri _ _ _ (epost ?n) => apply (tri_bind k _ (fun _ => post n)); [cbn [post]|intros ?; cbv beta; apply tri_ret; intros ?; cbn [epost post cpost]; auto|intro; qt] end.
    Lemma tri_enter n : ok_node n -> tri k clean (sr_emit debug v Enter n) (epost n).
    Proof.
      destruct n as [n|n|n|n|n|n|n|n|n|n|n|n|n|n|n|n|n|n|n|n|n|n|n|n|n|n|n|n|n|n|n|n|n|n|n|n|n|n|n|n|n|n|n|n|n|n]; intro Hn;
        try contradiction Hn.
      - destruct n; fin.
      - pose proof (tni_name n Hn) as Ht. destruct n as [b| |s]; cbn [sr_emit]; last.
        + apply tri_push; [reflexivity|]. destruct Ht as [Ht|Ht]; [discriminate|]. right. exact Ht.
        + apply tri_ret. intros ? H. exact H.
        + apply tri_push; [reflexivity|]. destruct Ht as [Ht|Ht]; [discriminate|]. right. exact Ht.
      - destruct n; cbn [sr_emit]; try fin. last. apply tri_push; [reflexivity|]. right. right. right. reflexivity.
      - cbn [ok_node] in Hn. destruct n; cbn [sr_emit]; gd Hn; (step; [node|]); (step; [apply tri_ident|]); fin.
      - cbn [ok_node] in Hn. destruct n as [m|e|t|a]; cbn [sr_emit]; gd Hn; last.
        + step; [node|]. eapply tri_post; [|apply tri_ident]. intros ? ?. apply clean_almost.
        + step; [node|]. apply tri_map.
        + step; [node|]. fin.
        + step; [node|]. fin.
      - cbn [ok_node] in Hn. destruct n as [t|m|s|a|x y]; cbn [sr_emit]; gd Hn; last.
        + step; [node|]. fin.
        + step; [node|]. eapply tri_post; [|apply tri_ident]. intros ? ?. apply clean_almost.
        + apply tri_panic.
        + step; [node|]. fin.
        + step; [apply tri_w; cbn [ok_node]; unfold good; tauto|]. cbn [post]. step; [node|]. apply tri_map.
      - cbn [ok_node] in Hn. destruct n as [m args|x y|x y|t|a|x t|x]; cbn [sr_emit]; gd Hn; last.
        + apply tri_generic; [reflexivity|cbn [ok_node]; unfold good; tauto|]. apply forall_and; [|tauto]. apply flat_forall. tauto.
        + step; [apply tri_w; cbn [ok_node]; unfold good; tauto|]. cbn [post]. step; [node|]. apply tri_map.
        + apply tri_panic.
        + step; [node|]. fin.
        + step; [node|]. fin.
        + apply tri_panic.
        + apply tri_panic.
      - destruct n; fin.
      - cbn [ok_node] in Hn. destruct n as [i t]; cbn [sr_emit]; gd Hn. destruct (node i) as [s|s|a s] eqn:Ei; gd Hn; last.
        + step; [node|]. step; [apply tri_pop_wf|]. apply tri_fact. intro Ht. step; [apply tri_field; [destruct Hn as ((_ & Hw & _) & _); inversion Hw; assumption|exact Ht]|].
          apply tri_fact. intro Hf. apply tri_push; [reflexivity|exact Hf].
        + apply tri_ret. intros ? H. exact H.
        + apply tri_ret. intros ? H. exact H.
      - cbn [ok_node] in Hn. destruct n as [i tn fs]; cbn [sr_emit]; gd Hn. destruct Hn as ((Hi & Hw & Ht & Hs & _) & (Hk1 & Hk2) & Hf).
        last. (step; [node|]). (step; [apply tri_ident|]). step; [apply tri_pop_type|]. apply tri_fact. intros (n & -> & Hn').
        step; [apply tri_afields; apply forall_and; [|exact Hf]; apply sep_forall in Hs; rewrite Forall_map in Hs; exact Hs|].
        apply tri_fact. intros [Hfs Hnil]. apply tri_push_type. apply ws_name; [exact Hn'|constructor|].
        intros ad [= <-]. cbn [a_type_name a_fields]. split; [|apply producible_fields_iff, Hfs].
        apply orb_true_iff in Hk2. destruct Hk2 as [Hk2|Hk2].
        + assert (fs = []) by (destruct fs; [reflexivity|discriminate]). cbn [okp] in Ht. unfold address_kind. tauto.
        + left. apply LexerProofs.str_eqb_eq, Hk2.
      - cbn [ok_node] in Hn. destruct n as [t|m|x y]; cbn [sr_emit]; gd Hn; last.
        + step; [node|]. fin.
        + step; [node|]. eapply tri_post; [|apply tri_ident]. intros ? ?. apply clean_almost.
        + apply tri_panic.
      - cbn [ok_node] in Hn. destruct n as [t|m args]; cbn [sr_emit]; gd Hn; last.
        + step; [node|]. fin.
        + apply tri_generic; [reflexivity|cbn [ok_node]; unfold good; tauto|]. apply forall_and; [|tauto]. apply flat_forall. tauto.
    Qed.

    Lemma tri_children n : ok_node n -> tri k (cpost n) (children E v n) (fun _ => post n).
    Proof.
      destruct n as [n|n|n|n|n|n|n|n|n|n|n|n|n|n|n|n|n|n|n|n|n|n|n|n|n|n|n|n|n|n|n|n|n|n|n|n|n|n|n|n|n|n|n|n|n|n]; intro Hn;
        try contradiction Hn; cbn [cpost post]; try apply tri_false.
      - destruct n; apply tri_ret; auto.
      - cbn [ok_node] in Hn. destruct n as [b| |s]; cbn [children]; unfold kcont; [|apply tri_ret; auto..].
        unfold kid_of. step; [apply Hv; exact Hn|]. cbn [post]. apply tri_ret; auto.
      - cbn [ok_node] in Hn. destruct n as [n|a b|h n|]; cbn [children]; gd Hn; unfold kid_of, kcont.
        + step; [apply tri_wm; cbn [ok_node]; unfold good; tauto|]. apply tri_ret; auto.
        + step; [apply tri_wm; cbn [ok_node]; unfold good; tauto|]. cbn [post]. step; [apply tri_wm; cbn [ok_node]; unfold good; tauto|]. apply tri_ret; auto.
        + step; [apply tri_wm; cbn [ok_node]; unfold good; tauto|]. apply tri_ret; auto.
        + apply tri_ret; auto.
      - cbn [ok_node] in Hn. destruct n as [x y]; cbn [children]; gd Hn; unfold kid_of, kcont.
        step; [apply tri_wm; cbn [ok_node]; unfold good; tauto|]. cbn [post]. step; [apply tri_wm; cbn [ok_node]; unfold good; tauto|]. apply tri_ret; auto.
    Qed.

    (** leaving a node whose callback does not act on [Exit] *)
    Lemma tri_exit n : ok_node n -> match n with AAddressType _ => True | _ => cpost n sr_default end ->
      tri k (post n) (sr_emit debug v Exit n) (fun _ => post n).
    Proof.
      destruct n as [n|n|n|n|n|n|n|n|n|n|n|n|n|n|n|n|n|n|n|n|n|n|n|n|n|n|n|n|n|n|n|n|n|n|n|n|n|n|n|n|n|n|n|n|n|n]; intros Hn Hx;
        try contradiction Hn; try contradiction Hx.
      - destruct n; apply tri_ret; auto.
      - destruct n; cbn [sr_emit]; (apply (tri_bind k _ (fun _ => clean)); [apply tri_ret; auto|intro; apply tri_ret; auto|intro; qt]).
      - destruct n; cbn [sr_emit]; try (apply tri_ret; auto). apply (tri_bind k _ (fun _ => clean)); [|intro; apply tri_ret; auto|intro; qt].
        apply tri_push; [reflexivity|]. right. right. right. reflexivity.
      - destruct n; apply tri_ret; auto.
      - destruct n; cbn [sr_emit]; (apply (tri_bind k _ (fun _ => almost)); [apply tri_ret; auto|intro; apply tri_ret; auto|intro; qt]).
    Qed.
    Lemma cpost_default n : (forall s, cpost n s -> False) \/ cpost n sr_default.
    Proof. destruct n; cbn; auto; right; constructor. Qed.
    Lemma tri_node n : ok_node n -> tri k clean (visit_node E v n) (fun _ => post n).
    Proof.
      intro Hn. pose proof (tri_enter n Hn) as He. pose proof (tri_children n Hn) as Hc. pose proof (tri_exit n Hn) as Hx.
      pose proof (quiet_children debug v Hq n (ok_quiet n Hn)) as Qc.
      assert (Qe : forall m, quiet (emit E v m n)) by (intro m; apply quiet_emit; [exact Hq|apply ok_quiet, Hn]).
      assert (Qk : forall kd : kid, quiet match kd with Kid Continue => emit E v Exit n | Kid SkipChildren => ret Continue | Early t => ret t end)
        by (intros [[]|]; [apply Qe|apply quiet_ret|apply quiet_ret]).
      destruct (match n with AAddressType _ => true | _ => false end) eqn:Ea.
      - destruct n as [n|n|n|n|n|n|n|n|n|n|n|n|n|n|n|n|n|n|n|n|n|n|n|n|n|n|n|n|n|n|n|n|n|n|n|n|n|n|n|n|n|n|n|n|n|n]; try discriminate Ea.
        cbn [visit_node]. eapply tri_bind_res; [exact He| | |].
        + intros [|]; cbn [epost cpost post]; [apply tri_false|]. apply (tri_bind k _ (fun kd s => kd = Kid Continue /\ almost s)); [apply tri_ret; auto| |exact Qk].
          intro kd. apply tri_fact. intros ->. apply (Hx I).
        + intro e. apply (tri_bind k _ (fun kd s => kd = Kid Continue /\ almost s)); [apply tri_ret; auto using clean_almost| |exact Qk].
          intro kd. apply tri_fact. intros ->. apply (Hx I).
        + intros [[]|]; (apply quiet_bind; [|exact Qk]); try exact Qc; apply quiet_ret.
      - assert (Std : tri k clean (standard (fun m => emit E v m n) (children E v n)) (fun _ => post n)).
        { unfold standard. eapply tri_bind_res; [exact He| | |].
          - intros [|]; cbn [epost].
            + destruct (cpost_default n) as [Hd|Hd].
              * intros s r s' Hp. destruct (Hd s Hp).
              * eapply tri_bind; [exact Hc| |exact Qk].
                intros [[]|]; [apply Hx; destruct n; auto; discriminate|apply tri_ret; auto|apply tri_ret; auto].
            + apply (tri_bind k _ (fun kd s => kd = Kid SkipChildren /\ post n s)); [apply tri_ret; auto| |exact Qk].
              intro kd. apply tri_fact. intros ->. apply tri_ret. auto.
          - intro e. apply (tri_bind k _ (fun _ _ => False)); [apply tri_raise; auto|intro; apply tri_false|exact Qk].
          - intros [[]|]; (apply quiet_bind; [|exact Qk]); try exact Qc; [apply quiet_ret|apply quiet_raise]. }
        destruct n; try discriminate Ea; exact Std.
    Qed.
  End Level.

  Theorem tri_visit f n : ok_node n -> tri k clean (vis f n) (fun _ => post n).
  Proof.
    revert n. induction f as [|f IH]; intros n Hn; [intros s r s' _ _ H; discriminate|].
    rewrite visit_S. apply tri_node; [intros; now apply quiet_visit|exact IH|exact Hn].
  Qed.

  Definition ok_decl (d : NodeTypedIdentifier) : Prop := good (w_typed d) (k_typed d).
  Lemma tri_decl d : ok_decl d -> tri k clean (decl debug d) (fun f s => ok_field f /\ clean s).
  Proof.
    destruct d as [n a]. unfold ok_decl. cbn [w_typed k_typed w_id]. destruct (node a) as [t] eqn:Ea. unfold decl. cbn [typed_type typed_name].
    rewrite Ea. cbn [w_annot k_annot app]. intros [H Hk]. inversion H as [|? ? Hn H1]; subst. inversion H1 as [|? ? _ Ht]; subst.
    eapply tri_bind; [apply (tri_visit _ (AScillaType (node t))); split; assumption| |].
    - intro. cbn [post]. eapply tri_bind; [apply tri_pop_wf| |intro; apply quiet_field].
      intro x. apply tri_fact. intro Hx. now apply tri_field.
    - intro. apply quiet_bind; [apply quiet_pop_type|]. intro. apply quiet_field.
  Qed.
End Range.

(** ** The whole contract *)
Definition ok_transition (t : transition) : Prop :=
  (lower_id (t_name t) \/ head_id (t_name t)) /\ Forall ok_field (t_params t).
Definition okc (c : contract) : Prop :=
  head_id (c_name c) /\ Forall ok_field (c_init_params c) /\ Forall ok_field (c_fields c) /\ Forall ok_transition (c_transitions c).
Definition inv (s : sr_state) : Prop := clean s /\ ncomps s = 0 /\ okc (es_contract s).

Lemma okc_producible c : okc c -> producible c.
Proof.
  intros (H1 & H2 & H3 & H4). repeat split; [exact H1|apply producible_fields_iff, H2|apply producible_fields_iff, H3|].
  eapply Forall_impl; [|exact H4]. intros t [Ha Hb]. split; [exact Ha|apply producible_fields_iff, Hb].
Qed.

Section Contract.
  Context (debug : stack_object -> str).

  Lemma quiet_decl d : quiet (decl debug d).
  Proof.
    unfold decl, visit_ty. apply quiet_bind; [apply quiet_visit; reflexivity|]. intro. apply quiet_bind; [apply quiet_pop_type|].
    intro. apply quiet_field.
  Qed.
  Lemma quiet_decls l : quiet (decls debug l).
  Proof.
    induction l as [|d l IH]; [apply quiet_ret|]. cbn [decls]. apply quiet_bind; [apply quiet_decl|]. intro.
    apply quiet_bind; [exact IH|]. intro. apply quiet_ret.
  Qed.
  Lemma tri_decls k l : Forall ok_decl l -> tri k clean (decls debug l) (fun fs s => Forall ok_field fs /\ clean s).
  Proof.
    induction 1 as [|d l Hd _ IH]; cbn [decls]; [apply tri_ret; auto|].
    eapply tri_bind; [apply tri_decl, Hd| |intro; apply quiet_bind; [apply quiet_decls|intro; apply quiet_ret]].
    intro f. apply tri_fact. intro Hf. eapply tri_bind; [exact IH| |intro; apply quiet_ret].
    intro fs. apply tri_fact. intro Hfs. apply tri_ret. auto.
  Qed.

  Lemma decl_inv d s f s' : ok_decl d -> inv s -> decl debug d s = Ret (Ok f) s' -> ok_field f /\ inv s'.
  Proof.
    intros Hd (Hc & Hn & Ho) H. pose proof (tri_decl debug 0 d Hd s _ _ Hc Hn H) as [Hl|[Hn' [Hf Hc']]]; [lia|].
    destruct (quiet_decl d _ _ _ H) as [Hq _]. split; [exact Hf|]. split; [exact Hc'|]. split; [exact Hn'|]. rewrite Hq. exact Ho.
  Qed.

  Lemma each_inv {A} (k : A -> EM unit) (ok : A -> Prop) l : (forall a s u s', ok a -> inv s -> k a s = Ret (Ok u) s' -> inv s') ->
    Forall ok l -> forall s u s', inv s -> each k l s = Ret (Ok u) s' -> inv s'.
  Proof.
    intros Hk Hl. induction Hl as [|a l Ha _ IH]; intros s u s' Hs H; cbn [each] in H; [injection H as _ <-; exact Hs|].
    apply bind_inv in H. destruct H as (u1 & s1 & H1 & H). eapply IH; [|exact H]. eapply Hk; eassumption.
  Qed.

  Lemma param_inv d s u s' : ok_decl d -> inv s -> step_param debug d s = Ret (Ok u) s' -> inv s'.
  Proof.
    intros Hd Hs H. apply bind_inv in H. destruct H as (f & s1 & H1 & H). injection H as <- <-.
    destruct (decl_inv d s f s1 Hd Hs H1) as [Hf (Hc & Hn & (O1 & O2 & O3 & O4))]. split; [exact Hc|]. split; [exact Hn|].
    repeat split; cbn; try assumption. apply Forall_app. auto.
  Qed.
  Lemma field_inv d s u s' : ok_decl d -> inv s -> step_field debug d s = Ret (Ok u) s' -> inv s'.
  Proof.
    intros Hd Hs H. apply bind_inv in H. destruct H as (f & s1 & H1 & H). injection H as <- <-.
    destruct (decl_inv d s f s1 Hd Hs H1) as [Hf (Hc & Hn & (O1 & O2 & O3 & O4))]. split; [exact Hc|]. split; [exact Hn|].
    repeat split; cbn; try assumption. apply Forall_app. auto.
  Qed.
  Lemma again_inv d s u s' : ok_decl d -> inv s -> step_again debug d s = Ret (Ok u) s' -> inv s'.
  Proof.
    intros Hd Hs H. apply bind_inv in H. destruct H as (f & s1 & H1 & H). injection H as <- <-.
    destruct (decl_inv d s f s1 Hd Hs H1) as [Hf (Hc & Hn & Ho)]. split; [constructor; [exact Hf|exact Hc]|]. split; [exact Hn|exact Ho].
  Qed.
  Lemma transition_inv t s u s' : (lower_id (fst t) \/ head_id (fst t)) /\ Forall ok_decl (snd t) -> inv s ->
    step_transition debug t s = Ret (Ok u) s' -> inv s'.
  Proof.
    intros [Hname Hd] (Hc & Hn & Ho) H. unfold step_transition in H. apply bind_inv in H. destruct H as (u1 & s1 & H1 & H).
    injection H1 as _ <-. apply bind_inv in H. destruct H as (fs & s2 & H2 & H). apply bind_inv in H. destruct H as (i & s3 & H3 & H).
    destruct (kind i) eqn:Ei; try discriminate. injection H as _ <-.
    set (s1 := mkst _ _) in H2.
    assert (Hc1 : clean s1) by (constructor; [left; reflexivity|exact Hc]).
    assert (Hk1 : comps s1 = [fst t]) by (unfold comps, s1 in *; cbn; f_equal; apply length_zero_iff_nil, Hn).
    assert (Hn1 : ncomps s1 = 1) by (unfold ncomps; rewrite Hk1; reflexivity).
    pose proof (quiet_decls _ _ _ _ H2) as [Hq2 (l2 & Hl2)].
    assert (Hi : comps s2 = unresolved i :: comps s3).
    { unfold pop_ir_identifier in H3. destruct (es_stack s2) as [|[i0|?|?] st] eqn:Es; try discriminate. injection H3 as <- <-.
      unfold comps. rewrite Es. cbn. rewrite Ei. reflexivity. }
    rewrite Hk1, Hi in Hl2. destruct l2 as [|x l2]; [|destruct l2; discriminate Hl2]. cbn in Hl2. injection Hl2 as Hname' Hl2.
    destruct (tri_decls 1 _ Hd s1 _ _ Hc1 Hn1 H2) as [Hl|[_ [Hfs Hc2]]]; [unfold ncomps in Hl; rewrite Hi in Hl; cbn in Hl; lia|].
    assert (Hc3 : clean s3 /\ es_contract s3 = es_contract s2).
    { unfold pop_ir_identifier in H3. unfold clean in *. destruct (es_stack s2) as [|[i0|?|?] st]; try discriminate. injection H3 as <- <-.
      inversion Hc2; subst. split; [assumption|reflexivity]. }
    destruct Hc3 as [Hc3 Ec]. split; [exact Hc3|]. split; [unfold ncomps; change (comps _) with (comps s3); rewrite <- Hl2; reflexivity|].
    cbn [es_contract]. rewrite Ec, Hq2. destruct Ho as (O1 & O2 & O3 & O4). repeat split; cbn; try assumption.
    apply Forall_app. split; [exact O4|]. constructor; [|constructor]. split; cbn; [rewrite <- Hname'; exact Hname|exact Hfs].
  Qed.

  Definition ok_contract (c : NodeContractDefinition) : Prop := good (w_contract c) (k_contract c).
  Lemma head_of n : good (w_tni n) (k_tni n) -> head_id (type_name_identifier_display n) /\ Forall okst (name_stack n).
  Proof.
    intros [Hw Hk]. destruct n as [b| |s].
    - destruct b; [discriminate|]. cbn in *. inversion Hw as [|? ? H _]; subst. apply sized_of in H.
      split; [right; left; exact H|]. constructor; [|constructor]. right. right. left. exact H.
    - split; [right; right; reflexivity|constructor].
    - cbn in *. inversion Hw as [|? ? H _]; subst. split; [left; exact H|]. constructor; [|constructor]. right. left. exact H.
  Qed.
  Lemma pair_ok p : good (w_pair p) (k_pair p) -> ok_decl (let '(mkParameterPair i) := p in node i).
  Proof. destruct p. exact (fun H => H). Qed.
  Lemma params_ok p : good (w_params p) (k_params p) -> Forall ok_decl (param_decls p).
  Proof.
    destruct p as [l]. intros [Hw Hk]. cbn [param_decls]. cbn [k_params] in Hk. unfold all in Hk.
    assert (Hl : Forall (fun p => good (w_pair (node p)) (k_pair (node p))) l).
    { apply forall_and; [|exact Hk]. destruct l as [|a l]; [constructor|]. cbn [w_params] in Hw.
      inversion Hw as [|? ? _ H1]; subst. inversion H1 as [|? ? _ H2]; subst. apply Forall_app in H2. destruct H2 as [H2 _].
      apply (sep_forall TComma (map (fun p => w_pair (node p)) (a :: l))) in H2. rewrite Forall_map in H2. exact H2. }
    rewrite Forall_map. eapply Forall_impl; [|exact Hl]. intros p Hp. apply (pair_ok (node p)), Hp.
  Qed.
  Lemma cid_ok n : good (w_cid n) (k_cid n) -> lower_id (component_name n) \/ head_id (component_name n).
  Proof.
    destruct n as [x|s]; cbn [w_cid k_cid component_name].
    - intro H. right. apply (head_of (node x)), H.
    - intros [H _]. left. inversion H; assumption.
  Qed.

  Theorem contract_range c s u : ok_contract c -> steps debug c (first_state c) = Ret (Ok u) s -> producible (es_contract s).
  Proof.
    intros Hok H. assert (Hi : inv (first_state c) /\ Forall ok_decl (contract_param_decls c) /\ Forall ok_decl (field_decls c)
      /\ Forall (fun t => (lower_id (fst t) \/ head_id (fst t)) /\ Forall ok_decl (snd t)) (transition_decls c)).
    { destruct c as [n ps w fs cs]. unfold ok_contract, good in Hok. cbn [w_contract k_contract] in Hok.
      unfold all in Hok. rewrite Forall_cons_iff, !Forall_app, !andb_true_iff in Hok.
      destruct Hok as ((_ & Hn & Hps & _ & Hfs & Hcs) & (((Kn & Kps) & _) & Kfs) & Kcs).
      destruct (head_of (node n) (conj Hn Kn)) as [Hh Hst].
      split; [|split; [|split]].
      - split; [exact Hst|]. split; [|split; [exact Hh|]; split; [|split]; cbn; constructor].
        unfold first_state, ncomps, comps. cbn. destruct (node n); reflexivity.
      - apply params_ok. split; assumption.
      - cbn [field_decls]. rewrite Forall_map. assert (Hx := forall_and _ _ fs (flat_forall _ _ Hfs) Kfs).
        eapply Forall_impl; [|exact Hx]. intros f [Hf Kf]. destruct (node f) as [t e]. cbn [w_cfield k_cfield] in *.
        rewrite andb_true_iff in Kf. inversion Hf as [|? ? _ Hf']; subst. apply Forall_app in Hf'. split; tauto.
      - cbn [transition_decls]. assert (Hx := forall_and _ _ cs (flat_forall _ _ Hcs) Kcs). rewrite Forall_flat_map.
        eapply Forall_impl; [|exact Hx]. intros d [Hd Kd]. destruct (node d) as [t|p]; [|constructor]. cbn [w_comp k_comp] in *.
        unfold k_wm in *. destruct (node t) as [tn tps tb]. cbn [w_trans k_trans] in *. rewrite !andb_true_iff in Kd.
        inversion Hd as [|? ? _ Hd']; subst. rewrite !Forall_app in Hd'. constructor; [|constructor]. cbn [fst snd]. split.
        + apply cid_ok. split; tauto.
        + apply params_ok. split; tauto. }
    destruct Hi as (Hi & Hp & Hf & Ht). unfold steps in H.
    apply bind_inv in H. destruct H as (u1 & s1 & H1 & H). apply bind_inv in H. destruct H as (u2 & s2 & H2 & H).
    apply bind_inv in H. destruct H as (u3 & s3 & H3 & H).
    apply okc_producible. 
    apply (each_inv _ _ _ param_inv Hp _ _ _ Hi) in H1. apply (each_inv _ _ _ again_inv Hp _ _ _ H1) in H2.
    apply (each_inv _ _ _ field_inv Hf _ _ _ H2) in H3. apply (each_inv _ _ _ transition_inv Ht _ _ _ H3) in H. apply H.
  Qed.
End Contract.
